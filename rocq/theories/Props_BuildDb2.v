(** C112: the data that the scripts in tools ask MARS for, and what they leave behind. *)
From Verif Require Import PyBase ListLemmas PyStr Float64 GridSpec Index Builder BuilderProofs Props_Builder BuildDb Props_BuildDb.
From Verif Require Stream Mir.
Set Default Proof Using "Type".
Local Open Scope string_scope.
Local Open Scope list_scope.
Local Open Scope Z_scope.

(** The paths of the GRIB files that were asked for *)
Inductive asked_for : list event -> list string -> Prop :=
| af_nil : asked_for [] []
| af_mars g c e p l q : asked_for l q -> asked_for (EMars g c e p :: l) (p :: q)
| af_mir t o g j f l q : asked_for l q -> asked_for (EMir t o g j f :: l) q
| af_add j d i e l q : asked_for l q -> asked_for (EAdd j d i e :: l) q.
(** The experiment to ask: that of research for the two finest grids, else the operational one *)
Inductive experiment : string -> string -> string -> Prop :=
| ex_n : experiment "N2560" "rd" "i4ql"
| ex_o : experiment "O2560" "rd" "i4ql"
| ex_other g : g <> "N2560" -> g <> "O2560" -> experiment g "od" "1".

Lemma asked_app l q m r : asked_for l q -> asked_for m r -> asked_for (l ++ m) (q ++ r).
Proof. intros A B. induction A; cbn; [exact B|constructor; assumption..]. Qed.
Lemma asked_in l q p : asked_for l q -> (In p q <-> exists g c e, In (EMars g c e p) l).
Proof.
  intros A. induction A as [|g c e p' l q A IH|t o g j f l q A IH|j d i e l q A IH].
  - split; [intros []|intros (?&?&?&[])].
  - cbn. rewrite IH. split; [intros [->|(g' & c' & e' & I)]; eauto 6|]. intros (g' & c' & e' & [Q|I]); [injection Q as _ _ _ ->; auto|right; eauto].
  - rewrite IH. split; intros (g' & c' & e' & I); exists g', c', e'; [right; exact I|destruct I as [Q|I]; [discriminate Q|exact I]].
  - rewrite IH. split; intros (g' & c' & e' & I); exists g', c', e'; [right; exact I|destruct I as [Q|I]; [discriminate Q|exact I]].
Qed.
Lemma join_grib n : starts_with_slash n = false -> join_path "grib" n = ("grib/" ++ n)%string.
Proof. intros S. unfold join_path. rewrite S. reflexivity. Qed.
Lemma starts_app a b : starts_with_slash a = false -> starts_with_slash b = false -> starts_with_slash (a ++ b)%string = false.
Proof. intros A B. destruct a; [exact B|exact A]. Qed.
Lemma grib_plain n : grib_path (label n) = ("grib/" ++ label n ++ ".grib")%string.
Proof. unfold grib_path. apply join_grib, starts_app; [apply label_first|reflexivity]. Qed.

Section Runs.
  Variable mars : string -> string -> string -> result unit.
  Variable mir : string -> list (string * string) -> string -> Mir.fs -> option bentry * Mir.fs.
  Variable build : string -> option bool -> option bool -> bentry -> bstate -> result unit * bstate.
  Notation make_one := (make_one mars mir build).
  Notation make_all := (make_all mars mir build).

  (** There is data at [p]: there was before, or MARS delivered it *)
  Definition data_at (before : list string) (x : list event) (p : string) : Prop :=
    In p before \/ exists g c e, In (EMars g c e p) x /\ mars g c e = Ok tt.
  Definition good_mars (l : list job) (before : list string) (g c e p : string) : Prop :=
    p = ("grib/" ++ label g ++ ".grib")%string /\ ~ In p before /\ (exists j, In j l /\ j_src j = g) /\ experiment g c e.
  (** [stopped]: the last request failed *)
  Definition ginv (l : list job) (s0 s : tstate) (stopped : bool) : Prop :=
    exists x q, t_log s = t_log s0 ++ x /\ asked_for x q /\ NoDup q /\ t_grib_dir s = t_grib_dir s0 /\
      (forall g c e p, In (EMars g c e p) x -> good_mars l (t_grib s0) g c e p) /\
      (forall p, In p (t_grib s) <-> data_at (t_grib s0) x p) /\
      (stopped = false -> forall p, In p q -> In p (t_grib s)) /\
      (forall a t o gr js fs b, x = a ++ EMir t o gr js fs :: b -> data_at (t_grib s0) a gr).

  Lemma snoc_split {X} (a b : list X) v y x : x ++ [y] = a ++ v :: b -> (exists b', x = a ++ v :: b') \/ (x = a /\ y = v /\ b = []).
  Proof using.
    revert x. induction a as [|c a IH]; intros [|c' x] E; cbn in E.
    - injection E as -> <-. right. auto.
    - injection E as -> E. left. exists x. reflexivity.
    - injection E as -> E. destruct a; discriminate E.
    - injection E as -> E. destruct (IH x E) as [(b' & ->)|(-> & -> & ->)]; [left; exists b'; reflexivity|right; auto].
  Qed.
  Lemma data_more before x y p : data_at before x p -> data_at before (x ++ y) p.
  Proof using. intros [I|(g & c & e & I & M)]; [left; exact I|right; exists g, c, e; split; [apply in_or_app; auto|exact M]]. Qed.

  Lemma grib_step l s0 s j r s' : In j l -> ginv l s0 s false -> get_grib_file mars (j_src j) (grib_path (label (j_src j))) s = (r, s') ->
    ginv l s0 s' (match r with Ok _ => false | _ => true end) /\ (r = Ok tt -> In (grib_path (label (j_src j))) (t_grib s')).
  Proof using.
    intros IJ (x & q & L & A & N & D & G & P & F & M) H. unfold get_grib_file in H. set (pth := grib_path (label (j_src j))) in *.
    destruct (existsb (String.eqb pth) (t_grib s)) eqn:X.
    { injection H as <- <-. split; [exists x, q; auto 10|]. intros _. apply existsb_exists in X. destruct X as (y & I & Q). apply String.eqb_eq in Q. subst y. exact I. }
    assert (NI : ~ In pth (t_grib s)).
    { intros I. assert (T : existsb (String.eqb pth) (t_grib s) = true) by (apply existsb_exists; exists pth; split; [exact I|apply String.eqb_refl]). congruence. }
    match type of H with context [logged ?v s] => set (ev := v) in * end.
    assert (EX : exists c e, ev = EMars (j_src j) c e pth /\ experiment (j_src j) c e).
    { subst ev. do 2 eexists. split; [reflexivity|]. destruct (String.eqb_spec (j_src j) "N2560") as [->|N1]; [constructor|]. destruct (String.eqb_spec (j_src j) "O2560") as [->|N2]; [constructor|]. cbn. constructor; assumption. }
    assert (HM : exists m, (match ev with EMars g c e _ => mars g c e | _ => Ok tt end) = m /\
      (r, s') = (m, match m with Ok _ => mkT (t_files s) (t_index s) (t_json s) (pth :: t_grib s) (t_grib_dir s) (t_log s ++ [ev]) | _ => logged ev s end)).
    { subst ev. eexists. split; [reflexivity|]. cbn [logged] in H. match type of H with context [mars ?a ?b ?c] => destruct (mars a b c) as [[]| |] end; symmetry; exact H. }
    clear H. clearbody ev. destruct EX as (c & e & -> & EX). destruct HM as (m & MM & H). cbn in MM. injection H as -> ->.
    assert (GA : asked_for (x ++ [EMars (j_src j) c e pth]) (q ++ [pth])) by (apply asked_app; [exact A|repeat constructor]).
    assert (GN : NoDup (q ++ [pth])).
    { apply NoDup_rev in N. rewrite <- (rev_involutive (q ++ [pth])). apply NoDup_rev. rewrite rev_app_distr. cbn. constructor; [|exact N].
      rewrite <- in_rev. intros I. apply NI, (F eq_refl), I. }
    assert (GG : forall g' c' e' p', In (EMars g' c' e' p') (x ++ [EMars (j_src j) c e pth]) -> good_mars l (t_grib s0) g' c' e' p').
    { intros g' c' e' p' I. apply in_app_or in I. destruct I as [I|[Q|[]]]; [exact (G _ _ _ _ I)|]. injection Q as <- <- <- <-.
      split; [apply grib_plain|]. split; [|split; [exists j; auto|exact EX]]. intros I. apply NI, P. left. exact I. }
    assert (GM : forall a t o gr js fs b, x ++ [EMars (j_src j) c e pth] = a ++ EMir t o gr js fs :: b -> data_at (t_grib s0) a gr).
    { intros a t o gr js fs b Q. apply snoc_split in Q. destruct Q as [(b' & Q)|(_ & Q & _)]; [exact (M _ _ _ _ _ _ _ Q)|discriminate Q]. }
    destruct m as [[]|ex|].
    - split; [|intros _; left; reflexivity]. exists (x ++ [EMars (j_src j) c e pth]), (q ++ [pth]). cbn [t_log t_grib t_grib_dir]. rewrite L, <- app_assoc.
      split; [reflexivity|]. split; [exact GA|]. split; [exact GN|]. split; [exact D|]. split; [exact GG|]. split; [|split; [|exact GM]].
      + intros p'. split.
        * intros [<-|I]; [right; exists (j_src j), c, e; split; [apply in_or_app; right; left; reflexivity|exact MM]|apply data_more, P, I].
        * intros [I|(g' & c' & e' & I & W)]; [right; apply P; left; exact I|]. apply in_app_or in I. destruct I as [I|[Q|[]]]; [right; apply P; right; eauto|]. injection Q as _ _ _ <-. left. reflexivity.
      + intros _ p' I. apply in_app_or in I. destruct I as [I|[<-|[]]]; [right; exact (F eq_refl _ I)|left; reflexivity].
    - split; [|discriminate]. exists (x ++ [EMars (j_src j) c e pth]), (q ++ [pth]). cbn [t_log t_grib t_grib_dir logged]. rewrite L, <- app_assoc.
      split; [reflexivity|]. split; [exact GA|]. split; [exact GN|]. split; [exact D|]. split; [exact GG|]. split; [|split; [discriminate|exact GM]].
      intros p'. rewrite P. split; [apply data_more|]. intros [I|(g' & c' & e' & I & W)]; [left; exact I|]. apply in_app_or in I. destruct I as [I|[Q|[]]]; [right; eauto|]. injection Q as <- <- <- _. congruence.
    - split; [|discriminate]. exists (x ++ [EMars (j_src j) c e pth]), (q ++ [pth]). cbn [t_log t_grib t_grib_dir logged]. rewrite L, <- app_assoc.
      split; [reflexivity|]. split; [exact GA|]. split; [exact GN|]. split; [exact D|]. split; [exact GG|]. split; [|split; [discriminate|exact GM]].
      intros p'. rewrite P. split; [apply data_more|]. intros [I|(g' & c' & e' & I & W)]; [left; exact I|]. apply in_app_or in I. destruct I as [I|[Q|[]]]; [right; eauto|]. injection Q as <- <- <- _. congruence.
  Qed.
  (** A step that asks MARS for nothing *)
  Lemma quiet_step l s0 s s' b ev : ginv l s0 s b -> t_grib s' = t_grib s -> t_grib_dir s' = t_grib_dir s -> t_log s' = t_log s ++ [ev] ->
    (forall g c e p, ev <> EMars g c e p) -> (forall t o gr js fs, ev = EMir t o gr js fs -> In gr (t_grib s)) -> ginv l s0 s' b.
  Proof using.
    intros (x & q & L & A & N & D & G & P & F & M) EG ED EL NM MI. exists (x ++ [ev]), q. rewrite EL, L, <- app_assoc, EG, ED.
    split; [reflexivity|]. split; [|split; [exact N|split; [exact D|split; [|split; [|split; [exact F|]]]]]].
    - rewrite <- (app_nil_r q). apply asked_app; [exact A|]. destruct ev as [g c e p|t o gr js fs|js d i e]; [exfalso; exact (NM _ _ _ _ eq_refl)|repeat constructor..].
    - intros g c e p I. apply in_app_or in I. destruct I as [I|[Q|[]]]; [exact (G _ _ _ _ I)|exfalso; exact (NM _ _ _ _ Q)].
    - intros p. rewrite P. split; [apply data_more|]. intros [I|(g & c & e & I & W)]; [left; exact I|]. apply in_app_or in I. destruct I as [I|[Q|[]]]; [right; eauto|exfalso; exact (NM _ _ _ _ Q)].
    - intros a t o gr js fs b' Q. apply snoc_split in Q. destruct Q as [(b'' & Q)|(-> & Q & _)]; [exact (M _ _ _ _ _ _ _ Q)|]. apply P, (MI _ _ _ _ _ Q).
  Qed.
  Lemma still_step l s0 s s' b : ginv l s0 s b -> t_grib s' = t_grib s -> t_grib_dir s' = t_grib_dir s -> t_log s' = t_log s -> ginv l s0 s' b.
  Proof using. intros V EG ED EL. destruct V as (x & q & V). exists x, q. rewrite EG, ED, EL. exact V. Qed.

  Lemma one_step l s0 s j r s' : In j l -> ginv l s0 s false -> make_one j s = (r, s') ->
    (exists b, ginv l s0 s' b /\ (r = Ok tt -> b = false)) /\ (r = Ok tt -> In (grib_path (label (j_src j))) (t_grib s')) /\ incl (t_grib s) (t_grib s').
  Proof using.
    intros IJ V H. unfold BuildDb.make_one in H. destruct (negb (t_grib_dir s)) eqn:GD.
    { injection H as <- <-. split; [exists false; auto|]. split; [discriminate|apply incl_refl]. }
    destruct (get_grib_file mars (j_src j) (grib_path (label (j_src j))) s) as [r1 s1] eqn:E1.
    assert (IG : incl (t_grib s) (t_grib s1)).
    { unfold get_grib_file in E1. destruct (existsb _ _) in E1; [injection E1 as _ <-; apply incl_refl|]. destruct (mars _ _ _) in E1; injection E1 as _ <-; cbn [t_grib logged]; [apply incl_tl|..]; apply incl_refl. }
    destruct (grib_step l s0 s j r1 s1 IJ V E1) as [V1 D1].
    destruct r1 as [[]|ex|]; [|injection H as <- <-; split; [exists true; split; [exact V1|discriminate]|split; [discriminate|exact IG]]..].
    specialize (D1 eq_refl). unfold create_matrix_files in H. cbv zeta in H. set (js := json_path _ _ _ _) in H.
    set (s2 := dump mir (j_target j) [("interpolation", j_method j)] (grib_path (label (j_src j))) js s1) in H.
    assert (V2 : ginv l s0 s2 false /\ t_grib s2 = t_grib s1).
    { subst s2. unfold dump. destruct (alookup js (t_json s1)); [auto|]. destruct (mir _ _ _ _) as [[e|] fs]; cbn [t_grib]; (split; [|reflexivity]).
      - eapply quiet_step; [exact V1|reflexivity..| |]; [discriminate|]. intros t o gr js' fs' Q. injection Q as <- <- <- <- <-. exact D1.
      - eapply quiet_step; [exact V1|reflexivity..| |]; [discriminate|]. intros t o gr js' fs' Q. injection Q as <- <- <- <- <-. exact D1. }
    clearbody s2. destruct V2 as [V2 G2].
    destruct (add build js (j_dir j) (index_path j) s2) as [r3 s3] eqn:E3.
    assert (V3 : ginv l s0 s3 false /\ t_grib s3 = t_grib s1).
    { unfold add in E3. destruct (alookup js (t_json s2)) as [e|]; [|injection E3 as _ <-; auto].
      match type of E3 with context [build ?a ?b ?c ?d ?q] => destruct (build a b c d q) as [rb bb] end. injection E3 as _ <-. cbn [t_grib]. split; [|exact G2].
      eapply quiet_step; [exact V2|reflexivity..| |]; discriminate. }
    destruct V3 as [V3 G3].
    destruct r3 as [[]|ex|]; [|injection H as <- <-; rewrite G3; (split; [exists false; auto|]; split; [discriminate|exact IG])..].
    injection H as <- <-. split; [|destruct (j_delete j); cbn [t_grib]; rewrite G3; auto].
    exists false. split; [|reflexivity]. destruct (j_delete j); [|exact V3]. eapply still_step; [exact V3|reflexivity..].
  Qed.

  (** The data asked of MARS: for source grids of the jobs only, where none was, each file once, of the
      research experiment for N2560 and O2560 and of the operational one else.  MIR reads none but data
      that is there.  Without a directory for the data nothing happens. *)
  Theorem C112_data l s r s' : make_all l s = (r, s') ->
    exists x q, t_log s' = t_log s ++ x /\ asked_for x q /\ NoDup q /\
      (forall g c e p, In (EMars g c e p) x -> good_mars l (t_grib s) g c e p) /\
      (forall p, In p (t_grib s') <-> data_at (t_grib s) x p) /\
      (forall a t o gr js fs b, x = a ++ EMir t o gr js fs :: b -> data_at (t_grib s) a gr) /\
      (r = Ok tt -> forall j, In j l -> In ("grib/" ++ label (j_src j) ++ ".grib")%string (t_grib s')) /\
      (t_grib_dir s = false -> l <> [] -> r = Raise AssertionError /\ s' = s).
  Proof using.
    intros H.
    assert (G : forall m s1, incl m l -> ginv l s s1 false -> make_all m s1 = (r, s') ->
      (exists b, ginv l s s' b) /\ (r = Ok tt -> forall j, In j m -> In (grib_path (label (j_src j))) (t_grib s')) /\ incl (t_grib s1) (t_grib s')).
    { clear H. induction m as [|j m IH]; intros s1 IM V H.
      - cbn in H. injection H as <- <-. split; [eauto|]. split; [intros _ j []|apply incl_refl].
      - cbn [BuildDb.make_all] in H. destruct (make_one j s1) as [r1 s2] eqn:E1. destruct (one_step l s s1 j r1 s2 (IM j (or_introl eq_refl)) V E1) as ((b & V2 & B) & D & I).
        destruct r1 as [[]|ex|]; [|injection H as <- <-; split; [eauto|]; split; [discriminate|exact I]..].
        rewrite (B eq_refl) in V2. destruct (IH s2 (fun y Y => IM y (or_intror Y)) V2 H) as (W & D2 & I2). split; [exact W|]. split; [|intros y Y; apply I2, I, Y].
        intros R j' [<-|J]; [apply I2, D; reflexivity|exact (D2 R j' J)]. }
    destruct (G l s (incl_refl l)) as ((b & x & q & L & A & N & D & GG & P & _ & M) & OK & _); [|exact H|].
    { exists [], []. rewrite app_nil_r. split; [reflexivity|]. split; [constructor|]. split; [constructor|]. split; [reflexivity|]. split; [intros g c e p []|].
      split; [intros p; split; [left; assumption|intros [I|(?&?&?&[]&_)]; exact I]|]. split; [intros _ p []|]. intros a t o gr js fs b Q. destruct a; discriminate Q. }
    exists x, q. split; [exact L|]. split; [exact A|]. split; [exact N|]. split; [exact GG|]. split; [exact P|]. split; [exact M|]. split.
    - intros R j J. rewrite <- grib_plain. exact (OK R j J).
    - intros GD NL. destruct l as [|j l]; [congruence|]. cbn [BuildDb.make_all] in H. unfold BuildDb.make_one in H. rewrite GD in H. cbn [negb] in H. injection H as <- <-. auto.
  Qed.

  (** The JSON file of a matrix that was made is left if and only if it is not to be deleted; those of
      others are not touched. *)
  Theorem C112_json j s s' : make_one j s = (Ok tt, s') ->
    (j_delete j = true <-> alookup (job_json j) (t_json s') = None) /\
    (forall p, p <> job_json j -> alookup p (t_json s') = alookup p (t_json s)) /\
    (forall p, p <> index_path j -> alookup p (t_index s') = alookup p (t_index s)).
  Proof using.
    intros H. unfold BuildDb.make_one in H. destruct (negb (t_grib_dir s)); [discriminate H|].
    destruct (get_grib_file mars (j_src j) (grib_path (label (j_src j))) s) as [r1 s1] eqn:E1.
    assert (G : t_json s1 = t_json s /\ t_index s1 = t_index s).
    { unfold get_grib_file in E1. destruct (existsb _ _) in E1; [injection E1 as _ <-; auto|]. destruct (mars _ _ _) in E1; injection E1 as _ <-; auto. }
    destruct G as [G1 G2]. destruct r1 as [[]|ex|]; try discriminate H.
    unfold create_matrix_files in H. cbv zeta in H. change (json_path (j_dir j) (label (j_src j)) (label (j_target j)) [("interpolation", j_method j)]) with (job_json j) in H.
    set (s2 := dump mir (j_target j) [("interpolation", j_method j)] (grib_path (label (j_src j))) (job_json j) s1) in H.
    assert (D : (forall p, p <> job_json j -> alookup p (t_json s2) = alookup p (t_json s)) /\ t_index s2 = t_index s).
    { subst s2. unfold dump. destruct (alookup (job_json j) (t_json s1)); [rewrite G1, G2; auto|]. destruct (mir _ _ _ _) as [[e|] fs]; cbn [t_json t_index]; rewrite G1, G2; [|auto].
      split; [|reflexivity]. intros p N. apply alookup_aset_neq. congruence. }
    clearbody s2. destruct D as [D1 D2]. unfold add in H. destruct (alookup (job_json j) (t_json s2)) as [e|] eqn:A; [|discriminate H].
    match type of H with context [build ?a ?b ?c ?d ?q] => destruct (build a b c d q) as [rb bb] end. destruct rb as [[]|ex|]; try discriminate H. injection H as <-.
    assert (IX : forall p, p <> index_path j -> alookup p (match b_index bb with Some f => aset (index_path j) f (t_index s2) | None => t_index s2 end) = alookup p (t_index s)).
    { intros p N. destruct (b_index bb); [rewrite alookup_aset_neq by congruence|]; rewrite D2; reflexivity. }
    destruct (j_delete j); cbn [t_json t_index].
    - split; [split; [intros _; apply alookup_aremove_eq|reflexivity]|]. split; [|exact IX]. intros p N. rewrite alookup_aremove_neq by congruence. apply D1, N.
    - split; [split; [discriminate|]; intros Q; cbn in Q; congruence|]. split; [exact D1|exact IX].
  Qed.
End Runs.

(** The package is asked to declare both grids global, never otherwise. *)
Theorem C112_flags mars mir build build' l s : (forall d e b, build d (Some true) (Some true) e b = build' d (Some true) (Some true) e b) ->
  make_all mars mir build l s = make_all mars mir build' l s.
Proof.
  intros EQ. revert s. induction l as [|j l IH]; intros s; [reflexivity|]. cbn [make_all].
  assert (E : make_one mars mir build j s = make_one mars mir build' j s).
  { unfold make_one. destruct (negb (t_grib_dir s)); [reflexivity|]. destruct (get_grib_file _ _ _ _) as [[[]| |] s1]; [|reflexivity..].
    unfold create_matrix_files, add. cbv zeta. destruct (alookup _ _); [|reflexivity]. rewrite EQ. reflexivity. }
  rewrite E. destruct (make_one mars mir build' j s) as [[[]| |] s1]; [apply IH|reflexivity..].
Qed.

(** The label does not decide: written in lower case the grid gets the same file, of the other experiment,
    and it is then used for both. *)
Theorem C112_class_refuted mars mir build t m d ix del s : mars "n2560" "od" "1" = Ok tt -> t_grib_dir s = true -> ~ In "grib/N2560.grib" (t_grib s) -> 
  let s1 := snd (make_one mars mir build (mkJob "n2560" t m d ix del) s) in
  In (EMars "n2560" "od" "1" "grib/N2560.grib") (t_log s1) /\ In "grib/N2560.grib" (t_grib s1) /\
  exists x, t_log (snd (make_one mars mir build (mkJob "N2560" t m d ix del) s1)) = t_log s1 ++ x /\ asked_for x [].
Proof.
  intros OK GD NI s1.
  assert (R : make_all mars mir build [mkJob "n2560" t m d ix del] s = (fst (make_one mars mir build (mkJob "n2560" t m d ix del) s), s1)).
  { subst s1. cbn [make_all]. destruct (make_one _ _ _ _ _) as [[[]| |] z]; reflexivity. }
  assert (IE : In (EMars "n2560" "od" "1" "grib/N2560.grib") (t_log s1)).
  { subst s1. unfold make_one. rewrite GD. cbn [negb j_src]. change (grib_path (label "n2560")) with "grib/N2560.grib". unfold get_grib_file.
    assert (X : existsb (String.eqb "grib/N2560.grib") (t_grib s) = false).
    { destruct (existsb _ _) eqn:X; [|reflexivity]. apply existsb_exists in X. destruct X as (y & I & Q). apply String.eqb_eq in Q. subst y. contradiction. }
    rewrite X. cbn [String.eqb orb Ascii.eqb Bool.eqb]. change (String.eqb "n2560" "N2560" || String.eqb "n2560" "O2560") with false. cbn match. rewrite OK.
    unfold create_matrix_files. cbv zeta. set (js := json_path _ _ _ _).
    match goal with |- context [dump mir ?a ?b ?c ?e ?z] => set (s2 := dump mir a b c e z); assert (I2 : In (EMars "n2560" "od" "1" "grib/N2560.grib") (t_log s2)) end.
    { subst s2. unfold dump. cbn [t_json logged t_files t_log]. destruct (alookup js (t_json s)); [apply in_or_app; right; left; reflexivity|].
      destruct (mir _ _ _ _) as [[e|] fs]; cbn [t_log]; apply in_or_app; left; apply in_or_app; right; left; reflexivity. }
    clearbody s2. unfold add. destruct (alookup js (t_json s2)) as [e|]; [|exact I2].
    match goal with |- context [build ?a ?b ?c ?e' ?q] => destruct (build a b c e' q) as [rb bb] end. destruct rb; [destruct del|..]; cbn; apply in_or_app; left; exact I2. }
  destruct (C112_data _ _ _ _ _ _ _ R) as (x & q & L & _ & _ & GG & P & _ & _ & _).
  split; [exact IE|]. 
  assert (IX : In "grib/N2560.grib" (t_grib s1)).
  { unfold s1 in *. clear - R OK GD NI. unfold make_one. rewrite GD. cbn [negb j_src]. change (grib_path (label "n2560")) with "grib/N2560.grib". unfold get_grib_file.
    assert (X : existsb (String.eqb "grib/N2560.grib") (t_grib s) = false).
    { destruct (existsb _ _) eqn:X; [|reflexivity]. apply existsb_exists in X. destruct X as (y & I & Q). apply String.eqb_eq in Q. subst y. contradiction. }
    rewrite X. change (String.eqb "n2560" "N2560" || String.eqb "n2560" "O2560") with false. cbn match. rewrite OK.
    unfold create_matrix_files. cbv zeta. set (js := json_path _ _ _ _).
    match goal with |- context [dump mir ?a ?b ?c ?e ?z] => set (s2 := dump mir a b c e z); assert (I2 : In "grib/N2560.grib" (t_grib s2)) end.
    { subst s2. unfold dump. cbn [t_json logged t_files t_log]. destruct (alookup js (t_json s)); [left; reflexivity|].
      destruct (mir _ _ _ _) as [[e|] fs]; cbn [t_grib]; left; reflexivity. }
    clearbody s2. unfold add. destruct (alookup js (t_json s2)) as [e|]; [|exact I2].
    match goal with |- context [build ?a ?b ?c ?e' ?q] => destruct (build a b c e' q) as [rb bb] end. destruct rb; [destruct del|..]; cbn; exact I2. }
  split; [exact IX|]. clear R. clearbody s1.
  assert (R2 : make_all mars mir build [mkJob "N2560" t m d ix del] s1 = (fst (make_one mars mir build (mkJob "N2560" t m d ix del) s1), snd (make_one mars mir build (mkJob "N2560" t m d ix del) s1))).
  { cbn [make_all]. destruct (make_one _ _ _ _ _) as [[[]| |] z]; reflexivity. }
  destruct (C112_data _ _ _ _ _ _ _ R2) as (x2 & q2 & L2 & A2 & _ & GG2 & _).
  exists x2. split; [exact L2|]. destruct q2 as [|p q2]; [exact A2|]. exfalso.
  destruct (proj1 (asked_in _ _ p A2) (or_introl eq_refl)) as (g & c & e & I). destruct (GG2 _ _ _ _ I) as (-> & NI2 & (j & [<-|[]] & <-) & _). apply NI2, IX.
Qed.

(** ** The hypotheses are met *)
Example C112_met : let s := snd (make_all toy_mars toy_mir toy_build [mkJob "O2560" "10/10" "linear" "b" None true; mkJob "O2560" "10/10" "nn" "b" None false; mkJob "O32" "10/10" "nn" "b" None false] toy_start) in
  exists x, asked_for (t_log s) x /\ x = ["grib/O2560.grib"; "grib/O32.grib"] /\ In (EMars "O2560" "rd" "i4ql" "grib/O2560.grib") (t_log s) /\ t_grib s = ["grib/O32.grib"; "grib/O2560.grib"].
Proof. eexists. split; [vm_compute; repeat constructor|]. split; [reflexivity|]. split; [vm_compute; left; reflexivity|vm_compute; reflexivity]. Qed.
Example C112_json_met : fst (make_one toy_mars toy_mir toy_build (mkJob "O32" "10/10" "nn" "b" None true) toy_start) = Ok tt /\
  fst (make_one toy_mars toy_mir toy_build (mkJob "O32" "10/10" "nn" "b" None false) toy_start) = Ok tt.
Proof. split; vm_compute; reflexivity. Qed.

Print Assumptions C112_data.
Print Assumptions C112_json.
Print Assumptions C112_flags.
Print Assumptions C112_class_refuted.
