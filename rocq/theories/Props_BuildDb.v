(** C107-C109: building an inventory with the scripts in tools. *)
From Verif Require Import PyBase ListLemmas PyStr Float64 GridSpec Index IndexSpec IndexProofs IndexProofs2 Builder BuilderSpec BuilderProofs Props_Builder BuildDb.
From Verif Require Stream Mir.
Set Default Proof Using "Type".
Local Open Scope string_scope.
Local Open Scope list_scope.
Local Open Scope Z_scope.

(** ** Names *)

(** Characters that the labels do not tell apart *)
Definition alike (a b : ascii) : Prop :=
  a = b \/ exists p, In p [("n"%char, "N"%char); ("o"%char, "O"%char); ("f"%char, "F"%char); ("/"%char, "x"%char)] /\
    (a = fst p \/ a = snd p) /\ (b = fst p \/ b = snd p).
(** A HEALPix name: H or h, a number, an underscore and one more character from A to z *)
Definition healpix_name (s : string) : Prop :=
  exists h ds a r, chars s = h :: ds ++ "_"%char :: a :: r /\ (h = "H"%char \/ h = "h"%char) /\ ds <> [] /\
    Forall (fun c => 48 <= code c <= 57) ds /\ 65 <= code a <= 122.

Definition swap (c : ascii) : ascii :=
  let c := if Ascii.eqb c "n" then "N"%char else c in
  let c := if Ascii.eqb c "o" then "O"%char else c in
  let c := if Ascii.eqb c "f" then "F"%char else c in
  if Ascii.eqb c "/" then "x"%char else c.
Lemma adjust_chars s : chars (adjust_grid_name s) = map swap (chars s).
Proof. unfold adjust_grid_name, replace1. rewrite !chars_of_chars, !map_map. reflexivity. Qed.
Lemma swap_cases c : (c = "n"%char /\ swap c = "N"%char) \/ (c = "o"%char /\ swap c = "O"%char) \/ (c = "f"%char /\ swap c = "F"%char) \/ (c = "/"%char /\ swap c = "x"%char) \/
  (swap c = c /\ c <> "n"%char /\ c <> "o"%char /\ c <> "f"%char /\ c <> "/"%char).
Proof.
  unfold swap. destruct (Ascii.eqb_spec c "n") as [->|N]; [left; auto|right].
  destruct (Ascii.eqb_spec c "o") as [->|O]; [left; auto|right]. destruct (Ascii.eqb_spec c "f") as [->|F]; [left; auto|right].
  destruct (Ascii.eqb_spec c "/") as [->|S]; [left; auto|right]. auto.
Qed.
Lemma swap_alike a b : swap a = swap b <-> alike a b.
Proof.
  split.
  - intros E. unfold alike.
    destruct (swap_cases a) as [[-> X]|[[-> X]|[[-> X]|[[-> X]|[X _]]]]]; destruct (swap_cases b) as [[-> Y]|[[-> Y]|[[-> Y]|[[-> Y]|[Y _]]]]];
      try (left; reflexivity); try (rewrite X, Y in E; discriminate E); try (left; congruence);
      right; rewrite X, Y in E; subst;
      first [exists ("n"%char, "N"%char); cbn; tauto|exists ("o"%char, "O"%char); cbn; tauto|exists ("f"%char, "F"%char); cbn; tauto|exists ("/"%char, "x"%char); cbn; tauto].
  - intros [->|([l u] & I & A & B)]; [reflexivity|]. cbn in I.
    destruct I as [I|[I|[I|[I|[]]]]]; injection I as <- <-; cbn [fst snd] in A, B; destruct A as [-> | ->]; destruct B as [-> | ->]; reflexivity.
Qed.
Lemma digit_code c : is_digit c = true <-> 48 <= code c <= 57.
Proof. unfold is_digit. rewrite andb_true_iff, !Z.leb_le. reflexivity. Qed.
Lemma healpix_iff s : is_healpix_name s = true <-> healpix_name s.
Proof.
  unfold is_healpix_name, healpix_name. split.
  - destruct (chars s) as [|h r] eqn:E; [discriminate|]. intros H.
    assert (HH : h = "H"%char \/ h = "h"%char). { destruct (Ascii.eqb_spec h "H") as [->|]; [auto|]. destruct (Ascii.eqb_spec h "h") as [->|]; [auto|discriminate H]. }
    assert (X : Ascii.eqb h "H" || Ascii.eqb h "h" = true) by (destruct HH as [-> | ->]; reflexivity). rewrite X in H.
    destruct (span is_digit r) as [ds t] eqn:SP. destruct ds as [|d0 ds]; [discriminate H|]. destruct t as [|u [|a t]]; try discriminate H.
    apply andb_true_iff in H. destruct H as [H1 H2]. apply Ascii.eqb_eq in H1. subst u. unfold is_A_to_z in H2. apply andb_true_iff in H2. rewrite !Z.leb_le in H2.
    apply span_spec in SP. destruct SP as (-> & F & _). exists h, (d0 :: ds), a, t. split; [reflexivity|]. split; [exact HH|]. split; [discriminate|]. split; [|exact H2].
    eapply Forall_impl; [|exact F]. intros c. apply digit_code.
  - intros (h & ds & a & r & -> & HH & N & F & A).
    assert (X : Ascii.eqb h "H" || Ascii.eqb h "h" = true) by (destruct HH as [-> | ->]; reflexivity). rewrite X.
    rewrite (span_app is_digit ds); [|eapply Forall_impl; [|exact F]; intros c; apply digit_code|reflexivity].
    destruct ds as [|d0 ds]; [congruence|]. rewrite Ascii.eqb_refl. unfold is_A_to_z. cbn [andb]. apply andb_true_iff. rewrite !Z.leb_le. exact A.
Qed.
Lemma map_swap l l' : map swap l = map swap l' <-> Forall2 alike l l'.
Proof.
  split.
  - revert l'. induction l as [|a l IH]; intros [|b l'] H; try discriminate H; [constructor|]. cbn in H. injection H as H1 H2. constructor; [apply swap_alike, H1|apply IH, H2].
  - induction 1 as [|a b l l' A F IH]; [reflexivity|]. cbn. rewrite IH. f_equal. apply swap_alike, A.
Qed.
(** HEALPix names are their own labels; the labels of two other names are the same just if the names are
    alike, character by character. *)
Theorem C107_label a b : (healpix_name a -> label a = a) /\
  (~ healpix_name a -> ~ healpix_name b -> (label a = label b <-> Forall2 alike (chars a) (chars b))).
Proof.
  unfold label. split.
  - intros H. apply healpix_iff in H. rewrite H. reflexivity.
  - intros HA HB. destruct (is_healpix_name a) eqn:EA; [apply healpix_iff in EA; contradiction|]. destruct (is_healpix_name b) eqn:EB; [apply healpix_iff in EB; contradiction|].
    rewrite <- map_swap, <- !adjust_chars. split; [intros ->; reflexivity|apply chars_inj].
Qed.

(** The names that build_db.py makes of numbers *)
Definition all_digits (s : string) : Prop := s <> "" /\ Forall (fun c => 48 <= code c <= 57) (chars s).
Definition decimal (s : string) : Prop := s <> "" /\ Forall (fun c => 48 <= code c <= 57 \/ c = "."%char) (chars s).
(** The grid meant by a kind and a number, and its name *)
Inductive grid_name : string -> string -> string -> Prop :=
| gn_ll g : decimal g -> grid_name "ll" g (g ++ "/" ++ g)
| gn_O g : all_digits g -> grid_name "O_rgg" g ("O" ++ g)
| gn_N g : all_digits g -> grid_name "N_rgg" g ("N" ++ g)
| gn_ring g : all_digits g -> grid_name "H_ring" g ("H" ++ g ++ "_ring")
| gn_nested g : all_digits g -> grid_name "H_nested" g ("H" ++ g ++ "_nested").
Lemma named k g x : grid_name k g x -> maker k g = x.
Proof. intros []; reflexivity. Qed.
Definition ink (c : ascii) : Prop := 48 <= code c <= 57 \/ c = "."%char.
Lemma ink_free c : ink c -> c <> "-"%char /\ c <> "/"%char /\ c <> "x"%char /\ c <> "_"%char /\ c <> "O"%char /\ c <> "N"%char /\ c <> "H"%char /\ swap c = c.
Proof.
  intros I. assert (K : forall d, (code d < 46 \/ 57 < code d \/ code d = 47) -> c <> d). { intros d D ->. destruct I as [I|I]; [lia|]. rewrite I in D. vm_compute in D. intuition discriminate. }
  repeat split; try (apply K; vm_compute; auto; fail).
  - destruct (swap_cases c) as [[-> _]|[[-> _]|[[-> _]|[[-> _]|[X _]]]]]; [..|exact X]; exfalso; destruct I as [I|I]; try discriminate I; vm_compute in I; destruct I as [I1 I2]; try (apply I1; reflexivity); try (apply I2; reflexivity).
Qed.
Lemma digits_ink s : all_digits s -> decimal s.
Proof. intros [N F]. split; [exact N|]. eapply Forall_impl; [|exact F]. intros c C. left. exact C. Qed.
Lemma ink_swap l : Forall ink l -> map swap l = l.
Proof. induction 1 as [|c l I F IH]; [reflexivity|]. cbn. rewrite IH. f_equal. apply ink_free, I. Qed.
Lemma ink_not_in c l : Forall ink l -> (c = "-" \/ c = "/" \/ c = "x" \/ c = "_" \/ c = "O" \/ c = "N" \/ c = "H")%char -> ~ In c l.
Proof. intros F C I. rewrite Forall_forall in F. specialize (F c I). apply ink_free in F. intuition congruence. Qed.
(** What the label of such a name is *)
Lemma name_label k g x : grid_name k g x -> chars (label x) = match k with "ll" => chars g ++ "x"%char :: chars g | _ => chars x end.
Proof.
  assert (NH : forall h r, h <> "H"%char -> h <> "h"%char -> is_healpix_name (String h r) = false).
  { intros h r A B. unfold is_healpix_name. cbn [chars list_ascii_of_string]. apply Ascii.eqb_neq in A, B. rewrite A, B. reflexivity. }
  intros [g' D|g' D|g' D|g' D|g' D]; cbv beta iota.
  - pose proof D as [N F]. unfold label. destruct g' as [|c g']; [congruence|].
    assert (IC : ink c) by (inversion F; assumption). destruct (ink_free c IC) as (_ & _ & _ & _ & _ & _ & H & _).
    assert (H' : c <> "h"%char). { intros ->. destruct IC as [I|I]; [vm_compute in I; destruct I as [_ I]; apply I; reflexivity|discriminate I]. }
    change (String c g' ++ "/" ++ String c g')%string with (String c (g' ++ "/" ++ String c g')). rewrite (NH _ _ H H'), adjust_chars.
    change (String c (g' ++ "/" ++ String c g')) with (String c g' ++ ("/" ++ String c g'))%string. rewrite !chars_app, !map_app. rewrite (ink_swap _ F). reflexivity.
  - unfold label. change ("O" ++ g')%string with (String "O" g'). rewrite NH by discriminate. rewrite adjust_chars. change (chars (String "O" g')) with ("O"%char :: chars g'). cbn [map]. rewrite (ink_swap (chars g')); [reflexivity|apply digits_ink, D].
  - unfold label. change ("N" ++ g')%string with (String "N" g'). rewrite NH by discriminate. rewrite adjust_chars. change (chars (String "N" g')) with ("N"%char :: chars g'). cbn [map]. rewrite (ink_swap (chars g')); [reflexivity|apply digits_ink, D].
  - rewrite (proj1 (C107_label _ "")); [reflexivity|]. destruct D as [N F]. exists "H"%char, (chars g'), "r"%char, (chars "ing"). split; [change ("H" ++ g' ++ "_ring")%string with (String "H" (g' ++ "_ring")); cbn [chars list_ascii_of_string]; f_equal; apply chars_app|].
    split; [auto|]. split; [destruct g'; [congruence|discriminate]|]. split; [exact F|vm_compute; split; discriminate].
  - rewrite (proj1 (C107_label _ "")); [reflexivity|]. destruct D as [N F]. exists "H"%char, (chars g'), "n"%char, (chars "ested"). split; [change ("H" ++ g' ++ "_nested")%string with (String "H" (g' ++ "_nested")); cbn [chars list_ascii_of_string]; f_equal; apply chars_app|].
    split; [auto|]. split; [destruct g'; [congruence|discriminate]|]. split; [exact F|vm_compute; split; discriminate].
Qed.
(** Different grids of these kinds have different labels, and the labels have neither dashes nor slashes. *)
Theorem C107_ids k g x k' g' x' : grid_name k g x -> grid_name k' g' x' ->
  make_grid_id [(k, [g])] = [x] /\ (label x = label x' -> k = k' /\ g = g') /\ free_of "-" (label x) /\ free_of "/" (label x).
Proof.
  intros A B. split; [cbn; rewrite (named _ _ _ A); reflexivity|].
  assert (FR : forall c, (c = "-" \/ c = "/")%char -> free_of c (label x)).
  { intros c C. unfold free_of. rewrite (name_label _ _ _ A).
    assert (G : forall s, decimal s -> ~ In c (chars s)) by (intros s [_ F]; apply (ink_not_in c _ F); tauto).
    destruct A as [g0 D|g0 D|g0 D|g0 D|g0 D].
    - intros I. apply in_app_or in I. cbn in I. destruct I as [I|[<-|I]]; [exact (G _ D I)|destruct C; discriminate|exact (G _ D I)].
    - intros [<-|I]; [destruct C; discriminate|exact (G _ (digits_ink _ D) I)].
    - intros [<-|I]; [destruct C; discriminate|exact (G _ (digits_ink _ D) I)].
    - change ("H" ++ g0 ++ "_ring")%string with (String "H" (g0 ++ "_ring")). intros [<-|I]; [destruct C; discriminate|]. change (In c (chars (g0 ++ "_ring")%string)) in I. rewrite chars_app in I. apply in_app_or in I. destruct I as [I|I]; [exact (G _ (digits_ink _ D) I)|].
      cbn in I. destruct C as [-> | ->]; intuition discriminate.
    - change ("H" ++ g0 ++ "_nested")%string with (String "H" (g0 ++ "_nested")). intros [<-|I]; [destruct C; discriminate|]. change (In c (chars (g0 ++ "_nested")%string)) in I. rewrite chars_app in I. apply in_app_or in I. destruct I as [I|I]; [exact (G _ (digits_ink _ D) I)|].
      cbn in I. destruct C as [-> | ->]; intuition discriminate. }
  split; [|split; apply FR; auto].
  intros E. apply (f_equal chars) in E. rewrite (name_label _ _ _ A), (name_label _ _ _ B) in E.
  assert (HD : forall s t, decimal s -> forall c r, (c = "O" \/ c = "N" \/ c = "H")%char -> chars s ++ "x"%char :: t = c :: r -> False).
  { intros s t [N F] c r C Q. destruct s as [|a s]; [congruence|]. injection Q as -> _. inversion F as [|? ? I _]; subst. destruct (ink_free c I) as (_ & _ & _ & _ & X). intuition congruence. }
  assert (HS : forall s t u v, decimal s -> decimal t -> chars (s ++ String "_" u)%string = chars (t ++ String "_" v)%string -> s = t /\ u = v).
  { intros s t u v S T Q. rewrite !chars_app in Q. destruct (app_sep "_" (chars s) (chars u) (chars t) (chars v)) as [Q1 Q2]; [apply (ink_not_in _ _ (proj2 S)); tauto|apply (ink_not_in _ _ (proj2 T)); tauto|exact Q|].
    split; apply chars_inj; assumption. }
  destruct A as [g0 D|g0 D|g0 D|g0 D|g0 D]; destruct B as [h0 D'|h0 D'|h0 D'|h0 D'|h0 D']; try discriminate E;
    try (exfalso; eapply (HD _ _ D); [|exact E]; tauto); try (exfalso; eapply (HD _ _ D'); [|symmetry; exact E]; tauto); (split; [try reflexivity|]).
  - destruct (app_sep "x" _ _ _ _ (ink_not_in "x" _ (proj2 D) ltac:(tauto)) (ink_not_in "x" _ (proj2 D') ltac:(tauto)) E) as [Q _]. apply chars_inj, Q.
  - injection E as E. apply chars_inj, E.
  - injection E as E. apply chars_inj, E.
  - injection E as E. destruct (HS g0 h0 "ring" "ring" (digits_ink _ D) (digits_ink _ D') E) as [-> _]. reflexivity.
  - injection E as E. destruct (HS g0 h0 "ring" "nested" (digits_ink _ D) (digits_ink _ D') E) as [_ Q]. discriminate Q.
  - injection E as E. destruct (HS g0 h0 "ring" "nested" (digits_ink _ D) (digits_ink _ D') E) as [_ Q]. discriminate Q.
  - injection E as E. destruct (HS g0 h0 "nested" "ring" (digits_ink _ D) (digits_ink _ D') E) as [_ Q]. discriminate Q.
  - injection E as E. destruct (HS g0 h0 "nested" "ring" (digits_ink _ D) (digits_ink _ D') E) as [_ Q]. discriminate Q.
  - injection E as E. destruct (HS g0 h0 "nested" "nested" (digits_ink _ D) (digits_ink _ D') E) as [-> _]. reflexivity.
Qed.

(** ** The files of JSON *)
Definition job_json (j : job) : string := json_path (j_dir j) (label (j_src j)) (label (j_target j)) [("interpolation", j_method j)].
(** Labels that can be told apart in a file name *)
Definition plain_job (j : job) : Prop :=
  free_of "-" (label (j_src j)) /\ free_of "/" (label (j_src j)) /\ free_of "-" (label (j_target j)) /\ free_of "/" (label (j_target j)) /\ free_of "/" (j_method j).
Lemma label_first s : starts_with_slash (label s) = false.
Proof.
  unfold label. destruct (is_healpix_name s) eqn:E.
  - apply healpix_iff in E. destruct E as (h & ds & a & r & E & H & _). destruct s as [|c s]; [reflexivity|]. injection E as -> _. destruct H as [-> | ->]; reflexivity.
  - pose proof (adjust_chars s) as A. destruct (adjust_grid_name s) as [|c t]; [reflexivity|]. cbn [starts_with_slash]. destruct (chars s) as [|d l]; [discriminate A|]. injection A as -> _.
    destruct (swap_cases d) as [[_ ->]|[[_ ->]|[[_ ->]|[[_ ->]|(-> & _ & _ & _ & N)]]]]; try reflexivity. apply Ascii.eqb_neq, N.
Qed.
Lemma join_chars d n : starts_with_slash n = false -> exists p, chars (join_path d n) = p ++ chars n /\ (p = [] \/ exists q, p = q ++ ["/"%char]).
Proof.
  intros S. unfold join_path. rewrite S. destruct (String.eqb_spec d "") as [->|N]; cbn [orb].
  - exists []. rewrite chars_app. auto.
  - destruct (ends_with_slash d) eqn:E.
    + exists (chars d). rewrite chars_app. split; [reflexivity|]. right. unfold ends_with_slash in E. destruct (rev (chars d)) as [|c l] eqn:R; [discriminate E|]. apply Ascii.eqb_eq in E. subst c.
      exists (rev l). rewrite <- (rev_involutive (chars d)), R. reflexivity.
    + exists (chars d ++ ["/"%char]). rewrite chars_app. change (chars ("/" ++ n)%string) with ("/"%char :: chars n). rewrite <- app_assoc. split; [reflexivity|eauto].
Qed.
Lemma last_part (p q n m : list ascii) : (p = [] \/ exists r, p = r ++ ["/"%char]) -> (q = [] \/ exists r, q = r ++ ["/"%char]) -> ~ In "/"%char n -> ~ In "/"%char m -> p ++ n = q ++ m -> n = m.
Proof.
  intros P Q N M E.
  assert (X : forall u v w, ~ In "/"%char u -> (v ++ ["/"%char]) ++ w = u -> False). { intros u v w U W. apply U. rewrite <- W. apply in_or_app. left. apply in_or_app. right. left. reflexivity. }
  destruct P as [->|[r ->]]; destruct Q as [->|[r' ->]].
  - exact E.
  - exfalso. exact (X n r' m N (eq_sym E)).
  - exfalso. exact (X m r n M E).
  - rewrite <- !app_assoc in E. cbn in E. apply (f_equal (@rev ascii)) in E. rewrite !rev_app_distr in E. cbn [rev] in E. rewrite <- !app_assoc in E. cbn in E.
    destruct (app_sep "/" (rev n) (rev r) (rev m) (rev r')) as [Q _]; [rewrite <- in_rev; exact N|rewrite <- in_rev; exact M|exact E|].
    apply (f_equal (@rev ascii)) in Q. rewrite !rev_involutive in Q. exact Q.
Qed.
(** One JSON file is used for one pair of labels and one method only. *)
Theorem C107_json j j' : plain_job j -> plain_job j' -> job_json j = job_json j' ->
  label (j_src j) = label (j_src j') /\ label (j_target j) = label (j_target j') /\ j_method j = j_method j'.
Proof.
  intros (A1 & A2 & A3 & A4 & A5) (B1 & B2 & B3 & B4 & B5) E. unfold job_json, json_path in E.
  change (alookup "interpolation" [("interpolation", j_method j)]) with (Some (j_method j)) in E. change (alookup "interpolation" [("interpolation", j_method j')]) with (Some (j_method j')) in E. cbv beta iota in E.
  set (nm := fun j : job => ((label (j_target j) ++ "-" ++ label (j_src j) ++ "-" ++ j_method j) ++ ".json")%string).
  assert (ST : forall j : job, starts_with_slash (nm j) = false). { intros k. unfold nm. pose proof (label_first (j_target k)) as L. destruct (label (j_target k)); [reflexivity|exact L]. }
  assert (CH : forall j : job, chars (nm j) = chars (label (j_target j)) ++ "-"%char :: chars (label (j_src j)) ++ "-"%char :: chars (j_method j) ++ chars ".json").
  { intros k. unfold nm. rewrite !chars_app, <- !app_assoc. reflexivity. }
  assert (FR : forall j : job, free_of "/" (label (j_src j)) -> free_of "/" (label (j_target j)) -> free_of "/" (j_method j) -> ~ In "/"%char (chars (nm j))).
  { intros k K1 K2 K3. rewrite CH. intros I. apply in_app_or in I. destruct I as [I|[I|I]]; [exact (K2 I)|discriminate I|]. apply in_app_or in I. destruct I as [I|[I|I]]; [exact (K1 I)|discriminate I|]. apply in_app_or in I. destruct I as [I|I]; [exact (K3 I)|]. vm_compute in I. intuition discriminate. }
  fold (nm j) in E. fold (nm j') in E. destruct (join_chars (j_dir j) (nm j) (ST j)) as (p & P & SP). destruct (join_chars (j_dir j') (nm j') (ST j')) as (q & Q & SQ).
  rewrite E in P. rewrite P in Q. pose proof (last_part p q _ _ SP SQ (FR j A2 A4 A5) (FR j' B2 B4 B5) Q) as N. rewrite !CH in N.
  destruct (app_sep "-" _ _ _ _ A3 B3 N) as [N1 N2]. destruct (app_sep "-" _ _ _ _ A1 B1 N2) as [N3 N4]. apply app_inv_tail in N4.
  split; [apply chars_inj, N3|]. split; [apply chars_inj, N1|apply chars_inj, N4].
Qed.

Section Runs.
  Variable mars : string -> string -> string -> result unit.
  Variable mir : string -> list (string * string) -> string -> Mir.fs -> option bentry * Mir.fs.
  Variable build : string -> option bool -> option bool -> bentry -> bstate -> result unit * bstate.
  Notation make_one := (make_one mars mir build).
  Notation make_all := (make_all mars mir build).

  Definition is_add (v : event) : bool := match v with EAdd _ _ _ _ => true | _ => false end.
  Definition adds (l : list event) : list event := filter is_add l.
  (** An entry dumped by MIR for the grids and the method of a job of [L] *)
  Definition dumped (L : list job) (log : list event) (json : string) (e : bentry) (j : job) : Prop :=
    In j L /\ json = job_json j /\ exists files,
      In (EMir (j_target j) [("interpolation", j_method j)] (grib_path (label (j_src j))) json files) log /\
      fst (mir (j_target j) [("interpolation", j_method j)] (grib_path (label (j_src j))) files) = Some e.
  Definition jinv (L : list job) (s : tstate) : Prop := forall json e, alookup json (t_json s) = Some e -> exists j, dumped L (t_log s) json e j.
  Lemma dumped_more L log x json e j : dumped L log json e j -> dumped L (log ++ x) json e j.
  Proof. intros (I & E & f & M & R). split; [exact I|]. split; [exact E|]. exists f. split; [apply in_or_app; auto|exact R]. Qed.
  Lemma one_step L j s r s' : In j L -> jinv L s -> make_one j s = (r, s') -> exists x, t_log s' = t_log s ++ x /\ jinv L s' /\
    ((r <> Ok tt /\ adds x = []) \/ exists e, adds x = [EAdd (job_json j) (j_dir j) (index_path j) e] /\ exists j', dumped L (t_log s') (job_json j) e j').
  Proof.
    intros IJ V H. unfold BuildDb.make_one in H. destruct (t_grib_dir s) eqn:G; cbn [negb] in H; [|injection H as <- <-; exists []; rewrite app_nil_r; split; [reflexivity|]; split; [exact V|]; left; split; [discriminate|reflexivity]].
    assert (GS : exists x, t_log (snd (get_grib_file mars (j_src j) (grib_path (label (j_src j))) s)) = t_log s ++ x /\ adds x = [] /\ t_json (snd (get_grib_file mars (j_src j) (grib_path (label (j_src j))) s)) = t_json s).
    { unfold get_grib_file. destruct (existsb _ _); [exists []; rewrite app_nil_r; auto|]. match goal with |- context [mars ?a ?b ?c] => destruct (mars a b c) end; cbn; eexists; split; reflexivity || (split; reflexivity). }
    destruct (get_grib_file mars (j_src j) (grib_path (label (j_src j))) s) as [g s1]. cbn [snd] in GS. destruct GS as (x1 & L1 & X1 & J1).
    assert (V1 : jinv L s1). { intros json e A. rewrite J1 in A. destruct (V json e A) as (k & D). exists k. rewrite L1. apply dumped_more, D. }
    destruct g as [u|ex|]; [|injection H as <- <-; exists x1; split; [exact L1|]; split; [exact V1|]; left; split; [discriminate|exact X1]..].
    unfold create_matrix_files in H. change (json_path (j_dir j) (label (j_src j)) (label (j_target j)) [("interpolation", j_method j)]) with (job_json j) in H.
    assert (DS : exists x, t_log (dump mir (j_target j) [("interpolation", j_method j)] (grib_path (label (j_src j))) (job_json j) s1) = t_log s1 ++ x /\ adds x = [] /\
      jinv L (dump mir (j_target j) [("interpolation", j_method j)] (grib_path (label (j_src j))) (job_json j) s1)).
    { unfold dump. destruct (alookup (job_json j) (t_json s1)) eqn:A; [exists []; rewrite app_nil_r; auto|].
      destruct (mir (j_target j) [("interpolation", j_method j)] (grib_path (label (j_src j))) (t_files s1)) as [[e|] fs] eqn:M; cbn [t_log].
      - eexists. split; [reflexivity|]. split; [reflexivity|]. intros json e' A'. cbn [t_json t_log] in *. destruct (String.eqb_spec (job_json j) json) as [<-|N].
        + rewrite alookup_aset_eq in A'. injection A' as <-. exists j. split; [exact IJ|]. split; [reflexivity|]. exists (t_files s1). split; [apply in_or_app; right; left; reflexivity|rewrite M; reflexivity].
        + rewrite alookup_aset_neq in A' by exact N. destruct (V1 json e' A') as (k & D). exists k. apply dumped_more, D.
      - eexists. split; [reflexivity|]. split; [reflexivity|]. intros json e' A'. cbn [t_json t_log] in *. destruct (V1 json e' A') as (k & D). exists k. apply dumped_more, D. }
    set (s2 := dump mir _ _ _ _ s1) in *. destruct DS as (x2 & L2 & X2 & V2). clearbody s2.
    unfold add in H. destruct (alookup (job_json j) (t_json s2)) as [e|] eqn:A.
    2:{ injection H as <- <-. exists (x1 ++ x2). rewrite L2, L1, app_assoc. split; [reflexivity|]. split; [exact V2|]. left. split; [discriminate|]. unfold adds in *. rewrite filter_app, X1, X2. reflexivity. }
    destruct (V2 _ _ A) as (j' & D').
    match type of H with context [build ?a ?b ?c ?d ?q] => destruct (build a b c d q) as [rb bb] end.
    exists (x1 ++ x2 ++ [EAdd (job_json j) (j_dir j) (index_path j) e]).
    assert (LL : t_log s2 ++ [EAdd (job_json j) (j_dir j) (index_path j) e] = t_log s ++ x1 ++ x2 ++ [EAdd (job_json j) (j_dir j) (index_path j) e]) by (rewrite L2, L1, <- !app_assoc; reflexivity).
    assert (AX : adds (x1 ++ x2 ++ [EAdd (job_json j) (j_dir j) (index_path j) e]) = [EAdd (job_json j) (j_dir j) (index_path j) e]) by (unfold adds in *; rewrite !filter_app, X1, X2; reflexivity).
    assert (T : t_log s' = t_log s2 ++ [EAdd (job_json j) (j_dir j) (index_path j) e] /\ forall json e', alookup json (t_json s') = Some e' -> alookup json (t_json s2) = Some e').
    { destruct rb as [u'|ex|]; cbn in H; injection H as <- <-; [|split; [reflexivity|auto]..]. destruct (j_delete j); (split; [reflexivity|]); [|auto]. intros json e' Q. cbn [t_json] in Q.
      destruct (String.eqb_spec (job_json j) json) as [<-|N]; [rewrite alookup_aremove_eq in Q; discriminate Q|]. rewrite alookup_aremove_neq in Q by exact N. exact Q. }
    destruct T as [TL TJ]. rewrite TL. split; [exact LL|]. split.
    - intros json e' Q. destruct (V2 json e' (TJ _ _ Q)) as (k & D). exists k. rewrite TL. apply dumped_more, D.
    - right. exists e. split; [exact AX|]. exists j'. apply dumped_more, D'.
  Qed.

  (** The request that the entry added for a job was computed for *)
  Definition made_from (L : list job) (log : list event) (j : job) (v : event) : Prop :=
    exists e t files, v = EAdd (job_json j) (j_dir j) (index_path j) e /\
      In (EMir t [("interpolation", j_method j)] (grib_path (label (j_src j))) (job_json j) files) log /\
      fst (mir t [("interpolation", j_method j)] (grib_path (label (j_src j))) files) = Some e /\
      (exists j', In j' L /\ j_target j' = t) /\ label t = label (j_target j).
  Lemma made_more L log x j v : made_from L log j v -> made_from L (log ++ x) j v.
  Proof. intros (e & t & f & E & I & R). exists e, t, f. split; [exact E|]. split; [apply in_or_app; auto|exact R]. Qed.
  (** Without JSON files of earlier runs: the jobs are done in order, until one fails; what is added to the
      index for a job was computed by MIR in this run, for this method, from the data of this source grid,
      and for a target grid with the same label. *)
  Theorem C107_own_partial l s r s' : Forall plain_job l -> t_json s = [] -> adds (t_log s) = [] -> make_all l s = (r, s') ->
    exists k, Forall2 (made_from l (t_log s')) (firstn k l) (adds (t_log s')) /\ (r = Ok tt -> k = List.length l).
  Proof.
    intros PL J0 A0 H.
    assert (G : forall m done s, incl m l -> jinv l s -> make_all m s = (r, s') -> Forall2 (made_from l (t_log s)) done (adds (t_log s)) ->
      exists k, Forall2 (made_from l (t_log s')) (done ++ firstn k m) (adds (t_log s')) /\ (r = Ok tt -> k = List.length m)).
    { clear s J0 A0 H. induction m as [|j m IH]; intros done s IM V H F.
      - cbn in H. injection H as <- <-. exists O. cbn. rewrite app_nil_r. auto.
      - cbn [BuildDb.make_all] in H. destruct (make_one j s) as [r1 s1] eqn:E. assert (IJ : In j l) by (apply IM; left; reflexivity).
        destruct (one_step l j s r1 s1 IJ V E) as (x & L & V1 & C).
        assert (F1 : Forall2 (made_from l (t_log s1)) done (adds (t_log s))). { rewrite L. clear - F. induction F; constructor; [apply made_more; assumption|assumption]. }
        assert (AL : adds (t_log s1) = adds (t_log s) ++ adds x) by (rewrite L; apply filter_app).
        destruct C as [[N X]|(e & X & j' & D)].
        + destruct r1 as [[]|ex|]; [congruence|injection H as <- <-..]; exists O; cbn; rewrite app_nil_r, AL, X, app_nil_r; (split; [exact F1|discriminate]).
        + assert (MF : made_from l (t_log s1) j (EAdd (job_json j) (j_dir j) (index_path j) e)).
          { destruct D as (I & EJ & f & M & R). rewrite Forall_forall in PL. destruct (C107_json j j' (PL j IJ) (PL j' I) EJ) as (E1 & E2 & E3). rewrite <- E1, <- E3 in M, R.
            exists e, (j_target j'), f. split; [reflexivity|]. split; [exact M|]. split; [exact R|]. split; [eauto|]. symmetry. exact E2. }
          assert (F2 : Forall2 (made_from l (t_log s1)) (done ++ [j]) (adds (t_log s1))). { rewrite AL, X. apply Forall2_app; [exact F1|constructor; [exact MF|constructor]]. }
          destruct r1 as [[]|ex|].
          * destruct (IH (done ++ [j]) s1) as (k & FK & OK); [intros y Y; apply IM; right; exact Y|exact V1|exact H|exact F2|]. exists (S k). cbn [firstn]. rewrite <- app_assoc in FK. split; [exact FK|]. intros R. cbn. f_equal. exact (OK R).
          * injection H as <- <-. exists 1%nat. split; [exact F2|discriminate].
          * injection H as <- <-. exists 1%nat. split; [exact F2|discriminate]. }
    apply (G l [] s); [intros y Y; exact Y| |exact H|rewrite A0; constructor]. intros json e A. rewrite J0 in A. discriminate A.
  Qed.
  (** A JSON file that is there is used, whatever computed it; MIR does not run. *)
  Theorem C107_stale_refuted j s e : t_grib_dir s = true -> In (grib_path (label (j_src j))) (t_grib s) -> alookup (job_json j) (t_json s) = Some e ->
    t_log (snd (make_one j s)) = t_log s ++ [EAdd (job_json j) (j_dir j) (index_path j) e].
  Proof.
    intros G I A. unfold BuildDb.make_one. rewrite G. cbn [negb]. unfold get_grib_file.
    assert (X : existsb (String.eqb (grib_path (label (j_src j)))) (t_grib s) = true) by (apply existsb_exists; eexists; split; [exact I|apply String.eqb_refl]). rewrite X.
    unfold create_matrix_files. change (json_path (j_dir j) (label (j_src j)) (label (j_target j)) [("interpolation", j_method j)]) with (job_json j). unfold dump, add. rewrite !A.
    match goal with |- context [build ?a ?b ?c ?d ?q] => destruct (build a b c d q) as [rb bb] end. destruct rb; [|reflexivity..]. destruct (j_delete j); reflexivity.
  Qed.
End Runs.

(** ** C108: which matrices are made *)
Definition wanted (dir : string) (ins outs : list (string * list string)) (extra : list (string * string)) (methods : list string) (j : job) : Prop :=
  In (j_method j) methods /\ j_dir j = join_path dir ("matrices_" ++ j_method j) /\ j_index j = Some (join_path dir "index.json") /\ j_delete j = false /\
  ((exists k v g k' v' g', In (k, v) ins /\ In g v /\ j_src j = maker k g /\ In (k', v') outs /\ In g' v' /\ j_target j = maker k' g' /\ j_src j <> j_target j) \/ In (j_src j, j_target j) extra).
Lemma in_ids x grids : In x (make_grid_id grids) <-> exists k v g, In (k, v) grids /\ In g v /\ x = maker k g.
Proof.
  induction grids as [|[k v] r IH]; cbn [make_grid_id]; [split; [intros []|intros (? & ? & ? & [] & _)]|]. rewrite in_app_iff, in_map_iff, IH. split.
  - intros [(g & <- & I)|(k' & v' & g & I & J & E)]; [exists k, v, g|exists k', v', g]; cbn; auto.
  - intros (k' & v' & g & [E|I] & J & ->); [injection E as <- <-; left; exists g; auto|right; exists k', v', g; auto].
Qed.
Lemma in_method j dir ins outs extra m : In j (method_jobs dir ins outs extra m) <->
  j_method j = m /\ j_dir j = join_path dir ("matrices_" ++ m) /\ j_index j = Some (join_path dir "index.json") /\ j_delete j = false /\
  ((In (j_src j) ins /\ In (j_target j) outs /\ j_src j <> j_target j) \/ In (j_src j, j_target j) extra).
Proof.
  unfold method_jobs. rewrite in_app_iff, in_flat_map, in_map_iff. split.
  - intros [(a & IA & I)|([a b] & <- & I)].
    + apply in_flat_map in I. destruct I as (b & IB & I). destruct (String.eqb_spec a b) as [|N]; cbn [negb] in I; [destruct I|]. destruct I as [<-|[]]. cbn. auto 8.
    + cbn. auto 8.
  - destruct j as [a b m' d i del]. cbn. intros (-> & -> & -> & -> & [(IA & IB & N)|I]).
    + left. exists a. split; [exact IA|]. apply in_flat_map. exists b. split; [exact IB|]. apply String.eqb_neq in N. rewrite N. left. reflexivity.
    + right. exists (a, b). auto.
Qed.
(** The jobs of build_db.py: every pair of different grids with every method, and the extra ones; each once. *)
Theorem C108_jobs dir ins outs extra methods j : In j (db_jobs dir ins outs extra methods) <-> wanted dir ins outs extra methods j.
Proof.
  unfold db_jobs, wanted. rewrite in_flat_map. split.
  - intros (m & IM & I). apply in_method in I. destruct I as (<- & D & X & L & C). split; [exact IM|]. split; [exact D|]. split; [exact X|]. split; [exact L|].
    destruct C as [(A & B & N)|C]; [left|right; exact C]. apply in_ids in A, B. destruct A as (k & v & g & A1 & A2 & A3). destruct B as (k' & v' & g' & B1 & B2 & B3). exists k, v, g, k', v', g'. auto 8.
  - intros (IM & D & X & L & C). exists (j_method j). split; [exact IM|]. apply in_method. split; [reflexivity|]. split; [exact D|]. split; [exact X|]. split; [exact L|].
    destruct C as [(k & v & g & k' & v' & g' & A1 & A2 & A3 & B1 & B2 & B3 & N)|C]; [left|right; exact C]. split; [apply in_ids; exists k, v, g; auto|]. split; [apply in_ids; exists k', v', g'; auto|exact N].
Qed.
Lemma NoDup_two {X} (a b : list X) : NoDup a -> NoDup b -> (forall x, In x a -> ~ In x b) -> NoDup (a ++ b).
Proof. induction 1 as [|x a N D IH]; intros B C; cbn; [exact B|]. constructor; [rewrite in_app_iff; intros [I|I]; [contradiction|exact (C x (or_introl eq_refl) I)]|]. apply IH; [exact B|]. intros y Y0. apply C. right. exact Y0. Qed.
Lemma NoDup_flat {X Y} (f : X -> list Y) l : NoDup l -> (forall x, In x l -> NoDup (f x)) -> (forall x x' y, In x l -> In x' l -> In y (f x) -> In y (f x') -> x = x') -> NoDup (flat_map f l).
Proof.
  induction 1 as [|x l N D IH]; intros A B; cbn; [constructor|]. apply NoDup_two.
  - apply A. left. reflexivity.
  - apply IH; [intros y Y0; apply A; right; exact Y0|]. intros y y' z Y0 Y1. apply B; right; assumption.
  - intros y Y0 F. apply in_flat_map in F. destruct F as (x' & I & F). assert (x = x') as <- by (eapply B; [left; reflexivity|right; exact I|exact Y0|exact F]). contradiction.
Qed.
Theorem C108_once dir ins outs methods : NoDup (make_grid_id ins) -> NoDup (make_grid_id outs) -> NoDup methods -> NoDup (db_jobs dir ins outs [] methods).
Proof.
  intros NI NO NM. apply NoDup_flat; [exact NM| |].
  - intros m _. unfold method_jobs. cbn [map]. rewrite app_nil_r. apply NoDup_flat; [exact NI| |].
    + intros a _. apply NoDup_flat; [exact NO| |].
      * intros b _. destruct (negb _); [repeat constructor; intros []|constructor].
      * intros b b' j _ _ J J'. destruct (negb (String.eqb a b)); [destruct J as [<-|[]]|destruct J]. destruct (negb (String.eqb a b')); [destruct J' as [J'|[]]; injection J' as <-; reflexivity|destruct J'].
    + intros a a' j _ _ J J'. apply in_flat_map in J, J'. destruct J as (b & _ & J). destruct J' as (b' & _ & J'). destruct (negb (String.eqb a b)); [destruct J as [<-|[]]|destruct J]. destruct (negb (String.eqb a' b')); [destruct J' as [J'|[]]; injection J' as <- _; reflexivity|destruct J'].
  - intros m m' j _ _ J J'. apply in_method in J, J'. destruct J as (<- & _). destruct J' as (<- & _). reflexivity.
Qed.

Section Package.
  Variable mars : string -> string -> string -> result unit.
  Variable mir : string -> list (string * string) -> string -> Mir.fs -> option bentry * Mir.fs.
  Variable sha_inter : binter -> string.
  Variable sha_key : mgrid -> mgrid -> binter -> string.
  Variable memory_size : Mir.csrz -> Z.
  Notation build := (make_matrix sha_inter sha_key memory_size).
  Notation build' := (make_matrix_repaired sha_inter sha_key memory_size).

  Lemma one_fails j s : fst (make_one mars mir build j s) <> Ok tt /\ forall p, alookup p (t_index (snd (make_one mars mir build j s))) = alookup p (t_index s).
  Proof.
    unfold make_one. destruct (t_grib_dir s); cbn [negb]; [|split; [discriminate|reflexivity]].
    assert (GI : t_index (snd (get_grib_file mars (j_src j) (grib_path (label (j_src j))) s)) = t_index s).
    { unfold get_grib_file. destruct (existsb _ _); [reflexivity|]. match goal with |- context [mars ?a ?b ?c] => destruct (mars a b c) end; reflexivity. }
    destruct (get_grib_file mars (j_src j) (grib_path (label (j_src j))) s) as [g s1]. cbn [snd] in GI. rewrite <- GI. destruct g as [u|e|]; [|split; [discriminate|reflexivity]..].
    unfold create_matrix_files. set (js := json_path _ _ _ _). set (s2 := dump mir _ _ _ _ s1).
    assert (DI : t_index s2 = t_index s1). { unfold s2, dump. destruct (alookup js (t_json s1)); [reflexivity|]. match goal with |- context [mir ?a ?b ?c ?d] => destruct (mir a b c d) as [[e|] fs] end; reflexivity. }
    rewrite <- DI. clearbody s2. unfold add. destruct (alookup js (t_json s2)) as [e|]; [|split; [discriminate|reflexivity]].
    cbn [logged t_files t_index t_json t_grib t_grib_dir t_log].
    destruct (C59_refuted sha_inter sha_key memory_size (j_dir j) (Some true) (Some true) e (mkB (t_files s2) (alookup (index_path j) (t_index s2)))) as [F S].
    match goal with |- context [build ?a ?b ?c ?d ?q] => destruct (build a b c d q) as [rb bb] end. cbn [fst snd] in F, S. subst bb. cbn [b_files b_index].
    assert (X : forall p, alookup p (match alookup (index_path j) (t_index s2) with Some f => aset (index_path j) f (t_index s2) | None => t_index s2 end) = alookup p (t_index s2)).
    { intros p. destruct (alookup (index_path j) (t_index s2)) as [f|] eqn:A; [|reflexivity]. destruct (String.eqb_spec (index_path j) p) as [<-|N]; [rewrite alookup_aset_eq; auto|apply alookup_aset_neq, N]. }
    destruct rb as [[]|x|]; [congruence|split; [discriminate|exact X]..].
  Qed.
  (** As the package is, the scripts stop at the first matrix and no index changes (builder.make_matrix
      always raises, C59). *)
  Theorem C108_refuted j l s : fst (make_all mars mir build (j :: l) s) <> Ok tt /\ forall p, alookup p (t_index (snd (make_all mars mir build (j :: l) s))) = alookup p (t_index s).
  Proof.
    cbn [make_all]. pose proof (one_fails j s) as O. destruct (make_one mars mir build j s) as [[[]|x|] s1]; cbn [fst snd] in *; [destruct O; congruence|exact O..].
  Qed.

  (** ** C109: with builder.make_matrix repaired *)
  Definition at_index (i : string) (j : job) : Prop := index_path j = i.
  (** The matrix of an entry, at the path that lookups use, below a directory *)
  Definition matrix_below (dir : string) (en : entry brest) (files : Mir.fs) : Prop :=
    exists p z, matrix_path en = Ok p /\ alookup (join_path dir p) files = Some (Mir.Npz z).
  Definition entries_of (i : string) (s : tstate) (en : entry brest) : Prop :=
    exists f m, alookup i (t_index s) = Some f /\ f_matrix f = Some m /\ In (e_name en, e_raw en) m.
  Definition placed_all (L : list job) (i : string) (s : tstate) : Prop := forall en, entries_of i s en -> exists j, In j L /\ matrix_below (j_dir j) en (t_files s).
  Hypothesis mir_keeps : forall t o g fs q z, alookup q fs = Some (Mir.Npz z) -> alookup q (snd (mir t o g fs)) = Some (Mir.Npz z).
  Lemma below_more dir en fs fs' : (forall q z, alookup q fs = Some (Mir.Npz z) -> exists z', alookup q fs' = Some (Mir.Npz z')) -> matrix_below dir en fs -> matrix_below dir en fs'.
  Proof. intros K (p & z & M & A). destruct (K _ _ A) as (z' & A'). exists p, z'. auto. Qed.
  Lemma one_placed L i j s s' : In j L -> at_index i j -> placed_all L i s -> make_one mars mir build' j s = (Ok tt, s') -> placed_all L i s'.
  Proof using mir_keeps.
    intros IJ AI V H. unfold make_one in H. destruct (t_grib_dir s); cbn [negb] in H; [|discriminate H].
    assert (GI : t_index (snd (get_grib_file mars (j_src j) (grib_path (label (j_src j))) s)) = t_index s /\ t_files (snd (get_grib_file mars (j_src j) (grib_path (label (j_src j))) s)) = t_files s).
    { unfold get_grib_file. destruct (existsb _ _); [auto|]. match goal with |- context [mars ?a ?b ?c] => destruct (mars a b c) end; auto. }
    destruct (get_grib_file mars (j_src j) (grib_path (label (j_src j))) s) as [g s1]. cbn [snd] in GI. destruct GI as [GI GF]. destruct g as [u|e|]; [|discriminate H..].
    assert (V1 : placed_all L i s1). { intros en (f & m & A & M & I). rewrite GI in A. destruct (V en) as (k & K & B); [exists f, m; auto|]. exists k. rewrite GF. auto. }
    unfold create_matrix_files in H. set (js := json_path _ _ _ _) in *. set (s2 := dump mir _ _ _ _ s1) in *.
    assert (V2 : placed_all L i s2).
    { unfold s2, dump. destruct (alookup js (t_json s1)); [exact V1|].
      match goal with |- context [mir ?a ?b ?c ?d] => pose proof (mir_keeps a b c d) as MK; destruct (mir a b c d) as [[e|] fs] end;
        intros en (f & m & A & M & I); cbn [t_index t_files snd] in *; (destruct (V1 en) as (k & K & B); [exists f, m; auto|]; exists k; split; [exact K|]; eapply below_more; [|exact B]; intros q z Q; exists z; apply MK, Q). }
    clearbody s2. unfold add in H. destruct (alookup js (t_json s2)) as [e|]; [|discriminate H]. cbn [logged t_files t_index t_json t_grib t_grib_dir t_log] in H.
    match type of H with context [build' ?a ?b ?c ?d ?q] => destruct (build' a b c d q) as [rb bb] eqn:B end. destruct rb as [[]|x|]; [|discriminate H..].
    destruct (C59_built_partial sha_inter sha_key memory_size _ _ _ _ _ _ B) as (i0 & c0 & b0 & z & m & r & dir & name & di & do & BI & BC & BF & BZ & BP & BD & BO & BX & _). cbv zeta in *. rewrite BX in H.
    set (key := sha_key (b_input e) (b_output e) i0) in *.
    assert (T : t_index s' = aset (index_path j) (mkFile (Some 1) (Some (aset key r m))) (t_index s2) /\ t_files s' = b_files bb) by (injection H as <-; destruct (j_delete j); auto).
    destruct T as [TI TF]. intros en (f & m' & A & M & I). rewrite TF. rewrite TI, <- AI, alookup_aset_eq in A. injection A as <-. cbn [f_matrix] in M. injection M as <-.
    destruct (BP (mkEntry (e_input en) (e_output en) key r) eq_refl eq_refl) as (p & MP & AP & KP).
    assert (KEEP : forall q z', alookup q (t_files s2) = Some (Mir.Npz z') -> exists z'', alookup q (b_files bb) = Some (Mir.Npz z'')).
    { intros q z' Q. destruct (String.eqb_spec q (join_path (j_dir j) p)) as [->|N]; [exists z; exact AP|]. exists z'. rewrite (KP q N). exact Q. }
    destruct (aset_split key r m) as (pre & post & E & PO). rewrite E in I. apply in_app_or in I. cbn [In] in I.
    assert (D : (key, r) = (e_name en, e_raw en) \/ In (e_name en, e_raw en) (pre ++ post)) by (destruct I as [I|[I|I]]; [right; apply in_or_app; auto|left; exact I|right; apply in_or_app; auto]).
    destruct D as [D|D].
    - injection D as DK DR. exists j. split; [exact IJ|]. destruct (BP en (eq_sym DR) (eq_sym DK)) as (p' & MP' & AP' & _). exists p', z. auto.
    - apply PO in D. destruct D as [D _]. destruct (V2 en) as (k & K & BL).
      { unfold old_entries in BO. cbn [b_index] in BO. rewrite AI in BO. destruct (alookup i (t_index s2)) as [f|] eqn:AX; [|subst m; destruct D]. exists f, m. destruct BO as [_ BO]. auto. }
      exists k. split; [exact K|]. eapply below_more; [exact KEEP|exact BL].
  Qed.
  (** After a run into one index file, every entry of it that was not there before has its matrix in the
      directory of one of the jobs, under the path that lookups use. *)
  Theorem C109_placed_partial i l s s' : Forall (at_index i) l -> placed_all l i s -> make_all mars mir build' l s = (Ok tt, s') -> placed_all l i s'.
  Proof using mir_keeps.
    intros AT P H. assert (G : forall m s, incl m l -> placed_all l i s -> make_all mars mir build' m s = (Ok tt, s') -> placed_all l i s').
    { clear s P H. induction m as [|j m IH]; intros s IM V H; cbn [make_all] in H; [injection H as <-; exact V|].
      assert (IJ : In j l) by (apply IM; left; reflexivity). destruct (make_one mars mir build' j s) as [[[]|x|] s1] eqn:E; [|discriminate H..].
      apply (IH s1); [intros y Y; apply IM; right; exact Y| |exact H]. rewrite Forall_forall in AT. exact (one_placed l i j s s1 IJ (AT j IJ) V E). }
    apply (G l s); [intros y Y; exact Y|exact P|exact H].
  Qed.
  (** The inventory that build_local_test_db.py makes can be used as it is. *)
  Theorem C109_local_partial dir grids methods s s' en : t_index s = [] -> build_local_test_db mars mir build' dir grids methods s = (Ok tt, s') ->
    entries_of (join_path dir "index.json") s' en -> matrix_below dir en (t_files s').
  Proof using mir_keeps.
    intros I0 H E. unfold build_local_test_db in H.
    assert (J : forall j, In j (local_jobs dir grids methods) -> at_index (join_path dir "index.json") j /\ j_dir j = dir).
    { intros j I. unfold local_jobs in I. apply in_flat_map in I. destruct I as (m & _ & I). apply in_map_iff in I. destruct I as (p & <- & _). split; reflexivity. }
    destruct (C109_placed_partial (join_path dir "index.json") (local_jobs dir grids methods) s s') with (en := en) as (j & IJ & B); [apply Forall_forall; intros j I; apply (J j I)| |exact H|exact E|].
    - intros en' (f & m & A & _). rewrite I0 in A. discriminate A.
    - destruct (J j IJ) as [_ <-]. exact B.
  Qed.
  (** That of build_db.py: the matrices are one directory further down, named after the method. *)
  Theorem C109_db_partial dir ins outs extra s s' en : t_index s = [] -> build_db mars mir build' dir ins outs extra s = (Ok tt, s') ->
    entries_of (join_path dir "index.json") s' en -> exists m, In m ["linear"; "nn"; "grid-box-average"] /\ matrix_below (join_path dir ("matrices_" ++ m)) en (t_files s').
  Proof using mir_keeps.
    intros I0 H E. unfold build_db in H.
    destruct (C109_placed_partial (join_path dir "index.json") (db_jobs dir ins outs extra ["linear"; "nn"; "grid-box-average"]) s s') with (en := en) as (j & IJ & B).
    - apply Forall_forall. intros j I. apply C108_jobs in I. destruct I as (_ & _ & X & _). unfold at_index, index_path. rewrite X. reflexivity.
    - intros en' (f & m & A & _). rewrite I0 in A. discriminate A.
    - exact H.
    - exact E.
    - apply C108_jobs in IJ. destruct IJ as (IM & D & _). exists (j_method j). split; [exact IM|]. rewrite <- D. exact B.
  Qed.
End Package.

(** The links of test_db.py lead to what is there. *)
Lemma links_more test_dir m_dir names links r links' : link_names test_dir m_dir names links = (r, links') -> forall k v, alookup k links = Some v -> alookup k links' = Some v.
Proof.
  revert links. induction names as [|n names IH]; intros links H k v A; cbn in H; [injection H as <- <-; exact A|].
  destruct (alookup (join_path test_dir n) links); [injection H as <- <-; exact A|]. apply (IH _ H). rewrite alookup_app, A. reflexivity.
Qed.
Lemma links_made test_dir m_dir names links links' : link_names test_dir m_dir names links = (Ok tt, links') -> forall n, In n names -> alookup (join_path test_dir n) links' = Some (join_path m_dir n).
Proof.
  revert links. induction names as [|x names IH]; intros links H n I; cbn in H; [destruct I|]. destruct (alookup (join_path test_dir x) links) eqn:A; [discriminate H|].
  destruct I as [<-|I]; [|exact (IH _ H n I)]. eapply links_more; [exact H|]. rewrite alookup_app, A. cbn. rewrite String.eqb_refl. reflexivity.
Qed.
Lemma dirs_more listing test_dir dirs links r links' : link_dirs listing test_dir dirs links = (r, links') -> forall k v, alookup k links = Some v -> alookup k links' = Some v.
Proof.
  revert links. induction dirs as [|d dirs IH]; intros links H k v A; cbn in H.
  - destruct links; injection H as <- <-; exact A.
  - destruct (link_names test_dir d (listing d) links) as [[u|x|] l1] eqn:L; [exact (IH l1 H k v (links_more _ _ _ _ _ _ L k v A))|injection H as <- <-; exact (links_more _ _ _ _ _ _ L k v A)..].
Qed.
Lemma dirs_made listing test_dir dirs links links' : link_dirs listing test_dir dirs links = (Ok tt, links') -> forall d n, In d dirs -> In n (listing d) -> alookup (join_path test_dir n) links' = Some (join_path d n).
Proof.
  revert links. induction dirs as [|d0 dirs IH]; intros links H d n ID IN; cbn in H; [destruct ID|].
  destruct (link_names test_dir d0 (listing d0) links) as [[[]|x|] l1] eqn:L; [|discriminate H..]. destruct ID as [<-|ID]; [|exact (IH l1 H d n ID IN)].
  eapply dirs_more; [exact H|]. exact (links_made _ _ _ _ _ L n IN).
Qed.
(** Through them the matrices for linear and nn are found where lookups in the test directory look. *)
Theorem C109_linked_partial listing test_dir db_dir links m dir file files : build_test_dir listing test_dir db_dir = (Ok tt, links) ->
  m = "linear" \/ m = "nn" -> In dir (listing (join_path db_dir ("matrices_" ++ m))) -> dir <> "" -> file <> "" ->
  through links test_dir dir file files = alookup (join_path (join_path db_dir ("matrices_" ++ m)) (join_path dir file)) files.
Proof.
  intros H M I ND NF. unfold through, build_test_dir in *.
  rewrite (dirs_made _ _ _ _ _ H (join_path db_dir ("matrices_" ++ m)) dir); [|destruct M as [-> | ->]; cbn; auto|exact I]. rewrite join_assoc by assumption. reflexivity.
Qed.

(** If the directories of matrices have nothing in them, the script says so and makes no link. *)
Theorem C109_nothing_to_link listing test_dir db_dir :
  listing (join_path db_dir "matrices_linear") = [] -> listing (join_path db_dir "matrices_nn") = [] -> build_test_dir listing test_dir db_dir = (Raise RuntimeError, []).
Proof. intros A B. unfold build_test_dir. cbn [link_dirs]. rewrite A. cbn [link_names]. rewrite B. reflexivity. Qed.

(** ** The hypotheses are met: O32 to 10/10 with the three methods *)
Definition toy_mars (_ _ _ : string) : result unit := Ok tt.
Definition toy_method (o : list (string * string)) : string :=
  match alookup "interpolation" o with Some m => if String.eqb m "nn" then "nearest-neighbour" else m | None => "linear" end.
Definition toy_mir (_ : string) (o : list (string * string)) (_ : string) (fs : Mir.fs) : option bentry * Mir.fs :=
  (Some (mkBentry o32 ten (Some (mkBinter (mkInter (Some "mir") (Some "16") (Some (MName (toy_method o)))) false [])) (Some "cache.mat") (Some 3)),
   match alookup "cache.mat" fs with Some _ => fs | None => ("cache.mat", Mir.Raw ex_file) :: fs end).
Lemma toy_mir_keeps t o g fs q z : alookup q fs = Some (Mir.Npz z) -> alookup q (snd (toy_mir t o g fs)) = Some (Mir.Npz z).
Proof.
  intros A. unfold toy_mir. cbn [snd]. destruct (alookup "cache.mat" fs) eqn:C; [exact A|]. cbn [alookup]. destruct (String.eqb_spec q "cache.mat") as [->|N]; [congruence|exact A].
Qed.
Definition toy_name (_ _ : mgrid) (i : binter) : string := match i_method (bi i) with Some (MName m) => "k_" ++ m | _ => "k" end.
Definition toy_start := mkT [] [] [] [] true [].
Definition toy_ins : list (string * list string) := [("O_rgg", ["32"])].
Definition toy_outs : list (string * list string) := [("ll", ["10"]); ("O_rgg", ["32"])].
Definition toy_jobs := db_jobs "b" toy_ins toy_outs [] ["linear"; "nn"; "grid-box-average"].
Notation toy_build := (make_matrix_repaired ex_sha toy_name (fun _ => 0)).
Notation toy_db := (build_db toy_mars toy_mir toy_build "b" toy_ins toy_outs [] toy_start).
Example C107_met : Forall plain_job toy_jobs /\ fst toy_db = Ok tt /\ List.length (adds (t_log (snd toy_db))) = 3%nat /\
  map j_src toy_jobs = ["O32"; "O32"; "O32"] /\ map j_target toy_jobs = ["10/10"; "10/10"; "10/10"] /\ map j_method toy_jobs = ["linear"; "nn"; "grid-box-average"].
Proof.
  split; [|split; [|split; [|split; [|split]]]; vm_compute; reflexivity].
  apply Forall_forall. intros j I. unfold toy_jobs in I. vm_compute in I.
  destruct I as [<-|[<-|[<-|[]]]]; unfold plain_job, free_of; (split; [|split; [|split; [|split]]]); intros I; vm_compute in I; intuition discriminate.
Qed.
Example C107_names : grid_name "ll" "0.25" "0.25/0.25" /\ grid_name "O_rgg" "1280" "O1280" /\ grid_name "N_rgg" "320" "N320" /\ grid_name "H_ring" "32" "H32_ring" /\ grid_name "H_nested" "32" "H32_nested" /\
  label "0.25/0.25" = "0.25x0.25" /\ label "H32_nested" = "H32_nested" /\ label "o1280" = "O1280" /\ label "eORCA025_T" = "eORCA025_T".
Proof.
  assert (D : forall s, s <> "" -> forallb (fun c => (48 <=? code c) && (code c <=? 57)) (chars s) = true -> all_digits s).
  { intros s N F. split; [exact N|]. rewrite forallb_forall in F. apply Forall_forall. intros c C. specialize (F c C). apply andb_true_iff in F. rewrite !Z.leb_le in F. exact F. }
  split; [|split; [|split; [|split; [|split]]]]; try (constructor; apply D; [discriminate|vm_compute; reflexivity]); [|repeat split; vm_compute; reflexivity].
  apply gn_ll. split; [discriminate|]. repeat (apply Forall_cons; [first [left; vm_compute; split; discriminate|right; reflexivity]|]). apply Forall_nil.
Qed.
(** Two spellings share a JSON file: MIR runs for the first only. *)
Example C107_spellings :
  let l := [mkJob "O32" "n32" "linear" "b" None false; mkJob "O32" "N32" "linear" "b" None false] in
  map (fun v => match v with EMir t _ _ _ _ => t | EMars g _ _ _ => g | EAdd j _ _ _ => j end) (t_log (snd (make_all toy_mars toy_mir toy_build l toy_start))) = ["O32"; "n32"; "b/N32-O32-linear.json"; "b/N32-O32-linear.json"].
Proof. vm_compute. reflexivity. Qed.
Example C107_stale_met : alookup "b/N32-O32-linear.json" (t_json (snd (make_one toy_mars toy_mir toy_build (mkJob "O32" "N32" "linear" "b" None false) toy_start))) =
  fst (toy_mir "N32" [("interpolation", "linear")] "grib/O32.grib" []).
Proof. vm_compute. reflexivity. Qed.
Example C108_met : NoDup (make_grid_id toy_ins) /\ NoDup (make_grid_id toy_outs) /\ make_grid_id toy_outs = ["10/10"; "O32"].
Proof. split; [|split; [|reflexivity]]; vm_compute; repeat constructor; cbn; intuition discriminate. Qed.
Example C109_local_met : fst (build_local_test_db toy_mars toy_mir toy_build "b" [("5/5", "10/10"); ("H4_ring", "10/10")] ["linear"] toy_start) = Ok tt /\ t_index toy_start = [].
Proof. split; vm_compute; reflexivity. Qed.

(** The directory that build_db.py makes is no inventory: lookups with it fail for all matrices. *)
Theorem C109_refuted : exists r : raw brest, forall a b,
  entries_of "b/index.json" (snd toy_db) (mkEntry a b "k_linear" r) /\ ~ matrix_below "b" (mkEntry a b "k_linear" r) (t_files (snd toy_db)) /\
  matrix_below "b/matrices_linear" (mkEntry a b "k_linear" r) (t_files (snd toy_db)).
Proof.
  eexists. intros a b. split; [|split].
  - do 2 eexists. split; [vm_compute; reflexivity|]. split; [reflexivity|]. left. reflexivity.
  - intros (p & z & M & A). vm_compute in M. injection M as <-. vm_compute in A. discriminate A.
  - do 2 eexists. split; vm_compute; reflexivity.
Qed.
(** Nor does test_db.py link the matrices of the third method, which the index names. *)
Definition toy_listing (d : string) : list string :=
  if String.eqb d "b/matrices_linear" then ["mir_16_linear"] else if String.eqb d "b/matrices_nn" then ["mir_16_nearest-neighbour"] else if String.eqb d "b/matrices_grid-box-average" then ["mir_16_grid-box-average"] else [].
Theorem C109_linked_refuted : fst (build_test_dir toy_listing "t" "b") = Ok tt /\
  (exists r : raw brest, forall x y, entries_of "b/index.json" (snd toy_db) (mkEntry x y "k_grid-box-average" r) /\ matrix_path (mkEntry x y "k_grid-box-average" r) = Ok "mir_16_grid-box-average/k_grid-box-average.npz") /\
  through (snd (build_test_dir toy_listing "t" "b")) "t" "mir_16_grid-box-average" "k_grid-box-average.npz" (t_files (snd toy_db)) = None /\
  (exists z, through (snd (build_test_dir toy_listing "t" "b")) "t" "mir_16_linear" "k_linear.npz" (t_files (snd toy_db)) = Some (Mir.Npz z)).
Proof.
  split; [vm_compute; reflexivity|]. split; [|split; [vm_compute; reflexivity|eexists; vm_compute; reflexivity]].
  eexists. intros x y. split; [do 2 eexists; split; [vm_compute; reflexivity|]; split; [reflexivity|]; right; right; left; reflexivity|vm_compute; reflexivity].
Qed.

Print Assumptions C107_label.
Print Assumptions C107_ids.
Print Assumptions C107_json.
Print Assumptions C107_own_partial.
Print Assumptions C107_stale_refuted.
Print Assumptions C108_jobs.
Print Assumptions C108_once.
Print Assumptions C108_refuted.
Print Assumptions C109_placed_partial.
Print Assumptions C109_local_partial.
Print Assumptions C109_db_partial.
Print Assumptions C109_refuted.
Print Assumptions C109_linked_partial.
Print Assumptions C109_nothing_to_link.
Print Assumptions C109_linked_refuted.
