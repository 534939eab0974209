(** Public calls: the requests they make to the databases, for any databases. *)
From Verif Require Import PyBase ListLemmas PyStr Float64 GridSpec Regrid RegridSpec System SystemSpec Dispatch Props_Dispatch Api ApiSpec ApiProofs Props_Api.
Set Default Proof Using "Type".
Local Open Scope string_scope.
Local Open Scope list_scope.
Local Open Scope Z_scope.

Section Trace.
  Context {A S E field : Type}.
  Variables (zero : A) (add mul : A -> A -> A).
  Variable find : E -> database -> dict -> dict -> val -> S -> S * result (option (weights A)).
  Variable mir_array : array A -> option dict -> option dict -> dict -> result (array A * dict).
  Variable mir_grib : string -> option dict -> dict -> result string.
  Variable field_values : field -> result (array A).
  Variable field_grid : field -> result (option dict).
  Variable field_with : field -> array A -> dict -> result field.
  Variable field_message : field -> result string.
  Variable message_field : string -> result field.
  Notation finding := (finding (A := A) (S := S) find).
  Notation array_regrid := (array_regrid zero add mul find mir_array).
  Notation backend_regrid := (backend_regrid zero add mul find mir_array).
  Notation array_fields := (array_fields zero add mul find mir_array field_values field_grid field_with).
  Notation fields_regrid := (fields_regrid zero add mul find mir_array mir_grib field_values field_grid field_with field_message message_field).
  Notation regrid_call := (regrid_call zero add mul find mir_array mir_grib field_values field_grid field_with field_message message_field).
  Notation interpolated_fields := (interpolated_fields zero add mul find field_values field_grid field_with).
  Notation interpolate_call := (interpolate_call zero add mul find field_values field_grid field_with).
  Notation pafter := (pafter zero add mul find mir_array mir_grib field_values field_grid field_with field_message message_field).
  Notation pstep := (pstep zero add mul find mir_array mir_grib field_values field_grid field_with field_message message_field).
  Notation pcall := (@pop_call A S E field).
  Notation demands := (demands (S := S) (E := E) field_values field_grid).
  Implicit Types (H : list pcall) (o : obj) (x : E) (y : S).

  Definition fstep y (r : demand A E) : S := fst (find (dm_meets r) (dm_db r) (dm_in r) (dm_out r) (dm_method r) y).
  Local Ltac parts := split; [|split; [|split]]; try (intros ? Q0; discriminate Q0); auto.

  (** An action makes requests that satisfy [P], and its result satisfies [R]. *)
  Definition emits {X} (P : demand A E -> Prop) (R : X -> Prop) (a : act (api S) X) : Prop := forall y mk, fine mk ->
    exists h, p_sys (fst (a (mkApi y mk))) = fold_left fstep h y /\ Forall P h /\ fine (p_maker (fst (a (mkApi y mk)))) /\ forall r, snd (a (mkApi y mk)) = Ok r -> R r.
  Lemma emits_lift {X} P (R : X -> Prop) r : (forall v, r = Ok v -> R v) -> emits P R (lift r).
  Proof. intros Q y mk F. exists []. cbn. auto. Qed.
  Lemma emits_bind {X Y} P (R : X -> Prop) (Q : Y -> Prop) a k : emits P R a -> (forall r, R r -> emits P Q (k r)) -> emits P Q (seq_act a k).
  Proof.
    intros HA K y mk F. destruct (HA y mk F) as (h & PS & PH & F1 & RR). unfold seq_act. destruct (a (mkApi y mk)) as [[y1 mk1] r]. cbn [fst snd p_sys p_maker] in *.
    destruct r as [r|e|]; [|exists h; cbn; parts..]. subst y1. destruct (K r (RR r eq_refl) (fold_left fstep h y) mk1 F1) as (h' & PS' & PH' & F' & RR').
    exists (h ++ h'). rewrite fold_left_app. split; [exact PS'|]. split; [apply Forall_app; auto|]. auto.
  Qed.
  Lemma emits_sim {X} P (R : X -> Prop) a : sim Logic.eq a a -> (forall s, p_sys (fst (a s)) = p_sys s) -> (forall y mk, fine mk -> forall r, snd (a (mkApi y mk)) = Ok r -> R r) -> emits P R a.
  Proof using. clear. intros SA N RR y mk F. exists []. rewrite N. split; [reflexivity|]. split; [constructor|]. split; [exact (proj1 (proj2 (SA y mk mk F F)))|]. intros r Q. exact (RR y mk F r Q). Qed.

  Definition request_of x (o : obj) (v : array A) (i g : option dict) (m : val) (c : demand A E) : Prop :=
    exists db di do, db_of_obj o = Ok db /\ i = Some di /\ g = Some do /\ c = mkDemand x db v di do m.
  Lemma finding_emits x o v i g m : emits (request_of x o v i g m) (fun _ => True) (finding x o i g m).
  Proof.
    intros y mk F. unfold Api.finding. destruct (db_of_obj o) as [db|e|] eqn:D; [|exists []; cbn; auto..].
    destruct i as [di|]; [|exists []; cbn; auto]. destruct g as [do|]; [|exists []; cbn; auto]. cbn [p_sys p_maker].
    exists [mkDemand x db v di do m]. cbn [fold_left]. unfold fstep. cbn [dm_meets dm_db dm_in dm_out dm_method]. destruct (find x db di do m y) as [y' r]. cbn [fst snd p_sys p_maker].
    split; [reflexivity|]. split; [|auto]. constructor; [|constructor]. exists db, di, do. auto 6.
  Qed.
  Lemma backend_emits x o v i g kw m : alookup "interpolation" kw = Some m ->
    emits (fun c => is_mir o = false /\ request_of x o v i g m c) (fun p => is_mir o = false -> g = Some (snd p)) (backend_regrid x o v i g kw).
  Proof.
    intros M. unfold Api.backend_regrid. destruct (is_mir o) eqn:IM; [apply emits_lift; intros ? _ Q0; discriminate Q0|]. unfold precomputed_regrid. destruct (forallb _ kw); [|intros y mk F; exists []; cbn; parts]. rewrite M.
    eapply emits_bind with (R := fun t => t = m); [apply emits_lift; congruence|]. intros ? ->. intros y mk F.
    destruct (finding_emits x o v i g m y mk F) as (h & PS & PH & F1 & _). unfold seq_act, lift. destruct (finding x o i g m (mkApi y mk)) as [s1 r]. cbn [fst snd] in *. exists h.
    assert (FH : Forall (fun c => false = false /\ request_of x o v i g m c) h) by (eapply Forall_impl; [|exact PH]; auto).
    destruct r as [zs|e|]; cbn [fst snd]; parts. intros [u d] Q _. destruct zs as [[z w]|]; [|discriminate Q]. destruct (matmul _ _ _ _ _); [|discriminate Q..]. cbn [bind] in Q. destruct (as_shape w); [|discriminate Q..]. cbn [bind] in Q.
    destruct (reshape _ _ _); [|discriminate Q..]. cbn [bind] in Q. destruct g; [|discriminate Q]. injection Q as <- <-. reflexivity.
  Qed.
  Definition prepared (kw0 : dict) (p : obj * dict) : Prop :=
    is_mir (fst p) = false -> alookup "backend" kw0 = Some (VStr "precomputed") /\ forall db, db_of_obj (fst p) = Ok db -> picks "inventory" kw0 db.
  Lemma backend_of_emits P kw0 m : alookup "interpolation" kw0 = Some m -> emits P (fun p => prepared kw0 p /\ alookup "interpolation" (snd p) = Some m) (backend_of kw0).
  Proof.
    intros M y mk F. exists []. rewrite backend_of_sys. split; [reflexivity|]. split; [constructor|]. split; [exact (proj1 (proj2 (backend_of_sim kw0 y mk mk F F)))|].
    intros [o k] Q. destruct (backend_of kw0 (mkApi y mk)) as [s1 r] eqn:B. cbn [snd] in Q. subst r. destruct (backend_of_ok kw0 (mkApi y mk) s1 o k F B) as (_ & _ & b_kw & BK & N & K & _). cbn [fst snd].
    assert (X : alookup "backend" kw0 = Some (VStr (o_name o)) /\ b_kw = (match alookup "inventory" kw0 with Some v => [("inventory", v)] | None => [] end) /\ alookup "interpolation" k = Some m).
    { clear - BK M. unfold backend_from_kwargs, pop in BK.
      assert (G : exists b, alookup "backend" kw0 = Some b /\ (let '(bk, k') := fold_left (fun p k => let '(bk, kw) := p in
        match alookup k kw with Some v => (bk ++ [(k, v)], aremove k kw) | None => p end) OPTIONAL_BACKENDS_KWARGS ([], aremove "backend" kw0) in Ok (b, bk, k')) = Ok (VStr (o_name o), b_kw, k)).
      { destruct (alookup "backend" kw0) as [[| | | | | |]|]; try discriminate BK; (eexists; split; [reflexivity|exact BK]). }
      destruct G as (b & -> & G). cbn [OPTIONAL_BACKENDS_KWARGS fold_left] in G. rewrite alookup_aremove_neq in G by discriminate.
      destruct (alookup "inventory" kw0) as [v|]; injection G as <- <- <-; (split; [reflexivity|]); (split; [reflexivity|]); rewrite !alookup_aremove_neq by discriminate; exact M. }
    destruct X as (X1 & X2 & X3). split; [|exact X3]. intros IM. cbn [fst] in IM. specialize (K IM).
    assert (NM : o_name o = "precomputed"). { destruct (backends_cases _ N) as [NM|NM]; [|exact NM]. unfold is_mir in IM. rewrite NM in IM. discriminate IM. }
    split; [rewrite X1, NM; reflexivity|]. intros db D. unfold db_of_obj in D. unfold picks. cbn [fst] in D. rewrite K, X2 in D. destruct (alookup "inventory" kw0) as [v|] eqn:L; cbn in D.
    - apply names_get. exact D.
    - injection D as <-. reflexivity.
  Qed.
  (** Every request to an inventory comes from a call that asks it. *)
  Lemma emits_weaken {X} (P Q : demand A E -> Prop) (R R' : X -> Prop) a : emits P R a -> (forall c, P c -> Q c) -> (forall r, R r -> R' r) -> emits Q R' a.
  Proof. intros HA PQ RR y mk F. destruct (HA y mk F) as (h & PS & PH & F1 & RH). exists h. split; [exact PS|]. split; [eapply Forall_impl; [|exact PH]; exact PQ|]. split; [exact F1|]. intros r Q0. apply RR, RH, Q0. Qed.
  Lemma picks_cons k m b kw db : k <> "interpolation" -> k <> "backend" -> picks k (("interpolation", m) :: ("backend", b) :: kw) db -> picks k kw db.
  Proof using. clear. intros N1 N2. unfold picks. cbn [alookup]. destruct (String.eqb_spec k "interpolation"); [contradiction|]. destruct (String.eqb_spec k "backend"); [contradiction|]. auto. Qed.
  Lemma array_emits x v i g m b kw : emits (demands (PArray x v i g m b kw)) (fun _ => True) (array_regrid x v i g m b kw).
  Proof.
    unfold Api.array_regrid. set (all := ("interpolation", m) :: ("backend", b) :: kw).
    eapply emits_bind; [apply backend_of_emits with (m := m); reflexivity|]. intros [o k] [PR M]. cbn [fst snd] in *.
    eapply emits_weaken; [apply backend_emits, M| |auto]. intros c [IM (db & di & do & D & -> & -> & ->)]. destruct (PR IM) as [B G]. cbn in B. injection B as ->. constructor.
    exact (picks_cons "inventory" _ _ kw _ ltac:(discriminate) ltac:(discriminate) (G _ D)).
  Qed.
  Lemma array_fields_emits (P : demand A E -> Prop) x o kw m : alookup "interpolation" kw = Some m -> is_mir o = false -> forall fs g done,
    (forall f v di c, In f fs -> of_field field_values field_grid f None v di -> request_of x o v (Some di) (Some g) m c -> P c) ->
    emits P (fun _ => True) (array_fields x o kw fs g done).
  Proof.
    intros M IM. induction fs as [|f fs IH]; intros g done HP; cbn [Api.array_fields]; [apply emits_lift; auto|].
    eapply emits_bind with (R := fun v => field_values f = Ok v); [apply emits_lift; auto|]. intros vv V.
    eapply emits_bind with (R := fun d => field_grid f = Ok (Some d)); [apply emits_lift; intros d Q; unfold input_gridspec in Q; destruct (field_grid f) as [[d'|]|e|]; try discriminate Q; cbn in Q; congruence|]. intros di G.
    eapply emits_bind.
    - eapply emits_weaken; [apply backend_emits with (v := vv), M| |intros r X; exact (X IM)]. intros c [_ C]. apply (HP f vv di c); [left; reflexivity|split; assumption|exact C].
    - intros [u g'] EG. cbn in EG. injection EG as <-. cbn [fst snd]. eapply emits_bind with (R := fun _ => True); [apply emits_lift; auto|]. intros r _. apply IH. intros f' v' d' c I. apply HP. right. exact I.
  Qed.
  Lemma fields_emits (P : demand A E -> Prop) x fs g m b kw :
    (forall g' gs f v di db, g = Some g' -> b = VStr "precomputed" -> In f fs -> of_field field_values field_grid f None v di -> from_dict g' = Ok gs -> picks "inventory" kw db -> P (mkDemand x db v di (gd gs) m)) ->
    emits P (fun _ => True) (fields_regrid x fs g (("interpolation", m) :: ("backend", b) :: kw)).
  Proof.
    intros HP. unfold Api.fields_regrid. eapply emits_bind; [apply backend_of_emits with (m := m); reflexivity|]. intros [o k] [PR M]. cbn [fst snd] in *.
    destruct g as [g|]; [|apply emits_lift; auto]. destruct (is_mir o) eqn:IM; [apply emits_lift; auto|].
    eapply emits_bind with (R := fun gs => from_dict g = Ok gs); [apply emits_lift; auto|]. intros gs G. destruct (is_regular_ll gs); [|apply emits_lift; auto].
    apply array_fields_emits with (m := m); [exact M|exact IM|]. intros f v di c I OF (db & di' & do & D & E1 & E2 & ->). injection E1 as <-. injection E2 as <-.
    destruct (PR IM) as [B GV]. cbn in B. injection B as ->. apply (HP g gs f v di db); auto. exact (picks_cons "inventory" _ _ kw _ ltac:(discriminate) ltac:(discriminate) (GV _ D)).
  Qed.
  Lemma regrid_emits x d g m b kw : emits (demands (PRegrid x d g m b kw)) (fun _ => True) (regrid_call x d g m b kw).
  Proof.
    unfold Api.regrid_call. destruct d as [v|fs|f|t|]; try (apply emits_lift; auto; fail).
    - eapply emits_bind with (R := fun _ => True); [|intros r _; apply emits_lift; auto]. apply fields_emits. intros g' gs f v di db -> -> I OF G GV. eapply d_fields; eassumption.
    - eapply emits_bind with (R := fun _ => True); [|intros r _; apply emits_lift; auto]. apply fields_emits. intros g' gs f' v di db -> -> [<-|[]] OF G GV. eapply d_field; eassumption.
    - eapply emits_bind; [apply backend_of_emits with (m := m); reflexivity|]. intros [o k] _. cbn [fst snd]. destruct (is_mir o); apply emits_lift; auto.
  Qed.
  Lemma precomputed_of_emits P m kw : emits P (fun p => alookup "method" (snd p) = Some m /\ forall db, db_of_obj (fst p) = Ok db -> picks "matrix_source" kw db) (precomputed_of (("method", m) :: kw)).
  Proof.
    intros y mk F. pose proof (precomputed_of_sim (("method", m) :: kw) y mk mk F F) as (_ & G & _ & _). exists []. unfold precomputed_of in *. destruct (amem "backend" (("method", m) :: kw)); [cbn; parts|].
    unfold pop in *. cbv iota beta in *. set (b := match alookup "matrix_source" (("method", m) :: kw) with Some _ => _ | None => _ end) in *.
    assert (OA : one_arg b). { subst b. destruct (alookup "matrix_source" (("method", m) :: kw)) as [[| | | | | |]|]; solve [left; reflexivity|right; eexists; reflexivity]. }
    pose proof (named_sys (VStr "precomputed") b (mkApi y mk)) as PS. destruct (named_sim (S := S) (VStr "precomputed") b OA y mk mk F F) as (_ & _ & _ & R). unfold seq_act, lift in *.
    destruct (named_backend (VStr "precomputed") b (mkApi y mk)) as [s1 r]. cbn [fst snd] in *. destruct r as [o|e|]; cbn [fst snd] in *; [|parts..].
    split; [exact PS|]. split; [constructor|]. split; [exact G|]. intros q Q. injection Q as <-. cbn [fst snd]. split; [change (aremove "matrix_source" (("method", m) :: kw)) with (("method", m) :: aremove "matrix_source" kw); reflexivity|].
    cbn in R. destruct R as (_ & N & _ & _ & K). injection N as N. assert (IM : is_mir o = false) by (unfold is_mir; rewrite <- N; reflexivity). intros db D. unfold db_of_obj in D. rewrite (K IM) in D. unfold b in D. unfold picks.
    change (alookup "matrix_source" (("method", m) :: kw)) with (alookup "matrix_source" kw) in D. destruct (alookup "matrix_source" kw) as [v|] eqn:L; [|cbn in D; congruence].
    apply names_get. destruct v; cbn in D; cbn; congruence.
  Qed.
  Lemma interpolate_one_emits x o v i g kw m : alookup "method" kw = Some m ->
    emits (request_of x o v i g m) (fun _ => True) (precomputed_interpolate zero add mul find x o v i g kw).
  Proof.
    intros M. unfold precomputed_interpolate. rewrite M. eapply emits_bind with (R := fun t => t = m); [apply emits_lift; congruence|]. intros ? ->. cbv zeta.
    eapply emits_bind with (R := fun _ => True); [|intros zs _; apply emits_lift; auto]. destruct (existsb _ _); [apply emits_lift; auto|]. destruct (aremove "method" kw); [apply finding_emits|apply emits_lift; auto].
  Qed.
  Lemma interpolated_fields_emits (P : demand A E -> Prop) x o kw m d g : alookup "method" kw = Some m -> forall fs done,
    (forall f v di c, In f fs -> of_field field_values field_grid f d v di -> request_of x o v (Some di) (Some g) m c -> P c) ->
    emits P (fun _ => True) (interpolated_fields x o kw d g fs done).
  Proof.
    intros M. induction fs as [|f fs IH]; intros done HP; cbn [Api.interpolated_fields]; [apply emits_lift; auto|].
    eapply emits_bind with (R := fun v => field_values f = Ok v); [apply emits_lift; auto|]. intros vv V.
    eapply emits_bind with (R := fun di => of_field field_values field_grid f d vv di).
    { apply emits_lift. intros di Q. split; [exact V|]. unfold given_gridspec in Q. destruct d as [d|]; [congruence|]. destruct (field_grid f) as [[d'|]|e|]; try discriminate Q; cbn in Q; congruence. }
    intros di OF. eapply emits_bind with (R := fun _ => True).
    - eapply emits_weaken; [apply interpolate_one_emits with (v := vv), M| |auto]. intros c C. exact (HP f vv di c (or_introl eq_refl) OF C).
    - intros u _. eapply emits_bind with (R := fun _ => True); [apply emits_lift; auto|]. intros r _. apply IH. intros f' v' d' c I. apply HP. right. exact I.
  Qed.
  Lemma interpolate_emits x d i g m kw : emits (demands (PInterpolate x d i g m kw)) (fun _ => True) (interpolate_call x d i g m kw).
  Proof.
    unfold Api.interpolate_call. destruct d as [v|fs|f|t|]; try (apply emits_lift; auto; fail).
    - eapply emits_bind; [apply precomputed_of_emits|]. intros [o k] [M GV]. cbn [fst snd] in *. eapply emits_bind with (R := fun _ => True); [|intros r _; apply emits_lift; auto].
      eapply emits_weaken; [apply interpolate_one_emits with (v := v), M| |auto]. intros c (db & di & do & D & -> & -> & ->). constructor. exact (GV _ D).
    - eapply emits_bind; [apply precomputed_of_emits|]. intros [o k] [M GV]. cbn [fst snd] in *. destruct g as [g|]; [|apply emits_lift; auto].
      eapply emits_bind with (R := fun gs => from_dict g = Ok gs); [apply emits_lift; auto|]. intros gs G. destruct (is_regular_ll gs); [|apply emits_lift; auto].
      eapply emits_bind with (R := fun _ => True); [|intros r _; apply emits_lift; auto]. apply interpolated_fields_emits with (m := m); [exact M|].
      intros f v di c I OF (db & di' & do & D & E1 & E2 & ->). injection E1 as <-. injection E2 as <-. eapply d_old_fields; try eassumption. exact (GV _ D).
  Qed.

  (** A history of requests to the databases, and of what else happens to them. *)
  Inductive move := MAsk (r : demand A E) | MElse (f : S -> S).
  Definition mstep y (v : move) : S := match v with MAsk r => fstep y r | MElse f => f y end.
  (** The requests of each call, in turn. *)
  Definition comes_from (d : pcall) (l : list move) : Prop :=
    match d with PElse f => l = [MElse f] | _ => Forall (fun v => exists r, v = MAsk r /\ demands d r) l end.
  Inductive comes : list pcall -> list move -> Prop :=
  | co_nil : comes [] []
  | co_snoc H l d l' : comes H l -> comes_from d l' -> comes (H ++ [d]) (l ++ l').
  Lemma fold_moves l y : fold_left mstep (map MAsk l) y = fold_left fstep l y.
  Proof. revert y. induction l as [|r l IH]; intros y; [reflexivity|]. cbn. apply IH. Qed.
  Lemma step_comes d y mk : fine mk -> exists l, p_sys (pstep (mkApi y mk) d) = fold_left mstep l y /\ comes_from d l /\ fine (p_maker (pstep (mkApi y mk) d)).
  Proof.
    intros F. assert (G : forall (X : Type) (a : act (api S) X), emits (demands d) (fun _ => True) a -> exists l, p_sys (fst (a (mkApi y mk))) = fold_left mstep l y /\ Forall (fun v => exists r, v = MAsk r /\ demands d r) l /\ fine (p_maker (fst (a (mkApi y mk))))).
    { intros X a EM. destruct (EM y mk F) as (h & PS & FH & F' & _). exists (map MAsk h). split; [rewrite fold_moves; exact PS|]. split; [|exact F']. apply Forall_forall. intros v I. apply in_map_iff in I. destruct I as (r & <- & I). rewrite Forall_forall in FH. eauto. }
    destruct d as [x v i g m b kw|x d g m b kw|x d i g m kw|f]; cbn [Api.pstep comes_from].
    - apply G, array_emits.
    - apply G, regrid_emits.
    - apply G, interpolate_emits.
    - exists [MElse f]. cbn. auto.
  Qed.
  Lemma history_comes y mk H : fine mk -> exists l, p_sys (fold_left pstep H (mkApi y mk)) = fold_left mstep l y /\ comes H l /\ fine (p_maker (fold_left pstep H (mkApi y mk))).
  Proof.
    intros F0. induction H as [|d H IH] using rev_ind; [exists []; cbn; split; [reflexivity|split; [constructor|exact F0]]|].
    destruct IH as (l & PS & C & F). rewrite fold_left_app. cbn [fold_left]. set (s := fold_left _ H _) in *. clearbody s. destruct s as [y1 mk1]. cbn [p_sys p_maker] in *. subst y1.
    destruct (step_comes d (fold_left mstep l y) mk1 F) as (l' & PS' & C' & F'). exists (l ++ l'). rewrite fold_left_app. split; [exact PS'|]. split; [constructor; assumption|exact F'].
  Qed.
  Lemma comes_in H l : comes H l -> forall v, In v l -> match v with MAsk r => exists d, In d H /\ demands d r | MElse f => In (PElse f) H end.
  Proof.
    induction 1 as [|H l d l' C IH CF]; intros v I; [contradiction|]. apply in_app_or in I. destruct I as [I|I].
    - specialize (IH v I). destruct v; [destruct IH as (d' & J & D); exists d'; split; [apply in_or_app; left; exact J|exact D]|apply in_or_app; left; exact IH].
    - destruct d as [x u i g m b kw|x d g m b kw|x d i g m kw|f]; cbn in CF; try (rewrite Forall_forall in CF; destruct (CF v I) as (r & -> & D); eexists; split; [apply in_or_app; right; left; reflexivity|exact D]).
      subst l'. destruct I as [<-|[]]. apply in_or_app. right. left. reflexivity.
  Qed.
End Trace.
