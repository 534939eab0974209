(** Lemmas about the public functions. *)
From Verif Require Import PyBase ListLemmas PyStr Float64 GridSpec Regrid RegridSpec System SystemSpec Dispatch Props_Dispatch Api ApiSpec.
Set Default Proof Using "Type".
Local Open Scope string_scope.
Local Open Scope list_scope.
Local Open Scope Z_scope.

(** ** Objects of the backends *)
Definition one_arg (kw : dict) : Prop := kw = [] \/ exists v, kw = [("inventory", v)].
Definition fine (m : maker) : Prop := forall k o, In (k, o) (m_objects m) ->
  k = make_key (o_name o) (o_kwargs o) /\ In (o_name o) BACKENDS /\ one_arg (o_kwargs o) /\ construct (o_name o) (o_kwargs o) = Ok tt.
(** Objects that behave in the same way. *)
Definition alike (a b : obj) : Prop := o_name a = o_name b /\ (is_mir a = false -> o_kwargs a = o_kwargs b).
Definition related {X Y} (R : X -> Y -> Prop) (a : result X) (b : result Y) : Prop :=
  match a, b with Ok x, Ok y => R x y | Raise e, Raise e' => e = e' | OutOfFuel, OutOfFuel => True | _, _ => False end.

Lemma fine_none : fine (mkMaker [] 0).
Proof. intros k o []. Qed.
Lemma get_db_plain v db : get_db v = Ok db -> v = VNone \/ exists s, v = VStr s.
Proof. destruct v; cbn; try discriminate; eauto. Qed.
Lemma construct_plain kw : one_arg kw -> construct "precomputed" kw = Ok tt -> plain kw.
Proof.
  intros [->|[v ->]] C; [constructor|]. constructor; [|constructor]. cbn in C. destruct (get_db v) as [db|e|] eqn:G; try discriminate C. exact (get_db_plain v db G).
Qed.
Lemma backends_cases n : In n BACKENDS -> n = "mir" \/ n = "precomputed".
Proof. cbn. intuition. Qed.
Lemma key_name n kw n' kw' : key_eq (make_key n kw) (make_key n' kw') = true -> n = n'.
Proof.
  destruct kw, kw'; cbn [make_key key_eq]; try discriminate; [apply String.eqb_eq|]. intros H. apply andb_true_iff in H. apply String.eqb_eq, H.
Qed.
Lemma get_fine m n kw : fine m -> one_arg kw ->
  fine (fst (get_backend BACKENDS construct m n kw)) /\
  (forall o, snd (get_backend BACKENDS construct m n kw) = Ok o -> o_name o = n /\ (n = "precomputed" -> o_kwargs o = kw) /\ In n BACKENDS /\ construct n kw = Ok tt) /\
  related (fun _ _ => True) (snd (get_backend BACKENDS construct m n kw))
    (if negb (forallb (fun p => hashable (snd p)) kw) then Raise TypeError else if existsb (String.eqb n) BACKENDS then construct n kw else Raise ValueError).
Proof.
  intros F O. unfold get_backend. assert (HK : key_hashable (make_key n kw) = forallb (fun p => hashable (snd p)) kw) by (destruct kw; reflexivity).
  rewrite HK. destruct (negb (forallb _ kw)) eqn:HS; [cbn; split; [exact F|split; [discriminate|reflexivity]]|].
  destruct (List.find (fun p => key_eq (fst p) (make_key n kw)) (m_objects m)) as [[k o]|] eqn:FD.
  - apply find_some in FD. destruct FD as [I E]. cbn [fst] in E. destruct (F k o I) as (-> & N & OA & C). cbn [fst snd].
    pose proof (key_name _ _ _ _ E) as EN. assert (X : n = "precomputed" -> o_kwargs o = kw).
    { intros P. rewrite EN, P in C. apply key_eq_spec in E; [exact (proj2 E)|]. exact (construct_plain _ OA C). }
    assert (CO : construct n kw = Ok tt). { rewrite EN in *. destruct (backends_cases n N) as [->|P]; [reflexivity|]. rewrite <- (X P). exact C. }
    rewrite <- EN in *. clear EN. subst. split; [exact F|]. split; [intros o' Q; injection Q as <-; auto|].
    assert (EX : existsb (String.eqb (o_name o)) BACKENDS = true) by (apply existsb_exists; exists (o_name o); split; [exact N|apply String.eqb_refl]).
    rewrite EX, CO. exact Logic.I.
  - destruct (existsb (String.eqb n) BACKENDS) eqn:EX; [|cbn; split; [exact F|split; [discriminate|reflexivity]]].
    apply existsb_exists in EX. destruct EX as (n' & N & Q). apply String.eqb_eq in Q. subst n'.
    destruct (construct n kw) as [[]|e|] eqn:C; cbn [fst snd]; [|split; [exact F|split; [discriminate|reflexivity]]|split; [exact F|split; [discriminate|exact Logic.I]]].
    split; [|split; [intros o Q; injection Q as <-; cbn; auto|exact Logic.I]]. intros k o J. cbn [m_objects] in J. apply in_app_or in J. destruct J as [J|[J|[]]]; [exact (F k o J)|].
    injection J as <- <-. cbn. auto.
Qed.

(** ** Actions side by side *)
Section Sim.
  Context {S : Type}.
  Definition sim {X Y} (R : X -> Y -> Prop) (a : act (api S) X) (b : act (api S) Y) : Prop :=
    forall y m1 m2, fine m1 -> fine m2 ->
      p_sys (fst (a (mkApi y m1))) = p_sys (fst (b (mkApi y m2))) /\
      fine (p_maker (fst (a (mkApi y m1)))) /\ fine (p_maker (fst (b (mkApi y m2)))) /\
      related R (snd (a (mkApi y m1))) (snd (b (mkApi y m2))).
  Lemma sim_bind {X X' Y Y'} (R : X -> X' -> Prop) (Q : Y -> Y' -> Prop) a b k l :
    sim R a b -> (forall x x', R x x' -> sim Q (k x) (l x')) -> sim Q (seq_act a k) (seq_act b l).
  Proof.
    intros H K y m1 m2 F1 F2. destruct (H y m1 m2 F1 F2) as (E & G1 & G2 & RR). unfold seq_act.
    destruct (a (mkApi y m1)) as [[y1 n1] r1], (b (mkApi y m2)) as [[y2 n2] r2]. cbn [fst snd p_sys p_maker] in *. subst y2.
    destruct r1 as [x|e|], r2 as [x'|e'|]; cbn in RR; try contradiction.
    - exact (K x x' RR y1 n1 n2 G1 G2).
    - subst e'. cbn. auto.
    - cbn. auto.
  Qed.
  Lemma sim_lift {X Y} (R : X -> Y -> Prop) a b : related R a b -> sim R (lift a) (lift b).
  Proof. intros H y m1 m2 F1 F2. cbn. auto. Qed.
  Lemma sim_weaken {X Y} (R Q : X -> Y -> Prop) a b : sim R a b -> (forall x y, R x y -> Q x y) -> sim Q a b.
  Proof.
    intros H W y m1 m2 F1 F2. destruct (H y m1 m2 F1 F2) as (E & G1 & G2 & RR). split; [exact E|]. split; [exact G1|]. split; [exact G2|].
    destruct (snd (a _)), (snd (b _)); cbn in *; auto.
  Qed.
  Lemma related_refl {X} (r : result X) : related Logic.eq r r.
  Proof. destruct r; cbn; auto. Qed.
  Lemma named_sim name kw : one_arg kw ->
    sim (fun o o' => alike o o' /\ name = VStr (o_name o) /\ In (o_name o) BACKENDS /\ construct (o_name o) kw = Ok tt /\ (is_mir o = false -> o_kwargs o = kw)) (@named_backend S name kw) (named_backend name kw).
  Proof.
    intros O y m1 m2 F1 F2. unfold named_backend. destruct name as [| | | |n| |]; try (cbn; auto; fail).
    destruct (get_fine m1 n kw F1 O) as (G1 & K1 & R1), (get_fine m2 n kw F2 O) as (G2 & K2 & R2). cbn [p_maker p_sys].
    destruct (get_backend BACKENDS construct m1 n kw) as [n1 r1], (get_backend BACKENDS construct m2 n kw) as [n2 r2]. cbn [fst snd p_sys p_maker] in *.
    split; [reflexivity|]. split; [exact G1|]. split; [exact G2|].
    set (t := if negb _ then _ else _) in *. clearbody t. destruct r1 as [o1|e1|], r2 as [o2|e2|], t as [u|e|]; cbn in R1, R2; try contradiction; cbn; try congruence; auto.
    destruct (K1 o1 eq_refl) as (N1 & W1 & B & C), (K2 o2 eq_refl) as (N2 & W2 & _).
    assert (P : is_mir o1 = false -> n = "precomputed"). { unfold is_mir. rewrite N1. intros M. destruct (backends_cases n B) as [->|P]; [discriminate M|exact P]. }
    unfold alike. rewrite N1, N2. repeat split; auto. intros M. rewrite (W1 (P M)), (W2 (P M)). reflexivity.
  Qed.
End Sim.

(** ** The functions *)
Section Fun.
  Context {A S E field : Type}.
  Variables (zero : A) (add mul : A -> A -> A).
  Variable find : E -> database -> dict -> dict -> val -> S -> S * result (option (weights A)).
  Variable mir_array : array A -> option dict -> option dict -> dict -> result (array A * dict).
  Variable mir_grib : string -> option dict -> dict -> result string.
  Variable field_values : field -> result (array A).
  Variable field_grid : field -> result (option dict).
  Variable field_with : field -> array A -> dict -> result field.
  Variable field_message : field -> result string.
  Variable message_field : string -> result field.
  Notation same := (@sim S _ _ Logic.eq).
  Notation finding := (finding (A := A) (S := S) find).
  Notation precomputed_regrid := (precomputed_regrid zero add mul find).
  Notation precomputed_interpolate := (precomputed_interpolate zero add mul find).
  Notation backend_regrid := (backend_regrid zero add mul find mir_array).
  Notation array_regrid := (array_regrid zero add mul find mir_array).
  Notation array_fields := (array_fields zero add mul find mir_array field_values field_grid field_with).
  Notation fields_regrid := (fields_regrid zero add mul find mir_array mir_grib field_values field_grid field_with field_message message_field).
  Notation regrid_call := (regrid_call zero add mul find mir_array mir_grib field_values field_grid field_with field_message message_field).
  Notation interpolated_fields := (interpolated_fields zero add mul find field_values field_grid field_with).
  Notation interpolate_call := (interpolate_call zero add mul find field_values field_grid field_with).
  Notation pafter := (pafter zero add mul find mir_array mir_grib field_values field_grid field_with field_message message_field).

  Lemma self {X} (a : act (api S) X) s : same a a -> fine (p_maker s) -> fine (p_maker (fst (a s))).
  Proof using. clear. intros H F. destruct s as [y m]. exact (proj1 (proj2 (H y m m F F))). Qed.
  Lemma same_lift {X} (r : result X) : same (lift r) (lift r).
  Proof using. clear. apply sim_lift, related_refl. Qed.
  Lemma finding_sim x o o' i g m : o_kwargs o = o_kwargs o' -> same (finding x o i g m) (finding x o' i g m).
  Proof.
    intros Q y m1 m2 F1 F2. unfold Api.finding, db_of_obj. rewrite Q. cbn [p_sys p_maker].
    destruct (get_db _) as [db|e|]; [|cbn; auto..]. destruct i as [di|], g as [do|]; cbn [fst snd p_sys p_maker]; auto using related_refl.
    destruct (find x db di do m y) as [y' r]. cbn [fst snd p_sys p_maker]. auto using related_refl.
  Qed.
  Lemma precomputed_sim x o o' v i g kw : o_kwargs o = o_kwargs o' -> same (precomputed_regrid x o v i g kw) (precomputed_regrid x o' v i g kw).
  Proof.
    intros Q. eapply sim_bind; [apply same_lift|]. intros m ? <-. eapply sim_bind; [apply finding_sim, Q|]. intros zs ? <-. apply same_lift.
  Qed.
  Lemma backend_sim x o o' v i g kw : alike o o' -> same (backend_regrid x o v i g kw) (backend_regrid x o' v i g kw).
  Proof.
    intros [N Q]. unfold Api.backend_regrid. replace (is_mir o') with (is_mir o) by (unfold is_mir; rewrite N; reflexivity).
    destruct (is_mir o) eqn:M; [apply same_lift|apply precomputed_sim, Q; reflexivity].
  Qed.
  Lemma bfk_one kw n b_kw kw' : backend_from_kwargs kw = Ok (n, b_kw, kw') -> one_arg b_kw.
  Proof using.
    clear. unfold backend_from_kwargs, pop. intros H. assert (X : exists b, (let '(bk, k') := fold_left (fun p k => let '(bk, kw) := p in
        match alookup k kw with Some v => (bk ++ [(k, v)], aremove k kw) | None => p end) OPTIONAL_BACKENDS_KWARGS ([], aremove "backend" kw) in Ok (b, bk, k')) = Ok (n, b_kw, kw')).
    { destruct (alookup "backend" kw) as [[| | | | | |]|]; try discriminate H; eexists; exact H. }
    clear H. destruct X as [b X]. cbn [OPTIONAL_BACKENDS_KWARGS fold_left] in X. destruct (alookup "inventory" (aremove "backend" kw)) as [v|]; injection X as <- <- <-; [right; eexists; reflexivity|left; reflexivity].
  Qed.
  Definition ready (p q : obj * dict) : Prop := alike (fst p) (fst q) /\ snd p = snd q.
  Lemma backend_of_sim kw : sim ready (@backend_of S kw) (backend_of kw).
  Proof using.
    clear. unfold backend_of. destruct (backend_from_kwargs kw) as [[[n b_kw] kw']|e|] eqn:B; [|intros y m1 m2 F1 F2; cbn; auto..].
    eapply sim_bind with (R := fun p q => p = (n, b_kw, kw') /\ p = q); [apply sim_lift; cbn; auto|]. intros p q [-> <-].
    eapply sim_bind; [apply named_sim, (bfk_one kw n b_kw kw' B)|]. intros o o' (AL & _). apply sim_lift. cbn. split; [exact AL|reflexivity].
  Qed.
  Lemma array_sim x v i g m b kw : same (array_regrid x v i g m b kw) (array_regrid x v i g m b kw).
  Proof. eapply sim_bind; [apply backend_of_sim|]. intros [o k] [o' k'] [AL Q]. cbn [fst snd] in *. subst k'. apply backend_sim, AL. Qed.
  Lemma array_fields_sim x o o' kw : alike o o' -> forall fs g done, same (array_fields x o kw fs g done) (array_fields x o' kw fs g done).
  Proof.
    intros AL. induction fs as [|f fs IH]; intros g done; cbn [Api.array_fields]; [apply same_lift|].
    eapply sim_bind; [apply same_lift|]. intros vv ? <-. eapply sim_bind; [apply same_lift|]. intros i ? <-. eapply sim_bind; [apply backend_sim, AL|]. intros vg ? <-.
    eapply sim_bind; [apply same_lift|]. intros r ? <-. apply IH.
  Qed.
  Lemma fields_sim x fs g kw : same (fields_regrid x fs g kw) (fields_regrid x fs g kw).
  Proof.
    eapply sim_bind; [apply backend_of_sim|]. intros [o k] [o' k'] [AL Q]. cbn [fst snd] in *. subst k'. destruct g as [g|]; [|apply same_lift].
    replace (is_mir o') with (is_mir o) by (unfold is_mir; rewrite (proj1 AL); reflexivity). destruct (is_mir o); [apply same_lift|].
    eapply sim_bind; [apply same_lift|]. intros gs ? <-. destruct (is_regular_ll gs); [apply array_fields_sim, AL|apply same_lift].
  Qed.
  Lemma regrid_sim x d g m b kw : same (regrid_call x d g m b kw) (regrid_call x d g m b kw).
  Proof.
    unfold Api.regrid_call. destruct d as [v|fs|f|t|]; try apply same_lift.
    - eapply sim_bind; [apply fields_sim|]. intros r ? <-. apply same_lift.
    - eapply sim_bind; [apply fields_sim|]. intros r ? <-. apply same_lift.
    - eapply sim_bind; [apply backend_of_sim|]. intros [o k] [o' k'] [AL Q]. cbn [fst snd] in *. subst k'.
      replace (is_mir o') with (is_mir o) by (unfold is_mir; rewrite (proj1 AL); reflexivity). destruct (is_mir o); apply same_lift.
  Qed.
  Lemma precomputed_of_sim kw : sim (fun p q => ready p q /\ is_mir (fst p) = false) (@precomputed_of S kw) (precomputed_of kw).
  Proof using.
    clear. unfold precomputed_of. destruct (amem "backend" kw); [intros y m1 m2 F1 F2; cbn; auto|]. unfold pop. cbv iota beta zeta.
    eapply sim_bind; [apply named_sim; destruct (alookup "matrix_source" kw) as [[| | | | | |]|]; solve [left; reflexivity|right; eexists; reflexivity]|].
    intros o o' (AL & N & _). apply sim_lift. cbn. split; [split; [exact AL|reflexivity]|]. injection N as N. unfold is_mir. rewrite <- N. reflexivity.
  Qed.
  Lemma interpolate_one_sim x o o' v i g kw : o_kwargs o = o_kwargs o' -> same (precomputed_interpolate x o v i g kw) (precomputed_interpolate x o' v i g kw).
  Proof.
    intros Q. eapply sim_bind; [apply same_lift|]. intros m ? <-. cbv zeta. eapply sim_bind with (R := Logic.eq).
    - destruct (existsb _ _); [apply same_lift|]. destruct (aremove "method" kw); [apply finding_sim, Q|apply same_lift].
    - intros zs ? <-. apply same_lift.
  Qed.
  Lemma interpolated_fields_sim x o o' kw i g : o_kwargs o = o_kwargs o' -> forall fs done, same (interpolated_fields x o kw i g fs done) (interpolated_fields x o' kw i g fs done).
  Proof.
    intros Q. induction fs as [|f fs IH]; intros done; cbn [Api.interpolated_fields]; [apply same_lift|].
    eapply sim_bind; [apply same_lift|]. intros vv ? <-. eapply sim_bind; [apply same_lift|]. intros gi ? <-. eapply sim_bind; [apply interpolate_one_sim, Q|]. intros v ? <-.
    eapply sim_bind; [apply same_lift|]. intros r ? <-. apply IH.
  Qed.
  Lemma interpolate_sim x d i g m kw : same (interpolate_call x d i g m kw) (interpolate_call x d i g m kw).
  Proof.
    unfold Api.interpolate_call. destruct d as [v|fs|f|t|]; try apply same_lift.
    - eapply sim_bind; [apply precomputed_of_sim|]. intros [o k] [o' k'] [[AL Q] M]. cbn [fst snd] in *. subst k'. eapply sim_bind; [apply interpolate_one_sim, AL, M|]. intros r ? <-. apply same_lift.
    - eapply sim_bind; [apply precomputed_of_sim|]. intros [o k] [o' k'] [[AL Q] M]. cbn [fst snd] in *. subst k'. destruct g as [g|]; [|apply same_lift].
      eapply sim_bind; [apply same_lift|]. intros gs ? <-. destruct (is_regular_ll gs); [|apply same_lift]. eapply sim_bind; [apply interpolated_fields_sim, AL, M|]. intros r ? <-. apply same_lift.
  Qed.
  Lemma after_fine s0 h : fine (p_maker (pafter s0 h)).
  Proof.
    unfold Api.pafter. induction h as [|c h IH] using rev_ind; [exact fine_none|]. rewrite fold_left_app. cbn [fold_left]. set (s := fold_left _ h _) in *. clearbody s.
    destruct c as [x v i g m b kw|x d g m b kw|x d i g m kw|f]; cbn [pstep].
    - apply self; [apply array_sim|exact IH].
    - apply self; [apply regrid_sim|exact IH].
    - apply self; [apply interpolate_sim|exact IH].
    - exact IH.
  Qed.
End Fun.
