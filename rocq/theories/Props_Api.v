(** C99-C101: the public functions. *)
From Verif Require Import PyBase ListLemmas PyStr Float64 GridSpec Regrid RegridSpec RegridProofs Props_Regrid System SystemSpec SystemProofs Props_System Dispatch Props_Dispatch Api ApiSpec ApiProofs.
Set Default Proof Using "Type".
Local Open Scope string_scope.
Local Open Scope list_scope.
Local Open Scope Z_scope.

Lemma prefix_spec p t : prefix p t = true <-> exists r, t = (p ++ r)%string.
Proof.
  unfold prefix. revert t. induction p as [|c p IH]; intros t; [split; [eexists; reflexivity|reflexivity]|]. destruct t as [|d t]; [split; [discriminate|intros [r H]; discriminate H]|]. cbn. rewrite andb_true_iff, IH, Ascii.eqb_eq. split.
  - intros [<- [r ->]]. exists r. reflexivity.
  - intros [r H]. injection H as -> ->. split; [reflexivity|]. exists r. reflexivity.
Qed.
Lemma names_get v db : names_db v db <-> get_db v = Ok db.
Proof.
  split.
  - intros H. destruct H as [| |s r H|s H1 H2 H3]; [reflexivity..| |].
    + exact (C74_url s r H).
    + exact (C74_path s H1 H2 H3).
  - destruct v as [| | | |s| |]; cbn [get_db]; try discriminate; [intros H; injection H as <-; constructor|].
    destruct (String.eqb s "ecmwf") eqn:E1; [apply String.eqb_eq in E1; subst s; intros H; injection H as <-; constructor|]. apply String.eqb_neq in E1.
    destruct (prefix "http://" s || prefix "https://" s) eqn:E2.
    + intros H. injection H as <-. apply orb_true_iff in E2. destruct E2 as [E2|E2]; apply prefix_spec in E2; destruct E2 as [r ->]; eapply n_url; eauto.
    + apply orb_false_iff in E2. destruct E2 as [E2 E3]. destruct (String.eqb s "") eqn:E4; [discriminate|]. apply String.eqb_neq in E4. cbn [negb]. intros H. injection H as <-.
      constructor; [exact E4|exact E1|]. intros r. split; intros ->; [assert (X : prefix "http://" ("http://" ++ r) = true) by (apply prefix_spec; eauto)|assert (X : prefix "https://" ("https://" ++ r) = true) by (apply prefix_spec; eauto)]; congruence.
Qed.

Section Any.
  Context {A S E field : Type}.
  Variables (zero : A) (add mul : A -> A -> A).
  Variable find : E -> database -> dict -> dict -> val -> S -> S * result (option (weights A)).
  Variable mir_array : array A -> option dict -> option dict -> dict -> result (array A * dict).
  Variable mir_grib : string -> option dict -> dict -> result string.
  Variable field_values : field -> result (array A).
  Variable field_grid : field -> result (option dict).
  Variable field_with : field -> array A -> dict -> result field.
  Variable field_message : field -> result string.
  Variable message_field : string -> result field.
  Notation finding := (finding (A := A) (S := S) find).
  Notation array_regrid := (array_regrid zero add mul find mir_array).
  Notation regrid_call := (regrid_call zero add mul find mir_array mir_grib field_values field_grid field_with field_message message_field).
  Notation interpolate_call := (interpolate_call zero add mul find field_values field_grid field_with).
  Notation pafter := (pafter zero add mul find mir_array mir_grib field_values field_grid field_with field_message message_field).
  Notation outcome := (outcome zero add mul).
  Implicit Types (s : api S) (x : E) (values : array A).

  Lemma regrid_outcome found values do : (forall z v, found = Ok (Some (z, v)) -> proper_csr z) -> outcome values do found (regrid_from zero add mul found values do).
  Proof.
    intros P. destruct found as [[[z v]|]|e|]; [|constructor..]. destruct (regrid_from zero add mul (Ok (Some (z, v))) values do) as [[r g]|e|] eqn:R.
    - apply regrid_from_ok in R. destruct R as (z' & v' & n & F & SH & R). injection F as <- <-. apply shape_spec in SH. destruct (regrid_applies zero add mul z n values do r g (P z v eq_refl) R) as [-> AP]. econstructor; eassumption.
    - constructor. intros n SH E1 E2. destruct (C36_computed zero add mul z n values do (P z v eq_refl) E1 E2) as (r & R' & _). apply shape_spec in SH. unfold regrid_from in R. unfold regrid in R'. cbn [bind] in *.
      destruct (matmul zero add mul z (reshape_column zero values)); try discriminate R'. cbn [bind] in *. rewrite SH in R. cbn [bind] in R. congruence.
    - exfalso. unfold regrid_from in R. cbn [bind] in R. assert (M : matmul zero add mul z (reshape_column zero values) <> OutOfFuel) by (unfold matmul; repeat (destruct (_ =? _)%nat || destruct (shape _) || destruct l); discriminate).
      destruct (matmul zero add mul z (reshape_column zero values)) as [y| |]; [|discriminate R|congruence]. cbn [bind] in R.
      assert (NS : forall l, nats_of l <> OutOfFuel). { induction l as [|w l IH]; [discriminate|]. cbn. destruct w; cbn; try discriminate. destruct (_ <? 0); cbn; [discriminate|]. destruct (nats_of l); cbn; congruence. }
      assert (SH : as_shape v <> OutOfFuel). { destruct v; cbn; try discriminate; try apply NS. destruct (_ <? 0); discriminate. }
      destruct (as_shape v) as [n| |]; [|discriminate R|congruence]. cbn [bind] in R. unfold reshape in R. destruct (_ =? _)%nat; discriminate R.
  Qed.

  (** The call without objects of backends. *)
  Definition direct x (db : database) values (di do : dict) (m : val) : act (api S) (array A * dict) := fun s =>
    let '(y, found) := find x db di do m (p_sys s) in (mkApi y (p_maker s), regrid_from zero add mul found values do).
  Lemma tail_eq o x db values di do m : db_of_obj o = Ok db -> forall s,
    precomputed_regrid zero add mul find x o values (Some di) (Some do) [("interpolation", m)] s = direct x db values di do m s.
  Proof.
    intros D s. unfold precomputed_regrid, seq_act, lift, direct, Api.finding. rewrite D.
    change (if forallb (fun p : string * val => String.eqb (fst p) "interpolation") [("interpolation", m)] then _ else _) with (Ok m). cbv iota beta.
    destruct (find x db di do m (p_sys s)) as [y [[[z v]|]|e|]]; reflexivity.
  Qed.
  Lemma array_direct x db values di do m kw : only_inventory "inventory" kw db ->
    sim Logic.eq (array_regrid x values (Some di) (Some do) m (VStr "precomputed") kw) (direct x db values di do m).
  Proof.
    intros O y m1 m2 F1 F2.
    assert (X : exists b_kw, one_arg b_kw /\ db_of_obj (mkObj 0 "precomputed" b_kw) = Ok db /\
      backend_from_kwargs (("interpolation", m) :: ("backend", VStr "precomputed") :: kw) = Ok (VStr "precomputed", b_kw, [("interpolation", m)])).
    { destruct O as [|v db N]; [exists []|exists [("inventory", v)]]; (split; [unfold one_arg; eauto|split; [|reflexivity]]); [reflexivity|]. apply names_get in N. exact N. }
    destruct X as (b_kw & OA & D & B). unfold Api.array_regrid, backend_of. rewrite B. unfold seq_act, lift.
    destruct (named_sim (S := S) (VStr "precomputed") b_kw OA y m1 m1 F1 F1) as (PS & G & _ & R).
    destruct (named_backend (VStr "precomputed") b_kw (mkApi y m1)) as [s1 r] eqn:NB. cbn [fst snd] in *.
    assert (PY : p_sys s1 = y). { unfold named_backend in NB. cbn [p_maker p_sys] in NB. destruct (get_backend _ _ _ _ _). injection NB as <- _. reflexivity. }
    assert (OK : exists o, r = Ok o).
    { unfold named_backend in NB. cbn [p_maker p_sys] in NB. destruct (get_fine m1 "precomputed" b_kw F1 OA) as (_ & _ & Q).
      destruct (get_backend BACKENDS construct m1 "precomputed" b_kw) as [m' r']. injection NB as _ <-. cbn [snd] in Q.
      assert (H : (if negb (forallb (fun p => hashable (snd p)) b_kw) then Raise TypeError else if existsb (String.eqb "precomputed") BACKENDS then construct "precomputed" b_kw else Raise ValueError) = Ok tt).
      { destruct OA as [->|[v ->]]; [reflexivity|]. cbn in D. destruct (get_db_plain v db D) as [->|[t ->]]; [reflexivity|]. unfold db_of_obj in D. cbn [o_kwargs alookup fst snd] in D. rewrite String.eqb_refl in D. unfold construct. cbn [forallb alookup fst snd hashable]. rewrite !String.eqb_refl, D. reflexivity. }
      rewrite H in Q. destruct r'; cbn in Q; try contradiction. eauto. }
    destruct OK as [o ->]. cbn in R. destruct R as (_ & N & _ & _ & K). injection N as N. assert (M : is_mir o = false) by (unfold is_mir; rewrite <- N; reflexivity).
    cbn [fst snd]. unfold backend_regrid. rewrite M. rewrite (tail_eq o x db values di do m).
    2:{ unfold db_of_obj in *. rewrite (K M). exact D. }
    unfold direct. rewrite PY. cbn [p_sys p_maker]. destruct (find x db di do m y) as [y' found]. cbn [fst snd p_sys p_maker]. split; [reflexivity|]. split; [exact G|]. split; [exact F2|]. apply related_refl.
  Qed.

  (** ** C99 *)
  (** Whatever was called before, a call for arrays with the precomputed backend asks the database
      that its inventory names, and applies the weights found there. *)
  Theorem C99_array y0 h x db values di do m kw : only_inventory "inventory" kw db ->
    let s := pafter y0 h in
    let found := find x db di do m (p_sys s) in
    let called := array_regrid x values (Some di) (Some do) m (VStr "precomputed") kw s in
    (forall z v, snd found = Ok (Some (z, v)) -> proper_csr z) ->
    p_sys (fst called) = fst found /\ outcome values do (snd found) (snd called).
  Proof.
    intros O s found called P. pose proof (after_fine zero add mul find mir_array mir_grib field_values field_grid field_with field_message message_field y0 h) as F. fold s in F.
    destruct (array_direct x db values di do m kw O (p_sys s) (p_maker s) (p_maker s) F F) as (PS & _ & _ & R). replace (mkApi (p_sys s) (p_maker s)) with s in PS, R by (destruct s; reflexivity).
    fold called in PS, R. unfold direct in PS, R. subst found. destruct (find x db di do m (p_sys s)) as [y found]. cbn [fst snd p_sys] in *. split; [exact PS|].
    pose proof (regrid_outcome found values do P) as Q. destruct (snd called) as [r|e|], (regrid_from zero add mul found values do) as [r'|e'|]; cbn in R; try contradiction; subst; exact Q.
  Qed.
  (** Nothing else of what was called before matters: every call has the outcome it would have if
      it were the first. *)
  Definition first_call s : api S := mkApi (p_sys s) (mkMaker [] 0).
  Lemma as_first {X} (a : act (api S) X) y0 h : sim Logic.eq a a ->
    p_sys (fst (a (pafter y0 h))) = p_sys (fst (a (first_call (pafter y0 h)))) /\ snd (a (pafter y0 h)) = snd (a (first_call (pafter y0 h))).
  Proof.
    intros H. pose proof (after_fine zero add mul find mir_array mir_grib field_values field_grid field_with field_message message_field y0 h) as F.
    destruct (H (p_sys (pafter y0 h)) (p_maker (pafter y0 h)) (mkMaker [] 0) F fine_none) as (PS & _ & _ & R). unfold first_call.
    replace (mkApi (p_sys (pafter y0 h)) (p_maker (pafter y0 h))) with (pafter y0 h) in PS, R by (destruct (pafter y0 h); reflexivity). split; [exact PS|].
    destruct (snd (a (pafter y0 h))), (snd (a _)); cbn in R; try contradiction; congruence.
  Qed.
  Theorem C99_first_array y0 h x values i g m b kw :
    let call := array_regrid x values i g m b kw in
    p_sys (fst (call (pafter y0 h))) = p_sys (fst (call (first_call (pafter y0 h)))) /\ snd (call (pafter y0 h)) = snd (call (first_call (pafter y0 h))).
  Proof. apply as_first, array_sim. Qed.
  Theorem C99_first_regrid y0 h x d g m b kw :
    let call := regrid_call x d g m b kw in
    p_sys (fst (call (pafter y0 h))) = p_sys (fst (call (first_call (pafter y0 h)))) /\ snd (call (pafter y0 h)) = snd (call (first_call (pafter y0 h))).
  Proof. apply as_first, regrid_sim. Qed.
  Theorem C99_first_interpolate y0 h x d i g m kw :
    let call := interpolate_call x d i g m kw in
    p_sys (fst (call (pafter y0 h))) = p_sys (fst (call (first_call (pafter y0 h)))) /\ snd (call (pafter y0 h)) = snd (call (first_call (pafter y0 h))).
  Proof. apply as_first, interpolate_sim. Qed.

  (** Options that the precomputed backend does not have, and unknown backends, are refused before any
      database is asked. *)
  Lemma named_sys name kw s : p_sys (fst (named_backend name kw s)) = p_sys s.
  Proof using. clear. unfold named_backend. destruct name; try reflexivity. destruct (get_backend _ _ _ _ _). reflexivity. Qed.
  Lemma backend_of_sys kw s : p_sys (fst (backend_of kw s)) = p_sys s.
  Proof using.
    clear. unfold backend_of, seq_act, lift. destruct (backend_from_kwargs kw) as [[[n b] k]|e|]; [|reflexivity..]. pose proof (named_sys n b s) as H. destruct (named_backend n b s) as [s1 [o|e|]]; exact H.
  Qed.
  Lemma backend_of_ok kw s s1 o k : fine (p_maker s) -> backend_of kw s = (s1, Ok (o, k)) ->
    p_sys s1 = p_sys s /\ fine (p_maker s1) /\ exists b_kw, backend_from_kwargs kw = Ok (VStr (o_name o), b_kw, k) /\ In (o_name o) BACKENDS /\ (is_mir o = false -> o_kwargs o = b_kw) /\ construct (o_name o) b_kw = Ok tt.
  Proof using.
    clear. intros F H. pose proof (backend_of_sys kw s) as PS. rewrite H in PS. split; [exact PS|]. destruct s as [y m]. pose proof (backend_of_sim (S := S) kw y m m F F) as (_ & G & _). rewrite H in G. split; [exact G|].
    unfold backend_of, seq_act, lift in H. destruct (backend_from_kwargs kw) as [[[n b] k']|e|] eqn:B; [|discriminate H..].
    destruct (named_sim (S := S) n b (bfk_one kw n b k' B) y m m F F) as (_ & _ & _ & R). destruct (named_backend n b (mkApi y m)) as [s2 [o'|e|]]; [|discriminate H..]. cbn [fst snd related] in R.
    injection H as <- <- <-. destruct R as (_ & -> & N & C & K). exists b. auto.
  Qed.
  Definition python_kwargs (kw : dict) : Prop := NoDup (akeys kw) /\ ~ In "interpolation" (akeys kw) /\ ~ In "backend" (akeys kw).
  Lemma python_cons m b kw : python_kwargs kw -> NoDup (akeys (("interpolation", m) :: ("backend", b) :: kw)).
  Proof using. clear. intros (N & I & B). cbn [akeys map fst]. constructor; [intros [H|H]; [discriminate H|exact (I H)]|]. constructor; [exact B|exact N]. Qed.
  Theorem C99_option_refused y0 h x values i g m kw k : python_kwargs kw -> In k (akeys kw) -> k <> "inventory" ->
    let called := array_regrid x values i g m (VStr "precomputed") kw (pafter y0 h) in
    p_sys (fst called) = p_sys (pafter y0 h) /\ forall r, snd called <> Ok r.
  Proof.
    intros PK I NK called. subst called. unfold Api.array_regrid, seq_act. set (all := ("interpolation", m) :: ("backend", VStr "precomputed") :: kw).
    pose proof (backend_of_sys all (pafter y0 h)) as PS. destruct (backend_of all (pafter y0 h)) as [s1 [[o k']|e|]] eqn:B; [|split; [exact PS|discriminate]..]. cbn [fst] in PS.
    destruct (backend_of_ok _ _ _ _ _ (after_fine zero add mul find mir_array mir_grib field_values field_grid field_with field_message message_field y0 h) B) as (_ & _ & b_kw & BK & _).
    destruct (C73_backend all _ _ _ (python_cons m (VStr "precomputed") kw PK) BK) as (NM & _ & _ & L). cbn in NM. injection NM as NM.
    cbn [fst snd]. unfold backend_regrid, is_mir. rewrite <- NM. cbn [String.eqb Ascii.eqb Bool.eqb]. unfold precomputed_regrid, seq_act, lift.
    assert (X : forallb (fun p => String.eqb (fst p) "interpolation") k' = false).
    { apply not_true_is_false. intros X. rewrite forallb_forall in X. assert (Q : alookup k k' <> None).
      { rewrite L. destruct PK as (_ & P1 & P2). destruct (String.eqb_spec k "inventory"); [contradiction|]. destruct (String.eqb_spec k "backend") as [->|]; [contradiction|]. cbn [orb]. unfold all. cbn [alookup].
        destruct (String.eqb_spec k "interpolation") as [->|]; [contradiction|]. destruct (String.eqb_spec k "backend"); [contradiction|]. rewrite alookup_None. intros Q. exact (Q I). }
      destruct (alookup k k') as [v|] eqn:LK; [|congruence]. apply alookup_In in LK. specialize (X _ LK). cbn in X. apply String.eqb_eq in X. subst k. exact (proj1 (proj2 PK) I). }
    rewrite X. split; [exact PS|discriminate].
  Qed.
  Theorem C99_backend_refused y0 h x values i g m n kw : ~ In n ["mir"; "precomputed"] ->
    let called := array_regrid x values i g m (VStr n) kw (pafter y0 h) in
    p_sys (fst called) = p_sys (pafter y0 h) /\ forall r, snd called <> Ok r.
  Proof.
    intros N called. subst called. unfold Api.array_regrid, seq_act. set (all := ("interpolation", m) :: ("backend", VStr n) :: kw).
    pose proof (backend_of_sys all (pafter y0 h)) as PS. destruct (backend_of all (pafter y0 h)) as [s1 [[o k']|e|]] eqn:B; [|split; [exact PS|discriminate]..]. exfalso.
    destruct (backend_of_ok _ _ _ _ _ (after_fine zero add mul find mir_array mir_grib field_values field_grid field_with field_message message_field y0 h) B) as (_ & _ & b_kw & BK & I & _).
    assert (EN : o_name o = n). { unfold backend_from_kwargs, pop in BK. unfold all in BK. cbn [alookup] in BK. change (String.eqb "backend" "interpolation") with false in BK. change (String.eqb "backend" "backend") with true in BK. cbv iota in BK. destruct (fold_left _ _ _) in BK. injection BK as BK _ _. congruence. }
    rewrite EN in I. exact (N I).
  Qed.
  (** But an inventory given to the default backend is silently ignored. *)
  Theorem C99_inventory_refuted y0 h x values i g m v : hashable v = true ->
    snd (array_regrid x values i g m (VStr "mir") [("inventory", v)] (pafter y0 h)) = mir_array values i g [("interpolation", m)].
  Proof.
    intros HV. pose proof (after_fine zero add mul find mir_array mir_grib field_values field_grid field_with field_message message_field y0 h) as F. unfold Api.array_regrid, seq_act, backend_of.
    change (backend_from_kwargs (("interpolation", m) :: ("backend", VStr "mir") :: [("inventory", v)])) with (Ok (VStr "mir", [("inventory", v)], [("interpolation", m)])). unfold seq_act, lift.
    destruct (get_fine _ "mir" [("inventory", v)] F (or_intror (ex_intro _ v eq_refl))) as (_ & K & R). unfold named_backend. destruct (get_backend BACKENDS construct _ "mir" [("inventory", v)]) as [m1 r]. cbn [fst snd] in *.
    cbn [forallb snd] in R. rewrite HV in R. cbn in R. destruct r as [o|e|]; cbn in R; try contradiction. cbn [fst snd]. unfold backend_regrid, is_mir. rewrite (proj1 (K o eq_refl)). reflexivity.
  Qed.

  (** ** C100: the deprecated interpolate() does what regrid() does *)
  Definition sourced (m : val) (p q : obj * dict) : Prop := alike (fst p) (fst q) /\ is_mir (fst p) = false /\ snd p = [("method", m)] /\ snd q = [("interpolation", m)].
  Lemma source_sim kw kw' m : same_source kw kw' ->
    sim (S := S) (sourced m) (precomputed_of (("method", m) :: kw)) (backend_of (("interpolation", m) :: ("backend", VStr "precomputed") :: kw')).
  Proof using.
    clear. intros H.
    assert (X : exists b_kw, one_arg b_kw /\ backend_from_kwargs (("interpolation", m) :: ("backend", VStr "precomputed") :: kw') = Ok (VStr "precomputed", b_kw, [("interpolation", m)]) /\
      precomputed_of (S := S) (("method", m) :: kw) = seq_act (named_backend (VStr "precomputed") b_kw) (fun o => lift (Ok (o, [("method", m)])))).
    { destruct H as [| |v N]; [exists []|exists []|exists [("inventory", v)]]; (split; [unfold one_arg; eauto|split; [reflexivity|]]); [reflexivity..|]. destruct v; try reflexivity. congruence. }
    destruct X as (b_kw & OA & B & P). rewrite P. unfold backend_of. rewrite B. intros y m1 m2 F1 F2.
    change (seq_act (lift (Ok (VStr "precomputed", b_kw, [("interpolation", m)]))) ?k) with (k (VStr "precomputed", b_kw, [("interpolation", m)])). cbv beta iota.
    apply (sim_bind (S := S) (fun o o' => alike o o' /\ VStr "precomputed" = VStr (o_name o) /\ In (o_name o) BACKENDS /\ construct (o_name o) b_kw = Ok tt /\ (is_mir o = false -> o_kwargs o = b_kw)) (sourced m)); [apply named_sim, OA| |exact F1|exact F2].
    intros o o' (AL & N & _). apply sim_lift. cbn. unfold sourced. cbn. split; [exact AL|]. split; [|auto]. injection N as N. unfold is_mir. rewrite <- N. reflexivity.
  Qed.
  Lemma one_sim x o o' values i g m : alike o o' -> is_mir o = false ->
    sim (S := S) (fun v p => v = fst p /\ g = Some (snd p)) (precomputed_interpolate zero add mul find x o values i g [("method", m)]) (backend_regrid zero add mul find mir_array x o' values i g [("interpolation", m)]).
  Proof.
    intros AL M. unfold backend_regrid. replace (is_mir o') with false by (unfold is_mir in *; rewrite <- (proj1 AL); symmetry; exact M). unfold precomputed_interpolate, precomputed_regrid.
    eapply sim_bind with (R := fun a b => a = m /\ b = m); [apply sim_lift; cbn; auto|]. intros ? ? [-> ->]. cbv zeta. change (aremove "method" [("method", m)]) with (@nil (string * val)). cbn [existsb].
    eapply sim_bind with (R := fun a b => a = b /\ (a <> None -> g <> None)).
    - intros y m1 m2 F1 F2. destruct (finding_sim find x o o' i g m (proj2 AL M) y m1 m2 F1 F2) as (PS & G1 & G2 & R). split; [exact PS|]. split; [exact G1|]. split; [exact G2|].
      assert (X : forall a, snd (finding x o i g m (mkApi y m1)) = Ok a -> g <> None).
      { intros a. unfold Api.finding. destruct (db_of_obj o); [|discriminate..]. destruct i as [di|]; [|discriminate]. destruct g; [discriminate|]. cbn. destruct (from_dict di); discriminate. }
      destruct (snd (finding x o i g m (mkApi y m1))) as [a|e|], (snd (finding x o' i g m (mkApi y m2))) as [b|e'|]; cbn in *; try contradiction; auto. split; [exact R|]. intros _. exact (X a eq_refl).
    - intros zs ? [<- GN]. apply sim_lift. destruct zs as [[z v]|]; [|reflexivity]. destruct (matmul zero add mul z (reshape_column zero values)); [|reflexivity..]. cbn [bind].
      destruct (as_shape v); [|reflexivity..]. cbn [bind]. destruct (reshape zero _ _); [|reflexivity..]. cbn [bind]. destruct g as [do|]; [cbn; auto|]. exfalso. apply GN; [discriminate|reflexivity].
  Qed.
  Lemma fields_loop_sim x o o' m d fg : alike o o' -> is_mir o = false -> (forall f, given_gridspec field_grid d f = input_gridspec fg f) -> forall fs g done,
    sim (S := S) Logic.eq (interpolated_fields zero add mul find field_values field_grid field_with x o [("method", m)] d g fs done)
      (array_fields zero add mul find mir_array field_values fg field_with x o' [("interpolation", m)] fs g done).
  Proof.
    intros AL M G. induction fs as [|f fs IH]; intros g done; cbn [Api.interpolated_fields Api.array_fields]; [apply same_lift|].
    eapply sim_bind; [apply same_lift|]. intros vv ? <-. rewrite G. eapply sim_bind; [apply same_lift|]. intros gi ? <-. eapply sim_bind; [apply one_sim; [exact AL|exact M]|]. intros v [v' g'] [E1 E2]. cbn [fst snd] in *. injection E2 as <-. subst v'.
    eapply sim_bind; [apply same_lift|]. intros r ? <-. apply IH.
  Qed.
  Lemma sim_here {X Y} (R : X -> Y -> Prop) a b y0 h : sim (S := S) R a b ->
    p_sys (fst (a (pafter y0 h))) = p_sys (fst (b (pafter y0 h))) /\ related R (snd (a (pafter y0 h))) (snd (b (pafter y0 h))).
  Proof.
    intros H. pose proof (after_fine zero add mul find mir_array mir_grib field_values field_grid field_with field_message message_field y0 h) as F. destruct (pafter y0 h) as [y m]. destruct (H y m m F F) as (PS & _ & _ & R1). split; [exact PS|exact R1].
  Qed.
  (** For arrays: the same values and the same effects, or the same exception, whatever the grids,
      the method and the inventory are. *)
  Theorem C100_array y0 h x values i g m kw kw' : same_source kw kw' ->
    let a := interpolate_call x (DArray values) i g m kw (pafter y0 h) in
    let b := array_regrid x values i g m (VStr "precomputed") kw' (pafter y0 h) in
    p_sys (fst a) = p_sys (fst b) /\ snd a = (r <- snd b ;; Ok (DArray (fst r))).
  Proof.
    intros SS a b. assert (H : sim (S := S) (fun d p => d = DArray (fst p)) (interpolate_call x (DArray values) i g m kw) (array_regrid x values i g m (VStr "precomputed") kw')).
    { unfold Api.interpolate_call, Api.array_regrid. eapply sim_bind; [apply source_sim, SS|]. intros [o k] [o' k'] (AL & M & K & K'). cbn [fst snd] in *. subst k k'.
      intros y m1 m2 F1 F2. destruct (one_sim x o o' values i g m AL M y m1 m2 F1 F2) as (PS & G1 & G2 & R). unfold seq_act.
      destruct (precomputed_interpolate _ _ _ _ _ _ _ _ _ _ _) as [s1 r1]. destruct (backend_regrid _ _ _ _ _ _ _ _ _ _ _ _) as [s2 r2]. cbn [fst snd] in *.
      destruct r1, r2; cbn in R; try contradiction; cbn; auto. destruct R as [-> _]. auto. }
    destruct (sim_here _ _ _ y0 h H) as [PS R]. split; [exact PS|]. subst a b. destruct (snd (interpolate_call _ _ _ _ _ _ _)), (snd (array_regrid _ _ _ _ _ _ _ _)); cbn in *; try contradiction; congruence.
  Qed.
  Lemma interpolate_fields_sim x fs d g m kw kw' fg : same_source kw kw' -> (forall f, given_gridspec field_grid d f = input_gridspec fg f) ->
    sim (S := S) Logic.eq (interpolate_call x (DFields fs) d (Some g) m kw)
      (Api.regrid_call zero add mul find mir_array mir_grib field_values fg field_with field_message message_field x (DFields fs) (Some g) m (VStr "precomputed") kw').
  Proof.
    intros SS G. intros y m1 m2 F1 F2.
    assert (H : sim (S := S) (fun d r => d = DFields r) (interpolate_call x (DFields fs) d (Some g) m kw)
      (Api.fields_regrid zero add mul find mir_array mir_grib field_values fg field_with field_message message_field x fs (Some g) (("interpolation", m) :: ("backend", VStr "precomputed") :: kw'))).
    { unfold Api.interpolate_call, Api.fields_regrid. eapply sim_bind; [apply source_sim, SS|]. intros [o k] [o' k'] (AL & M & K & K'). cbn [fst snd] in *. subst k k'.
      replace (is_mir o') with false by (unfold is_mir in *; rewrite <- (proj1 AL); symmetry; exact M). eapply sim_bind; [apply same_lift|]. intros gs ? <-. destruct (is_regular_ll gs); [|apply sim_lift; reflexivity].
      intros y' m1' m2' F1' F2'. destruct (fields_loop_sim x o o' m d fg AL M G fs (gd gs) [] y' m1' m2' F1' F2') as (PS & G1 & G2 & R). unfold seq_act.
      destruct (interpolated_fields _ _ _ _ _ _ _ _ _ _ _ _ _ _ _) as [s1 r1]. destruct (array_fields _ _ _ _ _ _ _ _ _ _ _ _ _ _ _) as [s2 r2]. cbn [fst snd] in *.
      destruct r1, r2; cbn in R; try contradiction; cbn; auto. subst. auto. }
    destruct (H y m1 m2 F1 F2) as (PS & G1 & G2 & R). unfold Api.regrid_call, seq_act.
    destruct (Api.fields_regrid _ _ _ _ _ _ _ _ _ _ _ _ _ _ _ _) as [s2 r2]. destruct (interpolate_call _ _ _ _ _ _ _) as [s1 r1]. cbn [fst snd] in *.
    destruct r1, r2; cbn in R; try contradiction; cbn; auto.
  Qed.
  (** For lists of fields, without an input grid: as with regrid(). *)
  Theorem C100_fields y0 h x fs g m kw kw' : same_source kw kw' ->
    let a := interpolate_call x (DFields fs) None (Some g) m kw (pafter y0 h) in
    let b := regrid_call x (DFields fs) (Some g) m (VStr "precomputed") kw' (pafter y0 h) in
    p_sys (fst a) = p_sys (fst b) /\ snd a = snd b.
  Proof.
    intros SS a b. destruct (sim_here _ _ _ y0 h (interpolate_fields_sim x fs None g m kw kw' field_grid SS ltac:(reflexivity))) as [PS R]. split; [exact PS|].
    subst a b. destruct (snd (interpolate_call _ _ _ _ _ _ _)), (snd (regrid_call _ _ _ _ _ _ _)); cbn in *; try contradiction; congruence.
  Qed.
  (** With an input grid: as if that were the grid of every field. *)
  Theorem C100_input_grid y0 h x fs d g m kw kw' : same_source kw kw' ->
    let a := interpolate_call x (DFields fs) (Some d) (Some g) m kw (pafter y0 h) in
    let b := Api.regrid_call zero add mul find mir_array mir_grib field_values (fun _ => Ok (Some d)) field_with field_message message_field x (DFields fs) (Some g) m (VStr "precomputed") kw' (pafter y0 h) in
    p_sys (fst a) = p_sys (fst b) /\ snd a = snd b.
  Proof.
    intros SS a b. destruct (sim_here _ _ _ y0 h (interpolate_fields_sim x fs (Some d) g m kw kw' (fun _ => Ok (Some d)) SS ltac:(reflexivity))) as [PS R]. split; [exact PS|].
    subst a b. destruct (snd (interpolate_call _ _ _ _ _ _ _)), (snd (Api.regrid_call _ _ _ _ _ _ _ _ _ _ _ _ _ _ _ _ _ _)); cbn in *; try contradiction; congruence.
  Qed.
  (** Other data are refused by both: arrays by regrid(), fields and messages by interpolate(). *)
  Theorem C100_refused y0 h x i g m b kw :
    (forall d, match d with DArray _ | DOther => True | _ => False end -> snd (regrid_call x d g m b kw (pafter y0 h)) = Raise ValueError) /\
    (forall d, match d with DField _ | DMessage _ | DOther => True | _ => False end -> snd (interpolate_call x d i g m kw (pafter y0 h)) = Raise ValueError).
  Proof. split; intros [v|fs|f|t|] H; try contradiction; reflexivity. Qed.
  (** [backend] is no argument of interpolate(). *)
  Theorem C100_backend_refused y0 h x d i g m kw : In "backend" (akeys kw) ->
    snd (interpolate_call x d i g m kw (pafter y0 h)) = Raise ValueError /\ fst (interpolate_call x d i g m kw (pafter y0 h)) = pafter y0 h.
  Proof.
    intros I. assert (X : amem "backend" (("method", m) :: kw) = true).
    { unfold amem. destruct (alookup "backend" (("method", m) :: kw)) eqn:L; [reflexivity|]. apply alookup_None in L. destruct L. right. exact I. }
    destruct d; cbn; unfold precomputed_of; rewrite ?X; auto.
  Qed.
  (** Options other than [matrix_source] are refused before any database is asked. *)
  Theorem C100_option_refused y0 h x values i g m kw k : NoDup (akeys kw) -> ~ In "method" (akeys kw) -> In k (akeys kw) -> k <> "matrix_source" ->
    let called := interpolate_call x (DArray values) i g m kw (pafter y0 h) in
    p_sys (fst called) = p_sys (pafter y0 h) /\ forall r, snd called <> Ok r.
  Proof.
    intros ND NM I NK called. subst called. unfold Api.interpolate_call, seq_act, precomputed_of. destruct (amem "backend" (("method", m) :: kw)); [split; [reflexivity|discriminate]|]. unfold pop. cbv iota beta. unfold seq_act.
    set (b := match alookup "matrix_source" (("method", m) :: kw) with Some _ => _ | None => _ end). pose proof (named_sys (VStr "precomputed") b (pafter y0 h)) as PS.
    destruct (named_backend (VStr "precomputed") b (pafter y0 h)) as [s1 [o|e|]]; [|split; [exact PS|discriminate]..]. cbn [fst] in PS. unfold lift at 2. cbn [fst snd].
    unfold precomputed_interpolate, seq_act, lift. cbn [fst snd]. change (aremove "matrix_source" (("method", m) :: kw)) with (("method", m) :: aremove "matrix_source" kw).
    change (alookup "method" (("method", m) :: aremove "matrix_source" kw)) with (Some m). change (aremove "method" (("method", m) :: aremove "matrix_source" kw)) with (aremove "method" (aremove "matrix_source" kw)). cbv iota beta zeta.
    assert (J : In k (akeys (aremove "method" (aremove "matrix_source" kw)))). { rewrite !aremove_keys_in. split; [split; [exact I|exact NK]|]. intros ->. exact (NM I). }
    destruct (existsb _ _); [split; [exact PS|discriminate]|]. destruct (aremove "method" (aremove "matrix_source" kw)) as [|p l]; [destruct J|].
    destruct i as [di|]; [|split; [exact PS|discriminate]]. destruct (from_dict di); cbn [bind]; [|split; [exact PS|discriminate]..]. destruct g as [do|]; [|split; [exact PS|discriminate]]. destruct (from_dict do); split; solve [exact PS|discriminate].
  Qed.
End Any.

(** ** The hypotheses are met *)
(** Databases count the requests; one path has weights. *)
Definition toy_matrix : csr Z := mkCsr 2 3 [0; 2; 3]%nat [0; 2; 1]%nat [1; 4; 2].
Definition toy_find (_ : unit) (db : database) (_ _ : dict) (m : val) (n : Z) : Z * result (option (weights Z)) :=
  (n + 1, match db, m with FromPath "a", VStr "linear" => Ok (Some (toy_matrix, VList [VInt 2; VInt 1])) | FromPath _, _ => Ok None | _, _ => Raise RuntimeError end).
Definition toy_values : array Z := mkArr [3%nat] (fun i => match i with [O] => 7 | [1%nat] => 11 | _ => 13 end).
Notation toy_mir := (fun (v : array Z) (_ _ : option dict) (_ : dict) => Ok (v, @nil (string * val))).
Notation toy_grib := (fun (_ : string) (_ : option dict) (_ : dict) => @Raise string NotImplementedError).
Notation toy_after := (pafter (field := array Z * dict) 0 Z.add Z.mul toy_find toy_mir toy_grib (fun f => Ok (fst f)) (fun f => Ok (Some (snd f))) (fun _ u g => Ok (u, g)) (fun _ => Raise NotImplementedError) (fun _ => Raise NotImplementedError) 0).
Notation toy_array := (array_regrid 0 Z.add Z.mul toy_find toy_mir).
Definition toy_history : list (@pop_call Z Z unit (array Z * dict)) :=
  [PArray tt toy_values (Some []) (Some []) (VStr "linear") (VStr "precomputed") [("inventory", VStr "b")];
   PRegrid tt (DFields [(toy_values, []); (toy_values, [])]) (Some [("grid", VList [VInt 1; VInt 1])]) (VStr "linear") (VStr "precomputed") [("inventory", VStr "a")];
   PInterpolate tt (DArray toy_values) (Some []) (Some []) (VStr "nn") [("matrix_source", VStr "a")]; PElse (fun n => n * 10)].
Example C99_met :
  only_inventory "inventory" [("inventory", VStr "a")] (FromPath "a") /\ proper_csr toy_matrix /\ p_sys (toy_after toy_history) = 40 /\
  exists r, snd (toy_array tt toy_values (Some []) (Some []) (VStr "linear") (VStr "precomputed") [("inventory", VStr "a")] (toy_after toy_history)) = Ok (r, []) /\
    map (item r) [[0; 0]; [1; 0]]%nat = [59; 22].
Proof.
  split; [constructor; apply names_get; reflexivity|]. split; [split; cbn; [reflexivity|reflexivity| |reflexivity|reflexivity|repeat constructor]; intros [|[|i]] L; cbn; lia|].
  split; [vm_compute; reflexivity|]. eexists. split; vm_compute; reflexivity.
Qed.
Example C99_refused_met :
  python_kwargs [("inventory", VStr "a"); ("nproc", VInt 2)] /\ In "nproc" (akeys [("inventory", VStr "a"); ("nproc", VInt 2)]) /\
  snd (toy_array tt toy_values (Some []) (Some []) (VStr "linear") (VStr "precomputed") [("inventory", VStr "a"); ("nproc", VInt 2)] (toy_after toy_history)) = Raise TypeError /\
  ~ In "rocket" ["mir"; "precomputed"] /\ hashable (VStr "a") = true.
Proof.
  split. { split; [cbn; repeat (apply NoDup_cons; [cbn; intuition discriminate|]); apply NoDup_nil|]. cbn. intuition discriminate. }
  split; [right; left; reflexivity|]. split; [vm_compute; reflexivity|]. split; [cbn; intuition discriminate|reflexivity].
Qed.
Example C100_met : same_source [("matrix_source", VStr "a")] [("inventory", VStr "a")] /\
  exists r, snd (interpolate_call (field := array Z * dict) 0 Z.add Z.mul toy_find (fun f => Ok (fst f)) (fun f => Ok (Some (snd f))) (fun _ u g => Ok (u, g)) tt (DArray toy_values) (Some []) (Some []) (VStr "linear") [("matrix_source", VStr "a")] (toy_after toy_history)) = Ok (DArray r) /\
    map (item r) [[0; 0]; [1; 0]]%nat = [59; 22].
Proof. split; [constructor; discriminate|]. eexists. split; vm_compute; reflexivity. Qed.
Example C100_option_met : NoDup (akeys [("matrix_source", VStr "a"); ("nproc", VInt 2)]) /\
  snd (interpolate_call (field := array Z * dict) 0 Z.add Z.mul toy_find (fun f => Ok (fst f)) (fun f => Ok (Some (snd f))) (fun _ u g => Ok (u, g)) tt (DArray toy_values) (Some [("grid", VStr "O32")]) (Some [("grid", VStr "O32")]) (VStr "linear") [("nproc", VInt 2)] (toy_after toy_history)) = Raise TypeError.
Proof. split; [cbn; repeat (apply NoDup_cons; [cbn; intuition discriminate|]); apply NoDup_nil|vm_compute; reflexivity]. Qed.

Print Assumptions C99_array.
Print Assumptions C99_first_array.
Print Assumptions C99_first_regrid.
Print Assumptions C99_first_interpolate.
Print Assumptions C99_option_refused.
Print Assumptions C99_backend_refused.
Print Assumptions C99_inventory_refuted.
Print Assumptions C100_array.
Print Assumptions C100_fields.
Print Assumptions C100_input_grid.
Print Assumptions C100_refused.
Print Assumptions C100_backend_refused.
Print Assumptions C100_option_refused.
