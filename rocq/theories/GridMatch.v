(** Matching: a grid matches itself; equivalent global areas match; what a match implies. *)
From Coq Require Import Reals Psatz.
From Verif Require Import PyBase ListLemmas PyStr Float64 GridSpec GridVocab GridProofs GridProofs2 FloatReal GridLon GridMatchSpec GridReal.
From Flocq Require Import Core.
Set Default Proof Using "Type".
Local Open Scope string_scope.
Local Open Scope list_scope.
Local Open Scope Z_scope.
Local Open Scope R_scope.

(** ** Reflexivity *)
Lemma lit_small n d : (0 < n <= 1)%Z -> (1 <= d <= 2 ^ 40)%Z -> good (NF (lit n d)) /\ 0 <= F2Rv (lit n d) <= 1.
Proof.
  intros Hn Hd. assert (n = 1)%Z by lia. subst n.
  destruct (of_Z_exact 1) as [A1 B1]; [lia|]. destruct (of_Z_exact d) as [A2 B2]; [lia|].
  assert (P : 1 <= IZR d) by (apply IZR_le; lia).
  assert (Q : 0 <= 1 / IZR d <= 1).
  { split; [apply Rmult_le_pos; [lra|]; apply Rlt_le, Rinv_0_lt_compat; lra|]. apply Rmult_le_reg_r with (IZR d); [lra|]. field_simplify; lra. }
  unfold lit. destruct (fdiv_real (of_Z 1) (of_Z d)) as [A B]; try apply valid_of_Z; try assumption; rewrite ?B1, ?B2.
  - lra.
  - apply HUGE_big. rewrite Rabs_pos_eq by lra. apply Rle_trans with 1; [lra|apply IZR_le; lia].
  - rewrite B1, B2 in B. split; [split; [apply valid_fdiv; apply valid_of_Z|exact A]|]. rewrite B.
    apply rnd_range; [apply double_0|apply int_double; lia|exact Q].
Qed.

Lemma double_max x : is_float64 x = true -> Rabs (F2Rv x) <= bpow radix2 1024.
Proof.
  intros H. destruct (is_B x H) as (b & ->). rewrite B_real. apply Rlt_le. apply BinarySingleNaN.abs_B2R_lt_emax.
Qed.
Lemma SFleb_real x y : good (NF x) -> good (NF y) -> SFleb x y = true <-> F2Rv x <= F2Rv y.
Proof.
  intros [A B] [C D]. unfold SFleb. rewrite compare_real by assumption.
  destruct (Rcompare_spec (F2Rv x) (F2Rv y)); split; intros; try discriminate; try reflexivity; lra.
Qed.
(** The tolerance atol + rtol*|y|, as a real number. *)
Lemma tolerance_real y atol : good (NF y) -> good (NF atol) -> 0 <= F2Rv atol <= 1 ->
  good (NF (fadd atol (fmul RTOL (fabs y)))) /\
  F2Rv (fadd atol (fmul RTOL (fabs y))) = rnd (F2Rv atol + rnd (F2Rv RTOL * Rabs (F2Rv y))).
Proof.
  intros [Vy Fy] [Va Fa] Ba. destruct (lit_small 1 100000 ltac:(lia) ltac:(lia)) as [[VR FR] BR]. fold RTOL in VR, FR, BR.
  assert (RU : F2Rv RTOL <= / 1024).
  { unfold RTOL, lit. destruct (of_Z_exact 1) as [A1 B1]; [lia|]. destruct (of_Z_exact 100000) as [A2 B2]; [lia|].
    destruct (fdiv_real (of_Z 1) (of_Z 100000)) as [A B]; try apply valid_of_Z; try assumption; rewrite ?B1, ?B2.
    - lra.
    - apply HUGE_big. rewrite Rabs_pos_eq by lra. apply Rle_trans with 1; [lra|apply IZR_le; lia].
    - rewrite B, B1, B2. pose proof (rnd_err (1 / 100000)) as R. rewrite Rabs_pos_eq in R by lra.
      specialize (R ltac:(lra)). apply abs_U in R. unfold U in R. lra. }
  pose proof (Rabs_pos (F2Rv y)) as Py. pose proof (double_max y Vy) as My.
  assert (T : 0 <= F2Rv RTOL * Rabs (F2Rv y) <= bpow radix2 1014).
  { split; [apply Rmult_le_pos; lra|].
    replace (bpow radix2 1014) with (/ 1024 * bpow radix2 1024).
    - apply Rmult_le_compat; lra.
    - change (/ 1024) with (bpow radix2 (-10)). rewrite <- bpow_plus. reflexivity. }
  assert (H14 : bpow radix2 1014 <= HUGE) by (apply bpow_le; lia).
  destruct (fmul_real RTOL (fabs y)) as [A B]; [exact VR|apply valid_fabs, Vy|exact FR|rewrite fabs_finite; exact Fy| |].
  { rewrite fabs_real, Rabs_pos_eq by apply T. lra. }
  rewrite fabs_real in B.
  assert (T2 : 0 <= rnd (F2Rv RTOL * Rabs (F2Rv y)) <= bpow radix2 1014).
  { apply rnd_range; [apply double_0| |exact T]. apply generic_format_bpow. cbn. lia. }
  assert (H15 : bpow radix2 1014 + 1 <= HUGE).
  { apply Rle_trans with (bpow radix2 1015); [|apply bpow_le; lia].
    change 1015%Z with (1014 + 1)%Z. rewrite bpow_plus_1. change (IZR radix2) with 2.
    assert (1 <= bpow radix2 1014) by (apply (bpow_le radix2 0 1014); lia). lra. }
  assert (VM : is_float64 (fmul RTOL (fabs y)) = true).
  { destruct (is_B RTOL VR) as (b1 & E1), (is_B (fabs y) (valid_fabs y Vy)) as (b2 & E2). rewrite E1, E2, fmul_eq. apply B_valid. }
  destruct (fadd_real atol (fmul RTOL (fabs y))) as [C D]; try assumption.
  { rewrite B, Rabs_pos_eq by lra. lra. }
  rewrite B in D. split; [|exact D]. split; [|exact C]. apply valid_fadd; [exact Va|exact VM].
Qed.

Definition is_tol (atol : f64) : Prop := good (NF atol) /\ 0 <= F2Rv atol <= 1.
Lemma GRID_ATOL_tol : is_tol GRID_ATOL. Proof. apply lit_small; lia. Qed.
Lemma ATOL_tol : is_tol ATOL. Proof. apply lit_small; lia. Qed.

Lemma isclose_refl x atol : is_float64 x = true -> x <> S754_nan -> is_tol atol -> isclose x x RTOL atol = true.
Proof.
  intros V N [GA BA]. unfold isclose. destruct (finite x) eqn:F; cbn [andb].
  - destruct (tolerance_real x atol) as [GT RT]; [split; assumption|exact GA|exact BA|].
    destruct (fsub_real x x V V F F) as [FS RS].
    { replace (F2Rv x - F2Rv x) with 0 by ring. rewrite Rabs_R0. apply bpow_ge_0. }
    apply SFleb_real; [split; [apply valid_fabs, valid_fsub; assumption|rewrite fabs_finite; exact FS]|exact GT|].
    rewrite fabs_real, RS. replace (F2Rv x - F2Rv x) with 0 by ring. rewrite rnd_0, Rabs_R0, RT.
    rewrite <- rnd_0 at 1. apply rnd_le. destruct (lit_small 1 100000 ltac:(lia) ltac:(lia)) as [_ BR]. fold RTOL in BR.
    assert (0 <= rnd (F2Rv RTOL * Rabs (F2Rv x))).
    { rewrite <- rnd_0 at 1. apply rnd_le. apply Rmult_le_pos; [lra|apply Rabs_pos]. }
    lra.
  - destruct x as [s|s| |s m e]; try discriminate; [destruct s; reflexivity|]. destruct N; reflexivity.
Qed.

Lemma SFcompare_refl x : x <> S754_nan -> SFcompare x x = Some Eq.
Proof.
  destruct x as [s|s| |s m e]; intros N; cbn; try (destruct s; reflexivity); [destruct N; reflexivity|].
  rewrite Z.compare_refl. destruct s; rewrite Pcompare_refl; reflexivity.
Qed.
Fixpoint vsize (v : val) : nat :=
  match v with
  | VList l | VTup l => S (fold_right (fun x n => vsize x + n)%nat O l)
  | _ => 1%nat
  end.
Lemma py_eq_refl v : no_nan v -> py_eq v v = true.
Proof.
  remember (vsize v) as n eqn:En. revert v En. induction n as [n IH] using lt_wf_ind. intros v En H.
  destruct v as [|b|z|f|s|l|l]; cbn.
  - reflexivity.
  - unfold neqb. cbn. rewrite Z.compare_refl. reflexivity.
  - unfold neqb. cbn. rewrite Z.compare_refl. reflexivity.
  - unfold neqb. cbn [ncompare]. rewrite SFcompare_refl; [reflexivity|apply H].
  - apply String.eqb_refl.
  - cbn in H. assert (X : forall x, In x l -> (vsize x < n)%nat).
    { intros x I. rewrite En. cbn. apply in_split in I. destruct I as (a & c & ->). clear.
      induction a; cbn in *; lia. }
    clear En. revert H X. induction l as [|x l IHl]; intros H X; [reflexivity|]. destruct H as [H1 H2].
    rewrite (IH (vsize x)) ; [|apply X; left; reflexivity|reflexivity|exact H1]. cbn. apply IHl; [exact H2|]. intros y I. apply X. right. exact I.
  - cbn in H. assert (X : forall x, In x l -> (vsize x < n)%nat).
    { intros x I. rewrite En. cbn. apply in_split in I. destruct I as (a & c & ->). clear.
      induction a; cbn in *; lia. }
    clear En. revert H X. induction l as [|x l IHl]; intros H X; [reflexivity|]. destruct H as [H1 H2].
    rewrite (IH (vsize x)) ; [|apply X; left; reflexivity|reflexivity|exact H1]. cbn. apply IHl; [exact H2|]. intros y I. apply X. right. exact I.
Qed.

Lemma np_array_ok l : Forall (fun x => finite_num x /\ int64 x) l ->
  exists fs, np_array l = Ok fs /\ Forall (fun f => is_float64 f = true /\ finite f = true) fs.
Proof.
  induction l as [|v l IH]; intros H; cbn; [eauto|]. inversion H as [|? ? [HF HI] HL]; subst. destruct (IH HL) as (fs & -> & Ffs).
  assert (X : exists f, np_num v = Ok f /\ is_float64 f = true /\ finite f = true).
  { destruct v as [|b|z|f| | |]; try contradiction; cbn [finite_num int64] in *.
    - exists (of_Z (b2z b)). destruct b; cbn; split; try reflexivity; (split; [apply valid_of_Z|]); apply of_Z_exact; cbn; lia.
    - unfold np_num. cbn [as_num]. exists (of_Z z).
      assert (L1 : (- 2 ^ 63 <=? z)%Z = true) by (apply Z.leb_le; lia).
      assert (L2 : (z <? 2 ^ 63)%Z = true) by (apply Z.ltb_lt; lia). rewrite L1, L2.
      cbn [andb]. split; [reflexivity|]. split; [apply valid_of_Z|]. apply of_Z_real.
      apply Z.le_trans with (2 ^ 63)%Z; [lia|]. apply Z.pow_le_mono_r; lia.
    - exists f. auto. }
  destruct X as (f & -> & Vf). cbn. exists (f :: fs). auto.
Qed.
Lemma allclose_refl fs atol : Forall (fun f => is_float64 f = true /\ finite f = true) fs -> is_tol atol ->
  allclose fs fs atol = Ok true.
Proof.
  intros H T. unfold allclose. rewrite Nat.eqb_refl. f_equal. induction H as [|f fs [Vf Ff] _ IH]; cbn; [reflexivity|].
  rewrite isclose_refl; [exact IH|exact Vf| |exact T]. intros ->. discriminate.
Qed.

Section Refl.
  Variables (py_str : val -> string) (key_order : list string) (fuel : nat).
  Lemma compare_key_refl k v : no_nan v ->
    (k = "grid" -> forall l, v = VList l -> Forall (fun x => finite_num x /\ int64 x) l) ->
    compare_key py_str k v v = Ok true.
  Proof.
    intros N G. destruct v as [|b|z|f|s|l|l]; cbn [compare_key is_vint andb].
    - rewrite String.eqb_refl. reflexivity.
    - rewrite (py_eq_refl _ N). reflexivity.
    - rewrite (py_eq_refl _ N). reflexivity.
    - rewrite isclose_refl; [reflexivity|apply N|apply N|apply ATOL_tol].
    - rewrite !String.eqb_refl. destruct (String.eqb k "grid"); reflexivity.
    - destruct (String.eqb_spec k "grid") as [->|D]; [|rewrite (py_eq_refl _ N); reflexivity].
      destruct (np_array_ok l (G eq_refl l eq_refl)) as (fs & E & F). rewrite E. cbn [bind].
      apply allclose_refl; [exact F|apply GRID_ATOL_tol].
    - rewrite String.eqb_refl. reflexivity.
  Qed.

  (** The keys compared are present and ordinary in [g], and the same in [h]. *)
  Lemma base_alike g h : incl key_order COMPARE_KEYS ->
    alookup "type" (gd g) = Some (VStr (type_name (cls g))) ->
    (exists v, alookup "grid" (gd g) = Some v /\ no_nan v /\
       forall l, v = VList l -> Forall (fun x => finite_num x /\ int64 x) l) ->
    (forall k, In k flags -> exists v, alookup k (gd g) = Some v /\ no_nan v) ->
    (forall v, alookup "shape" (gd g) = Some v -> no_nan v) ->
    alike g h -> eq_base py_str key_order g h = Ok true.
  Proof.
    intros HK HT (vg & Hg & Ng & Lg) HF HS [HC HL]. unfold eq_base, get_type.
    rewrite <- (HL "type") by discriminate. rewrite HT. cbn [py_eq]. rewrite String.eqb_refl. cbn [negb].
    assert (C : compare_keys py_str key_order (gd g) (gd h) = Ok true).
    { assert (X : forall k, In k COMPARE_KEYS -> exists v, dget k (gd g) = Ok v /\ dget k (gd h) = Ok v /\ compare_key py_str k v v = Ok true).
      { intros k I. unfold dget.
        assert (NE : k <> "area" /\ k <> "global") by (cbn in I; intuition (subst; discriminate)).
        rewrite <- (HL k) by apply NE. cbn in I. destruct I as [<-|[<-|I]].
        - rewrite HT. eexists. split; [reflexivity|]. split; [reflexivity|]. apply compare_key_refl; [exact Logic.I|discriminate].
        - rewrite Hg. eexists. split; [reflexivity|]. split; [reflexivity|]. apply compare_key_refl; auto.
        - destruct (HF k I) as (v & E & N). rewrite E. eexists. split; [reflexivity|]. split; [reflexivity|].
          apply compare_key_refl; [exact N|]. intros ->. cbn in I. intuition discriminate. }
      clear -HK X. induction key_order as [|k r IH]; [reflexivity|]. cbn [compare_keys].
      destruct (X k (HK k (or_introl eq_refl))) as (v & -> & -> & E). cbn [bind]. rewrite E. cbn [bind].
      apply IH. intros y Y. apply HK. right. exact Y. }
    rewrite C. cbn [bind]. rewrite <- (HL "shape") by discriminate.
    destruct (alookup "shape" (gd g)) as [v|] eqn:ES; [|reflexivity]. rewrite py_eq_refl by (apply HS; reflexivity). reflexivity.
  Qed.

  Lemma nsub_self v eps : finite_num v -> good (NF eps) -> 0 < F2Rv eps -> same_coord v v eps = Ok true.
  Proof.
    intros F G P. unfold same_coord. destruct v as [|b|z|f| | |]; try contradiction; cbn [as_num nsub bind to_float].
    - rewrite Z.sub_diag. f_equal. apply nltb_real; [cbn; lia|exact G|cbn; exact P].
    - rewrite Z.sub_diag. f_equal. apply nltb_real; [cbn; lia|exact G|cbn; exact P].
    - destruct F as [V F]. destruct (fsub_real f f V V F F) as [FS RS].
      { replace (F2Rv f - F2Rv f) with 0 by ring. rewrite Rabs_R0. apply bpow_ge_0. }
      f_equal. apply nltb_real; [split; [apply valid_fabs, valid_fsub; assumption|rewrite fabs_finite; exact FS]|exact G|].
      cbn [nabs N2R]. rewrite fabs_real, RS. replace (F2Rv f - F2Rv f) with 0 by ring. rewrite rnd_0, Rabs_R0. exact P.
  Qed.
  Lemma same_area_self l eps : Forall finite_num l -> good (NF eps) -> 0 < F2Rv eps -> same_area (VList l) (VList l) eps = Ok true.
  Proof.
    intros F G P. unfold same_area. cbn [elems bind]. rewrite Nat.eqb_refl.
    induction F as [|v l Fv _ IH]; [reflexivity|]. cbn [all_same]. rewrite nsub_self by assumption. cbn [bind]. exact IH.
  Qed.

  Lemma py_int_digits ds : ds <> [] -> Forall (fun c => is_digit c = true) ds -> py_int ds = Some (digits_val ds).
  Proof.
    intros N F. unfold py_int. rewrite <- (app_nil_r ds) at 1. rewrite (span_app _ ds []); [|eapply Forall_impl; [|exact F]; cbn; intros c ->; reflexivity|exact I].
    assert (D : forall b, digit_groups b ds = match ds with [] => b | _ => true end).
    { clear N. induction F as [|c ds Hc _ IH]; intros b; cbn; [reflexivity|]. rewrite Hc, IH. destruct ds; reflexivity. }
    rewrite D. destruct ds as [|c ds]; [contradiction|]. cbn [andb forallb].
    do 2 f_equal. clear -F. generalize dependent (c :: ds). intros l F. induction F as [|x l Hc _ IH]; cbn [filter]; [reflexivity|]. rewrite Hc, IH. reflexivity.
  Qed.

  Lemma reflexive d g : NoDup (akeys d) -> from_dict d = Ok g -> ordinary g -> incl key_order COMPARE_KEYS ->
    eq py_str key_order fuel g g = (g, g, Ok true).
  Proof.
    intros HN H O HK. assert (TY : alookup "type" (gd g) = Some (VStr (type_name (cls g)))) by (rewrite (contents_ok d g _ HN H); reflexivity).
    unfold eq. rewrite (base_alike g g HK TY (o_grid g O) (o_flags g O) (o_shape g O)) by (split; auto).
    destruct (cls g) eqn:EC.
    - destruct (o_area g O ltac:(auto)) as (l & El & Fl). unfold dget. rewrite El. cbn [bind].
      destruct DEG_real as [GD BD]. rewrite same_area_self; [reflexivity|exact Fl|exact GD|lra].
    - destruct (o_area g O ltac:(auto)) as (l & El & Fl). unfold dget. rewrite El. cbn [bind].
      destruct RGGEPS_real as [GD BD]. rewrite same_area_self; [reflexivity|exact Fl|exact GD|lra].
    - destruct (o_healpix g O EC) as ((c & ds & Eg & Ic & Nd & Fd & Rd) & Ho).
      assert (R : exists s, order g = Ok (VStr s)).
      { unfold order, dget. rewrite Eg. cbn [bind].
        assert (M : HEALPIX_match (String c (of_chars ds)) = true).
        { apply HEALPIX_match_spec. destruct ds as [|d0 ds]; [contradiction|]. exists c, d0, (of_chars ds). inversion Fd; subst. auto. }
        rewrite M. change (tl (chars (String c (of_chars ds)))) with (chars (of_chars ds)). rewrite chars_of_chars, py_int_digits by assumption.
        replace ((digits_val ds <? 1)%Z) with false by (symmetry; apply Z.ltb_ge; lia).
        replace ((1000000 <? digits_val ds)%Z) with false by (symmetry; apply Z.ltb_ge; lia). cbn [orb].
        destruct (alookup "order" (gd g)) as [v|] eqn:Eo; [|exists "ring"; reflexivity].
        destruct (Ho v eq_refl) as [->| ->]; eexists; reflexivity. }
      destruct R as (s & ->). cbn. rewrite String.eqb_refl. reflexivity.
    - reflexivity.
  Qed.
End Refl.
