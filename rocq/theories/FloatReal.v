(** What the float operations of Float64.v mean on the reals (through Flocq's formalisation of
    IEEE 754).  The axioms of the reals come in here and only here. *)
From Coq Require Import Reals Psatz.
From Verif Require Import PyBase Float64.
From Flocq Require Import Core BinarySingleNaN Sterbenz.
Local Open Scope R_scope.

Local Instance Hprec : Prec_gt_0 53 := eq_refl _.
Local Instance Hmax : Prec_lt_emax 53 1024 := eq_refl _.
Notation bfloat := (binary_float 53 1024).
Notation fexp64 := (SpecFloat.fexp 53 1024).
Global Instance fexp64_valid : Valid_exp fexp64 := FLT_exp_valid _ _.
Global Instance fexp64_mono : Monotone_exp fexp64 := FLT_exp_monotone _ _.

(** The real number a float stands for, and rounding to the nearest float. *)
Definition F2Rv (f : f64) : R := SF2R radix2 f.
Definition rnd (x : R) : R := round radix2 fexp64 ZnearestE x.
Definition is_double (x : R) : Prop := generic_format radix2 fexp64 x.

Lemma rne_eq s m l : SpecFloat.round_nearest_even m l = choice_mode mode_NE s m l.
Proof.
  destruct l as [|c]; [reflexivity|]. destruct c; try reflexivity. cbn. unfold Round.cond_incr. destruct (Z.even m); reflexivity.
Qed.
Lemma round_aux_eq sx mx ex lx :
  SpecFloat.binary_round_aux 53 1024 sx mx ex lx = binary_round_aux 53 1024 mode_NE sx mx ex lx.
Proof.
  unfold SpecFloat.binary_round_aux, binary_round_aux. destruct (shr_fexp _ _ _ _ _) as [mrs e].
  rewrite (rne_eq sx). reflexivity.
Qed.
Lemma round_eq s m e : SpecFloat.binary_round 53 1024 s m e = binary_round 53 1024 mode_NE s m e.
Proof.
  unfold SpecFloat.binary_round, binary_round, shl_align_fexp. destruct (shl_align _ _ _). apply round_aux_eq.
Qed.
Lemma normalize_eq m e z :
  SpecFloat.binary_normalize 53 1024 m e z = B2SF (binary_normalize 53 1024 Hprec Hmax mode_NE m e z).
Proof. destruct m; cbn; [reflexivity|rewrite B2SF_SF2B; apply round_eq..]. Qed.

Lemma fadd_eq (x y : bfloat) : fadd (B2SF x) (B2SF y) = B2SF (Bplus mode_NE x y).
Proof.
  unfold fadd.
  destruct x as [sx|sx| |sx mx ex Bx], y as [sy|sy| |sy my ey By];
    try (cbn; destruct (Bool.eqb _ _); reflexivity); try reflexivity.
  apply normalize_eq.
Qed.
Lemma fsub_eq (x y : bfloat) : fsub (B2SF x) (B2SF y) = B2SF (Bminus mode_NE x y).
Proof.
  unfold fsub.
  destruct x as [sx|sx| |sx mx ex Bx], y as [sy|sy| |sy my ey By];
    try (cbn; destruct (Bool.eqb _ _); reflexivity); try reflexivity.
  cbn. unfold Zminus. rewrite <- cond_Zopp_negb. apply normalize_eq.
Qed.
Lemma fdiv_eq (x y : bfloat) : fdiv (B2SF x) (B2SF y) = B2SF (Bdiv mode_NE x y).
Proof.
  unfold fdiv.
  destruct x as [sx|sx| |sx mx ex Bx], y as [sy|sy| |sy my ey By];
    try (cbn; destruct (Bool.eqb _ _); reflexivity); try reflexivity.
  cbn. rewrite B2SF_SF2B. destruct (SFdiv_core_binary _ _ _ _ _ _) as [[mz ez] lz]. apply round_aux_eq.
Qed.
Lemma fmul_eq (x y : bfloat) : fmul (B2SF x) (B2SF y) = B2SF (Bmult mode_NE x y).
Proof.
  unfold fmul.
  destruct x as [sx|sx| |sx mx ex Bx], y as [sy|sy| |sy my ey By]; try reflexivity.
  cbn. rewrite B2SF_SF2B. apply round_aux_eq.
Qed.

(** Every valid float is one of Flocq's. *)
Lemma is_B f : is_float64 f = true -> exists b : bfloat, f = B2SF b.
Proof. intros H. exists (SF2B f H). symmetry. apply B2SF_SF2B. Qed.
Lemma B_valid (b : bfloat) : is_float64 (B2SF b) = true.
Proof. apply valid_binary_B2SF. Qed.
Lemma B_real (b : bfloat) : F2Rv (B2SF b) = B2R b.
Proof. apply SF2R_B2SF. Qed.
Lemma B_finite (b : bfloat) : finite (B2SF b) = is_finite b.
Proof. destruct b; reflexivity. Qed.

Lemma real_double f : is_float64 f = true -> is_double (F2Rv f).
Proof. intros H. destruct (is_B f H) as (b & ->). rewrite B_real. apply generic_format_B2R. Qed.
Lemma rnd_double x : is_double x -> rnd x = x.
Proof. intros H. apply round_generic; [typeclasses eauto|exact H]. Qed.
Lemma double_rnd x : is_double (rnd x).
Proof. apply generic_format_round; typeclasses eauto. Qed.
Lemma rnd_le x y : x <= y -> rnd x <= rnd y.
Proof. apply round_le; typeclasses eauto. Qed.
Lemma rnd_opp x : rnd (- x) = - rnd x.
Proof. unfold rnd. apply round_NE_opp. Qed.
Lemma rnd_abs x : rnd (Rabs x) = Rabs (rnd x).
Proof. unfold rnd. apply round_NE_abs. typeclasses eauto. Qed.
Lemma rnd_0 : rnd 0 = 0.
Proof. apply round_0. typeclasses eauto. Qed.

Lemma valid_fadd x y : is_float64 x = true -> is_float64 y = true -> is_float64 (fadd x y) = true.
Proof. intros Hx Hy. destruct (is_B x Hx) as (a & ->), (is_B y Hy) as (b & ->). rewrite fadd_eq. apply B_valid. Qed.
Lemma valid_fsub x y : is_float64 x = true -> is_float64 y = true -> is_float64 (fsub x y) = true.
Proof. intros Hx Hy. destruct (is_B x Hx) as (a & ->), (is_B y Hy) as (b & ->). rewrite fsub_eq. apply B_valid. Qed.
Lemma valid_fdiv x y : is_float64 x = true -> is_float64 y = true -> is_float64 (fdiv x y) = true.
Proof. intros Hx Hy. destruct (is_B x Hx) as (a & ->), (is_B y Hy) as (b & ->). rewrite fdiv_eq. apply B_valid. Qed.
Lemma valid_of_Z z : is_float64 (of_Z z) = true.
Proof. unfold of_Z. rewrite normalize_eq. apply B_valid. Qed.
Lemma valid_lit n d : is_float64 (lit n d) = true.
Proof. apply valid_fdiv; apply valid_of_Z. Qed.
Lemma valid_fabs x : is_float64 x = true -> is_float64 (fabs x) = true.
Proof. destruct x; auto. Qed.
Lemma fabs_real x : F2Rv (fabs x) = Rabs (F2Rv x).
Proof.
  destruct x as [s|s| |s m e]; cbn; try (rewrite Rabs_R0; reflexivity).
  rewrite F2R_cond_Zopp. rewrite abs_cond_Ropp. symmetry. apply Rabs_pos_eq. apply F2R_ge_0. cbn. lia.
Qed.
Lemma fabs_finite x : finite (fabs x) = finite x.
Proof. destruct x; reflexivity. Qed.

Definition HUGE : R := bpow radix2 1020.
Lemma bounded_rnd x : Rabs x <= HUGE -> Rabs (rnd x) < bpow radix2 1024.
Proof.
  intros H. rewrite <- rnd_abs. apply Rle_lt_trans with HUGE; [|apply bpow_lt; lia].
  rewrite <- (rnd_double HUGE); [apply rnd_le; exact H|]. apply generic_format_bpow. cbn. lia.
Qed.

Lemma fadd_real x y : is_float64 x = true -> is_float64 y = true -> finite x = true -> finite y = true ->
  Rabs (F2Rv x + F2Rv y) <= HUGE -> finite (fadd x y) = true /\ F2Rv (fadd x y) = rnd (F2Rv x + F2Rv y).
Proof.
  intros Hx Hy Fx Fy B. destruct (is_B x Hx) as (a & ->), (is_B y Hy) as (b & ->).
  rewrite B_finite in Fx, Fy. rewrite !B_real in B. rewrite fadd_eq, B_finite, !B_real.
  pose proof (Bplus_correct 53 1024 Hprec Hmax mode_NE a b Fx Fy) as H.
  rewrite Rlt_bool_true in H; [tauto|]. apply bounded_rnd. exact B.
Qed.
Lemma fsub_real x y : is_float64 x = true -> is_float64 y = true -> finite x = true -> finite y = true ->
  Rabs (F2Rv x - F2Rv y) <= HUGE -> finite (fsub x y) = true /\ F2Rv (fsub x y) = rnd (F2Rv x - F2Rv y).
Proof.
  intros Hx Hy Fx Fy B. destruct (is_B x Hx) as (a & ->), (is_B y Hy) as (b & ->).
  rewrite B_finite in Fx, Fy. rewrite !B_real in B. rewrite fsub_eq, B_finite, !B_real.
  pose proof (Bminus_correct 53 1024 Hprec Hmax mode_NE a b Fx Fy) as H.
  rewrite Rlt_bool_true in H; [tauto|]. apply bounded_rnd. exact B.
Qed.
Lemma fdiv_real x y : is_float64 x = true -> is_float64 y = true -> finite x = true -> F2Rv y <> 0 ->
  Rabs (F2Rv x / F2Rv y) <= HUGE -> finite (fdiv x y) = true /\ F2Rv (fdiv x y) = rnd (F2Rv x / F2Rv y).
Proof.
  intros Hx Hy Fx Ny B. destruct (is_B x Hx) as (a & ->), (is_B y Hy) as (b & ->).
  rewrite B_finite in Fx. rewrite !B_real in B. rewrite B_real in Ny. rewrite fdiv_eq, B_finite, !B_real.
  pose proof (Bdiv_correct 53 1024 Hprec Hmax mode_NE a b Ny) as H.
  rewrite Rlt_bool_true in H; [rewrite Fx in H; tauto|]. apply bounded_rnd. exact B.
Qed.
Lemma fmul_real x y : is_float64 x = true -> is_float64 y = true -> finite x = true -> finite y = true ->
  Rabs (F2Rv x * F2Rv y) <= HUGE -> finite (fmul x y) = true /\ F2Rv (fmul x y) = rnd (F2Rv x * F2Rv y).
Proof.
  intros Hx Hy Fx Fy B. destruct (is_B x Hx) as (a & ->), (is_B y Hy) as (b & ->).
  rewrite B_finite in Fx, Fy. rewrite !B_real in B. rewrite fmul_eq, B_finite, !B_real.
  pose proof (Bmult_correct 53 1024 Hprec Hmax mode_NE a b) as H.
  rewrite Rlt_bool_true in H; [rewrite Fx, Fy in H; tauto|]. apply bounded_rnd. exact B.
Qed.

Lemma compare_real x y : is_float64 x = true -> is_float64 y = true -> finite x = true -> finite y = true ->
  SFcompare x y = Some (Rcompare (F2Rv x) (F2Rv y)).
Proof.
  intros Hx Hy Fx Fy. destruct (is_B x Hx) as (a & ->), (is_B y Hy) as (b & ->).
  rewrite !B_real. rewrite B_finite in Fx, Fy. exact (Bcompare_correct 53 1024 a b Fx Fy).
Qed.

(** Integers. *)
Lemma int_double z : (Z.abs z <= 2 ^ 53)%Z -> is_double (IZR z).
Proof.
  intros H. apply generic_format_FLT. destruct (Z.eq_dec (Z.abs z) (2 ^ 53)) as [E|N].
  - exists (Float radix2 (Z.sgn z) 53); cbn.
    + unfold F2R. cbn -[IZR]. rewrite <- mult_IZR. f_equal. lia.
    + lia.
    + lia.
  - exists (Float radix2 z 0); cbn; [|lia|lia].
    unfold F2R. cbn. ring.
Qed.
Lemma of_Z_real z : (Z.abs z <= 2 ^ 900)%Z -> finite (of_Z z) = true /\ F2Rv (of_Z z) = rnd (IZR z).
Proof.
  intros H. unfold of_Z. rewrite normalize_eq, B_finite, B_real.
  pose proof (binary_normalize_correct 53 1024 Hprec Hmax mode_NE z 0 false) as C. cbn zeta in C.
  replace (F2R (Float radix2 z 0)) with (IZR z) in C by (unfold F2R; cbn; ring).
  rewrite Rlt_bool_true in C; [split; [apply C|rewrite (proj1 C); reflexivity]|]. apply bounded_rnd.
  rewrite <- abs_IZR. apply Rle_trans with (IZR (2 ^ 900)); [apply IZR_le; exact H|].
  unfold HUGE. change (IZR (2 ^ 900)) with (IZR (radix2 ^ 900)). rewrite IZR_Zpower by lia. apply bpow_le. lia.
Qed.
Lemma of_Z_exact z : (Z.abs z <= 2 ^ 53)%Z -> finite (of_Z z) = true /\ F2Rv (of_Z z) = IZR z.
Proof.
  intros H. destruct (of_Z_real z) as [A B]; [apply Z.le_trans with (2 ^ 53)%Z; [exact H|apply Z.pow_le_mono_r; lia]|].
  split; [exact A|]. rewrite B. apply rnd_double, int_double, H.
Qed.
Lemma compare_Z_real z f : is_float64 f = true -> finite f = true ->
  compare_Z z f = Some (Rcompare (IZR z) (F2Rv f)).
Proof.
  intros _ Ff. destruct f as [s|s| |s m e]; try discriminate; cbn -[Z.mul Z.pow].
  - f_equal. destruct (Z.compare_spec z 0) as [E|E|E]; symmetry.
    + apply Rcompare_Eq. subst. reflexivity.
    + apply Rcompare_Lt. apply (IZR_lt _ 0 E).
    + apply Rcompare_Gt. apply (IZR_lt 0 _ E).
  - f_equal. set (v := SpecFloat.cond_Zopp s (Z.pos m)). change (SpecFloat.cond_Zopp s (Z.pos m)) with v.
    unfold F2R. cbn [Fnum Fexp].
    destruct (Z.leb_spec 0 e) as [He|He].
    + rewrite <- IZR_Zpower by exact He. rewrite <- mult_IZR. rewrite Rcompare_IZR. reflexivity.
    + rewrite <- Rcompare_IZR. rewrite mult_IZR. change (2 ^ (- e))%Z with (radix2 ^ (- e))%Z.
      rewrite IZR_Zpower by lia.
      rewrite <- (Rcompare_mult_r (bpow radix2 (- e)) (IZR z)) by apply bpow_gt_0.
      f_equal. rewrite Rmult_assoc, <- bpow_plus, Z.add_opp_diag_r. cbn. ring.
Qed.

(** ** Python numbers on the reals *)
Definition N2R (a : num) : R := match a with NI z => IZR z | NF f => F2Rv f end.
(** A finite number that converts exactly to a float. *)
Definition good (a : num) : Prop :=
  match a with NI z => (Z.abs z <= 2 ^ 53)%Z | NF f => is_float64 f = true /\ finite f = true end.

Lemma good_double a : good a -> is_double (N2R a).
Proof. destruct a; cbn; [apply int_double|intros [H _]; apply real_double, H]. Qed.

Lemma to_float_real a : good a ->
  exists f, to_float a = Ok f /\ is_float64 f = true /\ finite f = true /\ F2Rv f = N2R a.
Proof.
  destruct a as [z|f]; cbn; [|intros [A B]; eauto]. intros H. destruct (of_Z_exact z H) as [A B].
  exists (of_Z z). unfold int_float. split; [destruct (of_Z z); try reflexivity; discriminate|].
  auto using valid_of_Z.
Qed.
Lemma ncompare_real a b : good a -> good b -> ncompare a b = Some (Rcompare (N2R a) (N2R b)).
Proof.
  destruct a as [x|x], b as [y|y]; cbn; intros Ha Hb.
  - rewrite Rcompare_IZR. reflexivity.
  - apply compare_Z_real; apply Hb.
  - rewrite compare_Z_real by apply Ha. rewrite <- Rcompare_sym. reflexivity.
  - apply compare_real; tauto.
Qed.
Lemma nltb_real a b : good a -> good b -> nltb a b = true <-> N2R a < N2R b.
Proof.
  intros Ha Hb. unfold nltb. rewrite ncompare_real by assumption.
  destruct (Rcompare_spec (N2R a) (N2R b)); split; intros; try discriminate; try reflexivity; lra.
Qed.
Lemma neqb_real a b : good a -> good b -> neqb a b = true <-> N2R a = N2R b.
Proof.
  intros Ha Hb. unfold neqb. rewrite ncompare_real by assumption.
  destruct (Rcompare_spec (N2R a) (N2R b)); split; intros; try discriminate; try reflexivity; lra.
Qed.
Lemma ngeb_real a b : good a -> good b -> ngeb a b = true <-> N2R a >= N2R b.
Proof.
  intros Ha Hb. unfold ngeb. rewrite ncompare_real by assumption.
  destruct (Rcompare_spec (N2R a) (N2R b)); split; intros; try discriminate; try reflexivity; lra.
Qed.
Lemma nabs_real a : N2R (nabs a) = Rabs (N2R a).
Proof. destruct a; cbn; [symmetry; rewrite <- abs_IZR; reflexivity|apply fabs_real]. Qed.
Lemma nabs_good a : good a -> good (nabs a).
Proof. destruct a; cbn; [lia|]. rewrite fabs_finite. intros [A B]. auto using valid_fabs. Qed.

(** Addition and subtraction: integers are exact (and may leave the range in which they
    convert exactly), anything else is rounded. *)
Definition is_int (a : num) : bool := match a with NI _ => true | _ => false end.
Lemma nsub_real a b : good a -> good b -> Rabs (N2R a - N2R b) <= HUGE ->
  exists c, nsub a b = Ok c /\
    (c = match a, b with NI x, NI y => NI (x - y) | _, _ => c end) /\
    (is_int a && is_int b = false -> good c /\ is_int c = false /\ N2R c = rnd (N2R a - N2R b)).
Proof.
  intros Ha Hb H.
  destruct (to_float_real a Ha) as (x & Ex & Vx & Fx & Rx), (to_float_real b Hb) as (y & Ey & Vy & Fy & Ry).
  destruct a as [xa|xa], b as [yb|yb]; cbn [nsub is_int andb].
  - eexists. split; [reflexivity|]. split; [reflexivity|]. discriminate.
  - rewrite Ex, Ey. cbn. rewrite <- Rx, <- Ry in H. destruct (fsub_real x y) as [A B]; try assumption.
    eexists. split; [reflexivity|]. split; [reflexivity|]. intros _. cbn in *. rewrite B, Rx, Ry. auto using valid_fsub.
  - rewrite Ex, Ey. cbn. rewrite <- Rx, <- Ry in H. destruct (fsub_real x y) as [A B]; try assumption.
    eexists. split; [reflexivity|]. split; [reflexivity|]. intros _. cbn in *. rewrite B, Rx, Ry. auto using valid_fsub.
  - rewrite Ex, Ey. cbn. rewrite <- Rx, <- Ry in H. destruct (fsub_real x y) as [A B]; try assumption.
    eexists. split; [reflexivity|]. split; [reflexivity|]. intros _. cbn in *. rewrite B, Rx, Ry. auto using valid_fsub.
Qed.
Lemma nadd_real a b : good a -> good b -> Rabs (N2R a + N2R b) <= HUGE -> is_int a && is_int b = false ->
  exists c, nadd a b = Ok c /\ good c /\ is_int c = false /\ N2R c = rnd (N2R a + N2R b).
Proof.
  intros Ha Hb H HI.
  destruct (to_float_real a Ha) as (x & Ex & Vx & Fx & Rx), (to_float_real b Hb) as (y & Ey & Vy & Fy & Ry).
  rewrite <- Rx, <- Ry in H. destruct (fadd_real x y) as [A B]; try assumption.
  exists (NF (fadd x y)). split; [|cbn; rewrite B, Rx, Ry; auto using valid_fadd].
  unfold nadd. rewrite Ex, Ey. destruct a, b; try reflexivity. discriminate.
Qed.

(** Integers beyond all floats. *)
Lemma of_Z_beyond z : (2 ^ 1024 <= Z.abs z)%Z -> exists s, of_Z z = S754_infinity s.
Proof.
  intros H. unfold of_Z. rewrite normalize_eq.
  pose proof (binary_normalize_correct 53 1024 Hprec Hmax mode_NE z 0 false) as C. cbn zeta in C.
  replace (F2R (Float radix2 z 0)) with (IZR z) in C by (unfold F2R; cbn; ring).
  rewrite Rlt_bool_false in C; [exists (Rlt_bool (IZR z) 0); exact C|].
  assert (G : is_double (bpow radix2 1024)) by (apply generic_format_bpow; vm_compute; discriminate).
  change (bpow radix2 1024 <= Rabs (rnd (IZR z))). rewrite <- rnd_abs. rewrite <- (rnd_double _ G). apply rnd_le.
  rewrite <- abs_IZR. rewrite <- IZR_Zpower by lia. apply IZR_le. exact H.
Qed.
Lemma int_float_beyond z : (2 ^ 1024 <= Z.abs z)%Z -> int_float z = Raise OverflowError.
Proof. intros H. unfold int_float. destruct (of_Z_beyond z H) as (s & ->). reflexivity. Qed.
