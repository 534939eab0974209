(** C62: human-readable sizes. *)
From Coq Require Import Reals Psatz.
From Verif Require Import PyBase PyStr Humanize Float64 FloatReal HumanBytes.
From Flocq Require Import Core Relative BinarySingleNaN.
Local Open Scope R_scope.

Lemma valid_fmul x y : is_float64 x = true -> is_float64 y = true -> is_float64 (fmul x y) = true.
Proof. intros Hx Hy. destruct (is_B x Hx) as (a & ->), (is_B y Hy) as (b & ->). rewrite fmul_eq. apply B_valid. Qed.

(** ** Truncation *)
Lemma trunc_real f : is_float64 f = true -> finite f = true -> trunc f = Ok (Ztrunc (F2Rv f)).
Proof.
  intros _ Ff. destruct f as [s|s| |s m e]; try discriminate; cbn -[Z.mul Z.pow Z.div].
  - rewrite Ztrunc_IZR. reflexivity.
  - f_equal. unfold F2Rv, SF2R. rewrite F2R_cond_Zopp.
    assert (T : Ztrunc (F2R (Float radix2 (Z.pos m) e)) = if (0 <=? e)%Z then (Z.pos m * 2 ^ e)%Z else (Z.pos m / 2 ^ (- e))%Z).
    { rewrite Ztrunc_floor by (apply F2R_ge_0; cbn; lia). unfold F2R. cbn [Fnum Fexp]. destruct (Z.leb_spec 0 e) as [H|H].
      - rewrite <- IZR_Zpower by exact H. rewrite <- mult_IZR, Zfloor_IZR. reflexivity.
      - replace (bpow radix2 e) with (/ IZR (2 ^ (- e))).
        + apply (Zfloor_div (Z.pos m) (2 ^ (- e))). apply Z.pow_nonzero; lia.
        + change (2 ^ (- e))%Z with (radix2 ^ (- e))%Z. rewrite IZR_Zpower by lia. rewrite <- bpow_opp. f_equal. lia. }
    rewrite <- T. destruct s; cbn [cond_Ropp cond_Zopp]; [rewrite Ztrunc_opp|]; reflexivity.
Qed.

(** ** Scaling *)
Lemma bpow10 : bpow radix2 10 = 1024. Proof. cbn. lra. Qed.
Lemma pow1024 i : IZR (1024 ^ Z.of_nat i) = bpow radix2 (10 * Z.of_nat i).
Proof.
  change 1024%Z with (2 ^ 10)%Z. rewrite <- Z.pow_mul_r by lia. change (2 ^ (10 * Z.of_nat i))%Z with (radix2 ^ (10 * Z.of_nat i))%Z.
  rewrite IZR_Zpower by lia. reflexivity.
Qed.

Lemma double_div x : is_double x -> 1024 <= x -> is_double (x / 1024).
Proof.
  intros H L. apply FLT_format_generic in H; [|reflexivity]. destruct H as [[m e] H1 H2 H3]. cbn in H2, H3.
  apply generic_format_FLT. exists (Float radix2 m (e - 10)); cbn; [|exact H2|].
  - rewrite H1. unfold F2R. cbn [Fnum Fexp]. unfold Z.sub. rewrite bpow_plus, bpow_opp, bpow10. field.
  - assert (E : (e >= -43)%Z); [|lia]. apply Z.le_ge. apply Z.lt_succ_r. change (Z.succ e) with (e + 1)%Z.
    rewrite H1 in L. unfold F2R in L. cbn [Fnum Fexp] in L.
    assert (B : bpow radix2 10 < bpow radix2 (53 + e)).
    { rewrite bpow10. apply Rle_lt_trans with (1 := L). rewrite bpow_plus. apply Rmult_lt_compat_r; [apply bpow_gt_0|].
      change (bpow radix2 53) with (IZR (2 ^ 53)). apply IZR_lt. lia. }
    apply lt_bpow in B. lia.
Qed.

Lemma div_real f : is_float64 f = true -> finite f = true -> 1024 <= F2Rv f <= HUGE ->
  is_float64 (fdiv f (of_Z 1024)) = true /\ finite (fdiv f (of_Z 1024)) = true /\
  F2Rv (fdiv f (of_Z 1024)) = F2Rv f / 1024.
Proof.
  intros V F [L U]. destruct (of_Z_exact 1024) as [E1 E2]; [cbn; lia|].
  split; [apply valid_fdiv; [exact V|apply valid_of_Z]|].
  assert (B : Rabs (F2Rv f / F2Rv (of_Z 1024)) <= HUGE).
  { rewrite E2, Rabs_pos_eq by lra. apply Rle_trans with (2 := U). lra. }
  destruct (fdiv_real f (of_Z 1024) V (valid_of_Z _) F ltac:(rewrite E2; lra) B) as [X Y].
  split; [exact X|]. rewrite Y, E2. apply rnd_double, double_div; [apply real_double; exact V|exact L].
Qed.

(** From a float below 1024^(k+1), [scale] stops after at most [k] steps and gives the exact quotient. *)
Lemma scale_float : forall k fuel f i, is_float64 f = true -> finite f = true -> 0 <= F2Rv f -> F2Rv f <= HUGE ->
  F2Rv f < 1024 ^ (S k) -> (k < fuel)%nat ->
  exists j q, scale fuel (NF f) i = Ok (NF q, (i + j)%nat) /\ (j <= k)%nat /\
    is_float64 q = true /\ finite q = true /\ F2Rv q = F2Rv f / 1024 ^ j /\ F2Rv q < 1024 /\
    (1 <= F2Rv f -> 1 <= F2Rv q).
Proof.
  induction k as [|k IH]; intros fuel f i V F P U B HF; (destruct fuel as [|fuel]; [lia|]); cbn [scale].
  - assert (G : ngeb (NF f) (NI 1024) = false).
    { apply Bool.not_true_iff_false. rewrite ngeb_real; [|cbn; auto|cbn; lia]. cbn [N2R]. cbn in B. lra. }
    rewrite G. exists 0%nat, f. rewrite Nat.add_0_r. cbn in *. repeat split; auto; lra.
  - destruct (ngeb (NF f) (NI 1024)) eqn:G.
    + apply ngeb_real in G; [|cbn; auto|cbn; lia]. cbn [N2R] in G.
      destruct (div_real f V F) as (V' & F' & E); [lra|]. cbn [to_float bind].
      destruct (IH fuel (fdiv f (of_Z 1024)) (S i) V' F') as (j & q & A1 & A2 & A3 & A4 & A5 & A6 & A7); try (rewrite E; lra); try lia.
      { rewrite E. cbn [pow] in B |- *. lra. }
      exists (S j), q. rewrite A1. split; [f_equal; f_equal; lia|]. split; [lia|]. split; [exact A3|]. split; [exact A4|].
      split; [|split; [exact A6|]].
      * rewrite A5, E. cbn [pow]. field. apply pow_nonzero. lra.
      * intros _. apply A7. rewrite E. lra.
    + assert (F2Rv f < 1024).
      { apply Bool.not_true_iff_false in G. rewrite ngeb_real in G; [|cbn; auto|cbn; lia]. cbn [N2R] in G. lra. }
      exists 0%nat, f. rewrite Nat.add_0_r. cbn. repeat split; auto; try lra. lia.
Qed.

Lemma pow_bpow i : 1024 ^ i = IZR (1024 ^ Z.of_nat i).
Proof. rewrite <- pow_IZR. reflexivity. Qed.

(** [scale] on an integer that Python can convert. *)
Lemma scale_small n fuel : (n < 1024)%Z -> scale (S fuel) (NI n) 0 = Ok (NI n, 0%nat).
Proof.
  intros H. assert (G : ngeb (NI n) (NI 1024) = false).
  { unfold ngeb. cbn. destruct (Z.compare_spec n 1024); try reflexivity; lia. }
  cbn [scale]. rewrite G. reflexivity.
Qed.
Lemma scale_large n k fuel : (1024 <= n <= 2 ^ 900)%Z -> rnd (IZR n) < 1024 ^ (S k) -> (k < fuel)%nat ->
  exists j q, scale (S fuel) (NI n) 0 = Ok (NF q, j) /\ (1 <= j <= k)%nat /\
    is_float64 q = true /\ finite q = true /\ F2Rv q = rnd (IZR n) / 1024 ^ j /\ 1 <= F2Rv q < 1024.
Proof.
  intros H B K. assert (G : ngeb (NI n) (NI 1024) = true).
  { unfold ngeb. cbn. destruct (Z.compare_spec n 1024); try reflexivity; lia. }
  assert (L : 1024 <= rnd (IZR n)).
  { rewrite <- (rnd_double 1024); [apply rnd_le, IZR_le; lia|]. apply (int_double 1024). cbn. lia. }
  cbn [scale]. rewrite G. cbn [to_float].
  destruct (of_Z_real n) as [E1 E2]; [lia|].
  assert (IF : int_float n = Ok (of_Z n)) by (unfold int_float; destruct (of_Z n); try reflexivity; discriminate).
  rewrite IF. cbn [bind].
  assert (HU : rnd (IZR n) <= HUGE).
  { unfold HUGE. rewrite <- (rnd_double (bpow radix2 1020)) by (apply generic_format_bpow; cbn; lia). apply rnd_le.
    apply Rle_trans with (IZR (2 ^ 900)); [apply IZR_le; lia|].
    change (IZR (2 ^ 900)) with (IZR (radix2 ^ 900)). rewrite IZR_Zpower by lia. apply bpow_le. lia. }
  clear H.
  destruct (div_real (of_Z n) (valid_of_Z n) E1) as (V & F & E); [rewrite E2; split; assumption|].
  rewrite E2 in E. destruct k as [|k]; [exfalso; cbn in B; clear - B L; lra|].
  destruct (scale_float k fuel (fdiv (of_Z n) (of_Z 1024)) 1 V F) as (j & q & A1 & A2 & A3 & A4 & A5 & A6 & A7); [rewrite E; clear - L; lra| |rewrite E; cbn [pow] in B |- *; clear - B; lra|clear - K; lia|].
  { rewrite E. apply Rle_trans with (2 := HU). clear - L. lra. }
  exists (S j), q. split; [exact A1|]. split; [lia|]. split; [exact A3|]. split; [exact A4|].
  split; [rewrite A5, E; cbn [pow]; field; apply pow_nonzero; lra|]. split; [apply A7; rewrite E; lra|exact A6].
Qed.

Lemma below_big n k : (1024 <= n <= 2 ^ k)%Z -> (0 <= k <= 900)%Z -> (1024 <= n <= 2 ^ 900)%Z.
Proof.
  intros [H1 H2] H3. split; [exact H1|]. apply Z.le_trans with (1 := H2). apply Z.pow_le_mono_r; [reflexivity|apply H3].
Qed.

(** ** Tenths *)
Lemma half : is_float64 (lit 1 2) = true /\ finite (lit 1 2) = true /\ F2Rv (lit 1 2) = / 2.
Proof.
  split; [apply valid_lit|]. split; [vm_compute; reflexivity|].
  assert (E : lit 1 2 = S754_finite false 4503599627370496 (-53)) by (vm_compute; reflexivity).
  rewrite E. unfold F2Rv, SF2R, F2R. cbn. lra.
Qed.
Lemma tenths_float q : is_float64 q = true -> finite q = true -> 0 <= F2Rv q <= 2048 ->
  tenths (NF q) = Ok (Ztrunc (rnd (rnd (F2Rv q * 10) + / 2))).
Proof.
  intros V F B. cbn [tenths]. destruct (of_Z_exact 10) as [E1 E2]; [cbn; lia|]. destruct half as (H1 & H2 & H3).
  assert (HG : 100000 <= HUGE).
  { unfold HUGE. apply Rle_trans with (bpow radix2 17); [cbn; lra|apply bpow_le; lia]. }
  destruct (fmul_real q (of_Z 10) V (valid_of_Z _) F E1) as [A1 A2].
  { rewrite E2, Rabs_pos_eq; lra. }
  rewrite E2 in A2.
  assert (R0 : 0 <= rnd (F2Rv q * 10) <= 20480).
  { split; [rewrite <- rnd_0; apply rnd_le; lra|]. rewrite <- (rnd_double 20480) by (apply (int_double 20480); cbn; lia).
    apply rnd_le. lra. }
  destruct (fadd_real (fmul q (of_Z 10)) (lit 1 2)) as [C1 C2]; auto using valid_fmul, valid_of_Z.
  { rewrite A2, H3, Rabs_pos_eq; lra. }
  rewrite trunc_real; [|apply valid_fadd; auto using valid_fmul, valid_of_Z|exact C1].
  rewrite C2, A2, H3. reflexivity.
Qed.
Lemma half_double z : (Z.abs z <= 2 ^ 51)%Z -> is_double (IZR z + / 2).
Proof.
  intros H. apply generic_format_FLT. exists (Float radix2 (2 * z + 1) (-1)); cbn -[Z.mul]; [|lia|lia].
  unfold F2R. cbn [Fnum Fexp]. rewrite plus_IZR, mult_IZR. cbn. lra.
Qed.
Lemma tenths_int z : (Z.abs z <= 2 ^ 40)%Z -> tenths (NI z) = Ok (if (z <? 0)%Z then (10 * z + 1)%Z else (10 * z)%Z).
Proof.
  intros H. cbn [tenths]. destruct (of_Z_exact (z * 10)) as [E1 E2]; [lia|]. destruct half as (H1 & H2 & H3).
  assert (IF : int_float (z * 10) = Ok (of_Z (z * 10))) by (unfold int_float; destruct (of_Z (z * 10)); try reflexivity; discriminate).
  rewrite IF. cbn [bind].
  destruct (fadd_real (of_Z (z * 10)) (lit 1 2)) as [C1 C2]; auto using valid_of_Z.
  { rewrite E2, H3. apply Rle_trans with (bpow radix2 50); [|apply bpow_le; lia].
    change (bpow radix2 50) with (IZR (2 ^ 50)). assert (X : (- (2 ^ 44) <= z * 10 <= 2 ^ 44)%Z) by lia.
    destruct X as [X1 X2]. apply IZR_le in X1, X2. apply Rabs_le. split; [|]; cbn in *; lra. }
  rewrite trunc_real; [|apply valid_fadd; auto using valid_of_Z|exact C1].
  rewrite C2, E2, H3. rewrite rnd_double by (apply half_double; lia). f_equal.
  destruct (Z.ltb_spec z 0) as [N|N].
  - rewrite Ztrunc_ceil.
    + apply Zceil_imp. replace (10 * z + 1 - 1)%Z with (z * 10)%Z by lia. rewrite plus_IZR, !mult_IZR. split; lra.
    + assert (X : (z * 10 <= -1)%Z) by lia. apply IZR_le in X. lra.
  - rewrite Ztrunc_floor.
    + apply Zfloor_imp. rewrite plus_IZR, !mult_IZR. split; lra.
    + assert (X : (0 <= z * 10)%Z) by lia. apply IZR_le in X. lra.
Qed.

(** ** The property *)
(** A decimal number with at most one decimal: [a.b], without [.b] when [b] is 0. *)
Definition decimal (a b : Z) : string :=
  if (b =? 0)%Z then show_Z a else (show_Z a ++ "." ++ show_Z b)%string.
Definition unit_name (i : nat) : string :=
  match i with
  | 0%nat => "" | 1%nat => " KiB" | 2%nat => " MiB" | 3%nat => " GiB" | 4%nat => " TiB" | 5%nat => " PiB"
  | 6%nat => " EiB" | 7%nat => " ZiB" | _ => " YiB"
  end.

Section Bytes.
Context (long_g : Z -> string).
Notation bytes := (bytes long_g).

Lemma show_decimal m : (0 <= m < 1000000)%Z -> show_tenths long_g m = decimal (m / 10) (m mod 10).
Proof.
  intros H. unfold show_tenths, show_abs, decimal. destruct (Z.leb_spec 1000000 (Z.abs m)); [lia|].
  destruct (Z.ltb_spec m 0); [lia|]. destruct (m mod 10 =? 0)%Z; [|reflexivity].
  induction (show_Z (m / 10)) as [|c s IH]; cbn; [reflexivity|]. rewrite IH. reflexivity.
Qed.

(** C62 for sizes below 512 TiB: the unit is the right one and the number is the nearest
    multiple of a tenth (halves up).  Partial: the number may be 1024 (next theorems), and
    larger and negative sizes are the subject of the next theorems. *)
Theorem C62_exact_partial : forall n, (0 <= n < 2 ^ 49)%Z ->
  exists i a b, bytes n = Ok (decimal a b ++ unit_name i)%string /\ (0 <= b < 10)%Z /\
    (n < 1024 ^ (Z.of_nat i + 1))%Z /\ (i = 0%nat \/ 1024 ^ Z.of_nat i <= n)%Z /\
    (2 * (10 * a + b) * 1024 ^ Z.of_nat i <= 20 * n + 1024 ^ Z.of_nat i < 2 * (10 * a + b + 1) * 1024 ^ Z.of_nat i)%Z /\
    (i = 0%nat -> a = n /\ b = 0%Z).
Proof.
  intros n H. assert (S0 : (if (n <? 0)%Z then "-"%string else ""%string) = ""%string) by (destruct (Z.ltb_spec n 0); [lia|reflexivity]).
  unfold HumanBytes.bytes. rewrite S0.
  destruct (Z.lt_ge_cases n 1024) as [L|L].
  - rewrite scale_small by exact L. cbn [bind fst snd]. rewrite tenths_int by lia.
    assert ((n <? 0)%Z = false) as -> by (apply Z.ltb_ge; lia). cbn [bind]. rewrite show_decimal by lia.
    exists 0%nat, n, 0%Z. replace (10 * n)%Z with (n * 10)%Z by lia. rewrite Z.div_mul, Z.mod_mul by lia.
    split; [reflexivity|]. change (1024 ^ (Z.of_nat 0 + 1))%Z with 1024%Z. change (1024 ^ Z.of_nat 0)%Z with 1%Z. lia.
  - assert (RN : rnd (IZR n) = IZR n) by (apply rnd_double, int_double; lia).
        destruct (scale_large n 4 199) as (j & q & A1 & A2 & A3 & A4 & A5 & A6); [apply (below_big n 49); lia| |lia|].
    { rewrite RN. apply Rlt_trans with (IZR (2 ^ 49)); [apply IZR_lt; lia|]. cbn. lra. }
    rewrite RN in A5. rewrite A1. cbn [bind fst snd]. rewrite tenths_float by (auto; lra).
    set (p := (1024 ^ Z.of_nat j)%Z) in *.
    assert (PP : (1024 <= p /\ p mod 2 = 0)%Z).
    { unfold p. destruct A2 as [A2 A2']. replace (Z.of_nat j) with (Z.of_nat (j - 1) + 1)%Z by lia.
      rewrite Z.pow_add_r by lia. change (1024 ^ 1)%Z with (2 * 512)%Z.
      assert (0 < 1024 ^ Z.of_nat (j - 1))%Z by (apply Z.pow_pos_nonneg; lia). split; [nia|].
      rewrite (Z.mul_comm 2), Z.mul_assoc. apply Z.mod_mul. lia. }
    assert (QE : F2Rv q * IZR p = IZR n).
    { rewrite A5, pow_bpow. fold p. field. apply not_0_IZR. lia. }
    assert (PR : 0 < IZR p) by (apply IZR_lt; lia).
    assert (PN : (p <= n < 1024 * p)%Z).
    { split; [apply le_IZR|apply lt_IZR; rewrite mult_IZR]; rewrite <- QE; nra. }
    (* both roundings are exact *)
    assert (SC : forall z : Z, (0 <= z <= 2 ^ 53)%Z -> is_double (IZR z / IZR p)).
    { intros z HZ. replace (IZR z / IZR p) with (IZR z * bpow radix2 (- (10 * Z.of_nat j))).
      - destruct (Z.eq_dec z (2 ^ 53)) as [->|NE].
        + change (IZR (2 ^ 53)) with (bpow radix2 53). rewrite <- bpow_plus. apply generic_format_bpow. unfold SpecFloat.fexp, SpecFloat.emin. lia.
        + apply generic_format_FLT. exists (Float radix2 z (- (10 * Z.of_nat j))); cbn -[Z.mul]; [reflexivity|lia|lia].
      - unfold p. rewrite pow1024, bpow_opp. reflexivity. }
    assert (R1 : rnd (F2Rv q * 10) = F2Rv q * 10).
    { apply rnd_double. replace (F2Rv q * 10) with (IZR (n * 10) / IZR p); [apply SC; lia|].
      rewrite mult_IZR, <- QE. field. lra. }
    assert (R2 : rnd (F2Rv q * 10 + / 2) = F2Rv q * 10 + / 2).
    { apply rnd_double. replace (F2Rv q * 10 + / 2) with (IZR (n * 10 + p / 2) / IZR p).
      - apply SC. split; [apply Z.add_nonneg_nonneg; [lia|apply Z.div_pos; lia]|].
        assert (p / 2 <= p)%Z by (apply Z.div_le_upper_bound; lia). lia.
      - assert (P2 : IZR (p / 2) = IZR p / 2).
        { assert (p = 2 * (p / 2))%Z by (rewrite (Z.div_mod p 2) at 1 by lia; lia).
          rewrite H0 at 2. rewrite mult_IZR. field. }
        rewrite plus_IZR, mult_IZR, <- QE, P2. field. lra. }
    rewrite R1, R2. rewrite Ztrunc_floor by lra. set (m := Zfloor (F2Rv q * 10 + / 2)).
    pose proof (Zfloor_lb (F2Rv q * 10 + / 2)) as M1. pose proof (Zfloor_ub (F2Rv q * 10 + / 2)) as M2. fold m in M1, M2.
    assert (MB : (0 <= m < 20000)%Z).
    { split; [apply Z.lt_succ_r; apply lt_IZR; rewrite succ_IZR; lra|apply lt_IZR; lra]. }
    cbn [bind]. rewrite show_decimal by lia. exists j, (m / 10)%Z, (m mod 10)%Z.
    assert (UN : nth_error byte_units j = Some (unit_name j)).
    { clear - A2. do 5 (destruct j as [|j]; [reflexivity|]). lia. }
    rewrite UN. split; [reflexivity|]. split; [apply Z.mod_pos_bound; lia|]. fold p.
    split; [rewrite Z.pow_add_r by lia; fold p; lia|]. split; [right; fold p; lia|].
    rewrite <- Z.div_mod by lia. split; [|lia].
    split; [apply le_IZR|apply lt_IZR]; rewrite ?plus_IZR, ?mult_IZR, ?plus_IZR, <- QE; nra.
Qed.

(** C62 for every size that can be shown (up to 2^90 - 2^37; 2^90 raises, see below): the call
    returns a number of at least 1 and at most 1024, which is off by at most 5.1 hundredths of
    the unit. *)
Theorem C62_total_partial : forall n, (1024 <= n <= 2 ^ 90 - 2 ^ 37)%Z ->
  exists i a b, bytes n = Ok (decimal a b ++ unit_name i)%string /\ (0 <= b < 10)%Z /\ (1 <= i <= 8)%nat /\
    (10 <= 10 * a + b <= 10240)%Z /\
    (100 * Z.abs ((10 * a + b) * 1024 ^ Z.of_nat i - 10 * n) <= 51 * 1024 ^ Z.of_nat i)%Z.
Proof.
  intros n H. assert (S0 : (if (n <? 0)%Z then "-"%string else ""%string) = ""%string) by (destruct (Z.ltb_spec n 0); [lia|reflexivity]).
  unfold HumanBytes.bytes. rewrite S0.
    assert (DB : is_double (IZR (2 ^ 90 - 2 ^ 37))).
  { apply generic_format_FLT. exists (Float radix2 (2 ^ 53 - 1) 37); cbn; [|lia|lia]. unfold F2R. cbn. lra. }
  destruct (scale_large n 8 199) as (j & q & A1 & A2 & A3 & A4 & A5 & A6); [apply (below_big n 90); lia| |lia|].
  { apply Rle_lt_trans with (IZR (2 ^ 90 - 2 ^ 37)); [rewrite <- (rnd_double _ DB); apply rnd_le, IZR_le; lia|]. cbn. lra. }
  rewrite A1. cbn [bind fst snd]. rewrite tenths_float by (auto; lra).
  set (p := (1024 ^ Z.of_nat j)%Z) in *. assert (PP : (0 < p)%Z) by (apply Z.pow_pos_nonneg; lia).
  assert (PR : 0 < IZR p) by (apply IZR_lt; lia).
  assert (QE : F2Rv q * IZR p = rnd (IZR n)).
  { rewrite A5, pow_bpow. fold p. field. lra. }
  (* relative errors *)
  assert (RE : forall x, 1 <= x -> Rabs (rnd x - x) <= bpow radix2 (-53) * x).
  { intros x X. assert (E := relative_error_N_FLT radix2 (3 - 1024 - 53) 53 ltac:(lia) (fun x => negb (Z.even x)) x).
    assert (X2 : bpow radix2 (3 - 1024 - 53 + 53 - 1) <= Rabs x).
    { rewrite Rabs_pos_eq by lra. apply Rle_trans with (bpow radix2 0); [apply bpow_le; lia|exact X]. }
    specialize (E X2). rewrite (Rabs_pos_eq x) in E by lra.
    change (/ 2 * bpow radix2 (- (53) + 1)) with (/ 2 * bpow radix2 (-52)) in E.
    replace (/ 2 * bpow radix2 (-52)) with (bpow radix2 (-53)) in E by (cbn; lra). exact E. }
  pose proof (RE (F2Rv q * 10) ltac:(lra)) as E1.
  assert (X1 : 1 <= rnd (F2Rv q * 10) + / 2).
  { assert (1 <= rnd (F2Rv q * 10)); [|lra]. rewrite <- (rnd_double 1) by (apply (int_double 1); cbn; lia). apply rnd_le. lra. }
  pose proof (RE _ X1) as E2.
  assert (X0 : 1 <= IZR n) by (apply (IZR_le 1); lia). pose proof (RE _ X0) as E0.
  set (z := rnd (rnd (F2Rv q * 10) + / 2)) in *.
  change (bpow radix2 (-53)) with (/ 9007199254740992) in E0, E1, E2.
  apply Rabs_le_inv in E1. apply Rabs_le_inv in E2. apply Rabs_le_inv in E0.
  assert (ZR : 1 <= z <= 10240 + / 2).
  { split; [rewrite <- (rnd_double 1) by (apply (int_double 1); cbn; lia); apply rnd_le; exact X1|].
    assert (D2 : is_double (10240 + / 2)) by (apply (half_double 10240); cbn; lia).
    rewrite <- (rnd_double _ D2). apply rnd_le. apply Rplus_le_compat_r.
    rewrite <- (rnd_double 10240) by (apply (int_double 10240); cbn; lia). apply rnd_le. lra. }
  assert (ZL : 10 + / 2 <= z).
  { assert (D2 : is_double (10 + / 2)) by (apply (half_double 10); cbn; lia).
    rewrite <- (rnd_double _ D2). apply rnd_le. apply Rplus_le_compat_r.
    apply Rle_trans with (rnd 10); [rewrite rnd_double by (apply (int_double 10); cbn; lia); lra|]. apply rnd_le. lra. }
  rewrite Ztrunc_floor by lra. set (m := Zfloor z).
  pose proof (Zfloor_lb z) as M1. pose proof (Zfloor_ub z) as M2. fold m in M1, M2.
  assert (MB : (10 <= m <= 10240)%Z).
  { split; apply Z.lt_succ_r; apply lt_IZR; rewrite succ_IZR; lra. }
  cbn [bind]. rewrite show_decimal by lia. exists j, (m / 10)%Z, (m mod 10)%Z.
  assert (UN : nth_error byte_units j = Some (unit_name j)).
  { clear - A2. do 9 (destruct j as [|j]; [reflexivity|]). lia. }
  rewrite UN. split; [reflexivity|]. split; [apply Z.mod_pos_bound; lia|]. split; [lia|].
  rewrite <- Z.div_mod by lia. split; [exact MB|]. fold p.
  assert (D : Rabs (IZR m * IZR p - 10 * IZR n) <= 51 / 100 * IZR p).
  { assert (N1 : IZR n <= 1025 * IZR p) by nra.
    assert (D1 : Rabs (IZR m - 10 * F2Rv q) <= / 2 + / 1000).
    { apply Rabs_le. split; lra. }
    apply Rabs_le_inv in D1. destruct D1 as [D1 D2].
    apply (Rmult_le_compat_r (IZR p)) in D1; [|lra]. apply (Rmult_le_compat_r (IZR p)) in D2; [|lra].
    replace (IZR m * IZR p - 10 * IZR n) with ((IZR m - 10 * F2Rv q) * IZR p + 10 * (F2Rv q * IZR p - IZR n)) by ring.
    rewrite QE. apply Rabs_le. split; lra. }
  apply le_IZR. rewrite mult_IZR, abs_IZR, minus_IZR, !mult_IZR. lra.
Qed.

(** C62 refuted for negative numbers, all of them down to -10^5: two signs, no unit, and a tenth
    short. *)
Theorem C62_negative_refuted : forall n, (-100000 < n < 0)%Z ->
  bytes n = Ok ("--" ++ decimal (- n - 1) 9)%string.
Proof.
  intros n H. unfold HumanBytes.bytes. assert ((n <? 0)%Z = true) as X by (apply Z.ltb_lt; lia). rewrite X.
  rewrite scale_small by lia. cbn [bind fst snd]. rewrite tenths_int by lia. rewrite X. cbn [bind byte_units nth_error].
  unfold show_tenths. destruct (Z.leb_spec 1000000 (Z.abs (10 * n + 1))); [lia|].
  assert ((10 * n + 1 <? 0)%Z = true) as -> by (apply Z.ltb_lt; lia).
  unfold show_abs, decimal. replace (- (10 * n + 1))%Z with (9 + (- n - 1) * 10)%Z by lia.
  rewrite Z.div_add, Z.mod_add by lia. change (9 / 10)%Z with 0%Z. change (9 mod 10)%Z with 9%Z.
  change (9 =? 0)%Z with false. cbv iota. rewrite Z.add_0_l.
  assert (E : forall s : string, (s ++ "" = s)%string) by (induction s as [|c s IH]; cbn; [|rewrite IH]; reflexivity).
  rewrite E. reflexivity.
Qed.
(** C62 refuted at the upper end of each unit but the first: 1024 of a unit instead of 1 of the next. *)
Theorem C62_1024_refuted :
  bytes (1024 ^ 2 - 1) = Ok "1024 KiB"%string /\ bytes (1024 ^ 3 - 1) = Ok "1024 MiB"%string /\
  bytes (1024 ^ 4 - 1) = Ok "1024 GiB"%string.
Proof. vm_compute. repeat split. Qed.
(** C62 refuted for enormous sizes. *)
Theorem C62_large_refuted : bytes (1024 ^ 9) = Raise IndexError.
Proof. vm_compute. reflexivity. Qed.
End Bytes.

Example C62_hyp : bytes (fun _ => ""%string) 4000 = Ok "3.9 KiB"%string /\ bytes (fun _ => ""%string) (5 * 1024 ^ 3) = Ok "5 GiB"%string /\
  bytes (fun _ => ""%string) (2 ^ 89 + 12345) = Ok "512 YiB"%string /\ bytes (fun _ => ""%string) (-4096) = Ok "--4095.9"%string.
Proof. vm_compute. repeat split. Qed.

Print Assumptions C62_exact_partial.
Print Assumptions C62_total_partial.
Print Assumptions C62_negative_refuted.
Print Assumptions C62_1024_refuted.
Print Assumptions C62_large_refuted.
