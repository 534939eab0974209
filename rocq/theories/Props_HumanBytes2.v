(** C62 for floats, as passed when the disk is too full (caching.py:510-511, 407). *)
From Coq Require Import Reals Psatz.
From Verif Require Import PyBase PyStr Humanize Float64 FloatReal HumanBytes Props_HumanBytes.
From Flocq Require Import Core Relative BinarySingleNaN.
Local Open Scope R_scope.

Lemma rnd_close x : 0 <= x <= 16384 -> Rabs (rnd x - x) <= / 1000.
Proof.
  intros H. destruct (error_N_FLT radix2 (3 - 1024 - 53) 53 ltac:(lia) (fun x => negb (Z.even x)) x) as (eps & eta & E1 & E2 & _ & E).
  change (round radix2 (FLT_exp (3 - 1024 - 53) 53) (Znearest (fun x => negb (Z.even x))) x) with (rnd x) in E. rewrite E.
  assert (A1 : / 2 * bpow radix2 (- (53) + 1) <= / 100000000).
  { change (- (53) + 1)%Z with (-52)%Z. change (bpow radix2 (-52)) with (/ 4503599627370496). lra. }
  assert (A2 : / 2 * bpow radix2 (3 - 1024 - 53) <= / 100000000).
  { apply Rle_trans with (/ 2 * bpow radix2 (-52)); [apply Rmult_le_compat_l; [lra|apply bpow_le; lia]|]. change (bpow radix2 (-52)) with (/ 4503599627370496). lra. }
  pose proof (Rle_trans _ _ _ E1 A1) as B1. pose proof (Rle_trans _ _ _ E2 A2) as B2. apply Rabs_le_inv in B1. apply Rabs_le_inv in B2.
  apply Rabs_le. split; nra.
Qed.

Section Bytes.
Context (long_g : Z -> string).

(** Any float from zero up to the last unit: the call returns, the unit is the right one and the
    number is off by at most 5.1 hundredths of it. *)
Theorem C62_float_partial f : is_float64 f = true -> finite f = true -> 0 <= F2Rv f < 1024 ^ 9 ->
  exists i a b, bytes_float long_g f = Ok (decimal a b ++ unit_name i)%string /\ (0 <= b < 10)%Z /\ (i <= 8)%nat /\
    F2Rv f < 1024 ^ (S i) /\ (i = 0%nat \/ 1024 ^ i <= F2Rv f) /\ (0 <= 10 * a + b <= 10240)%Z /\
    Rabs (IZR (10 * a + b) * 1024 ^ i - 10 * F2Rv f) <= 51 / 100 * 1024 ^ i.
Proof.
  intros V F [P B]. unfold bytes_float.
  assert (S0 : nltb (NF f) (NI 0) = false).
  { apply Bool.not_true_iff_false. rewrite nltb_real; [|cbn; auto|cbn; lia]. cbn [N2R]. lra. }
  rewrite S0.
  assert (HU : F2Rv f <= HUGE).
  { unfold HUGE. apply Rle_trans with (bpow radix2 90); [|apply bpow_le; lia]. change (bpow radix2 90) with (IZR (2 ^ 90)). rewrite pow_bpow in B. change (1024 ^ Z.of_nat 9)%Z with (2 ^ 90)%Z in B. lra. }
  assert (SC : exists j q, scale 200 (NF f) 0 = Ok (NF q, j) /\ (j <= 8)%nat /\ is_float64 q = true /\ finite q = true /\
    F2Rv q = F2Rv f / 1024 ^ j /\ 0 <= F2Rv q < 1024 /\ (j = 0%nat \/ 1 <= F2Rv q)).
  { destruct (Rlt_le_dec (F2Rv f) 1024) as [L|L].
    - destruct (scale_float 0 200 f 0 V F P HU) as (j & q & A1 & A2 & A3 & A4 & A5 & A6 & A7); [cbn; lra|lia|].
      exists j, q. assert (j = 0%nat) by lia. subst j. split; [exact A1|]. split; [lia|]. split; [exact A3|]. split; [exact A4|]. split; [exact A5|].
      split; [|left; reflexivity]. cbn in A5. split; [lra|exact A6].
    - destruct (scale_float 8 200 f 0 V F P HU B) as (j & q & A1 & A2 & A3 & A4 & A5 & A6 & A7); [lia|].
      specialize (A7 ltac:(lra)). exists j, q. split; [exact A1|]. split; [exact A2|]. split; [exact A3|]. split; [exact A4|]. split; [exact A5|]. split; [lra|right; exact A7]. }
  destruct SC as (j & q & A1 & A2 & A3 & A4 & A5 & A6 & A7). rewrite A1. cbn [bind fst snd]. rewrite tenths_float by (auto; lra).
  assert (PP : 0 < 1024 ^ j) by (apply pow_lt; lra). assert (QE : F2Rv f = F2Rv q * 1024 ^ j) by (rewrite A5; field; lra).
  set (p := 1024 ^ j) in *.
  pose proof (rnd_close (F2Rv q * 10) ltac:(lra)) as E1. apply Rabs_le_inv in E1.
  assert (R0 : 0 <= rnd (F2Rv q * 10) <= 10240).
  { split; [rewrite <- rnd_0; apply rnd_le; lra|]. rewrite <- (rnd_double 10240) by (apply (int_double 10240); cbn; lia). apply rnd_le. lra. }
  pose proof (rnd_close (rnd (F2Rv q * 10) + / 2) ltac:(lra)) as E2. apply Rabs_le_inv in E2.
  set (z := rnd (rnd (F2Rv q * 10) + / 2)) in *.
  assert (ZR : z <= 10240 + / 2).
  { assert (D2 : is_double (10240 + / 2)) by (apply (half_double 10240); cbn; lia). rewrite <- (rnd_double _ D2). apply rnd_le. lra. }
  rewrite Ztrunc_floor by lra. set (m := Zfloor z).
  pose proof (Zfloor_lb z) as M1. pose proof (Zfloor_ub z) as M2. fold m in M1, M2.
  assert (MB : (0 <= m <= 10240)%Z).
  { split; apply Z.lt_succ_r; apply lt_IZR; rewrite succ_IZR; lra. }
  cbn [bind]. rewrite (show_decimal long_g) by lia. exists j, (m / 10)%Z, (m mod 10)%Z.
  assert (UN : nth_error byte_units j = Some (unit_name j)).
  { clear - A2. do 9 (destruct j as [|j]; [reflexivity|]). lia. }
  rewrite UN. split; [reflexivity|]. split; [apply Z.mod_pos_bound; lia|]. split; [exact A2|].
  split; [cbn [pow]; fold p; rewrite QE; apply Rlt_le_trans with (1024 * p); [|lra]; apply Rmult_lt_compat_r; lra|].
  split; [destruct A7 as [->|A7]; [left; reflexivity|right; fold p; rewrite QE; rewrite <- (Rmult_1_l p) at 1; apply Rmult_le_compat_r; lra]|].
  rewrite <- Z.div_mod by lia. split; [exact MB|]. fold p.
  replace (IZR m * p - 10 * F2Rv f) with ((IZR m - 10 * F2Rv q) * p) by (rewrite QE; ring).
  rewrite Rabs_mult, (Rabs_pos_eq p) by lra. apply Rmult_le_compat_r; [lra|]. apply Rabs_le. split; lra.
Qed.

(** From there on no float can be shown (up to 2^1020, the bound of the lemmas on floats). *)
Theorem C62_float_large_refuted f : is_float64 f = true -> finite f = true -> 1024 ^ 9 <= F2Rv f <= HUGE -> bytes_float long_g f = Raise IndexError.
Proof.
  intros V F [L HU]. assert (P9 : 0 < 1024 ^ 9) by (apply pow_lt; lra).
  assert (B : F2Rv f < 1024 ^ 103).
  { apply Rle_lt_trans with (1 := HU). unfold HUGE. rewrite pow_bpow. rewrite pow1024. apply bpow_lt. lia. }
  destruct (scale_float 102 200 f 0 V F ltac:(lra) HU B) as (j & q & A1 & A2 & A3 & A4 & A5 & A6 & A7); [lia|].
  assert (O : 1 <= 1024 ^ 9) by (apply pow_R1_Rle; lra). specialize (A7 ltac:(lra)).
  unfold bytes_float. rewrite A1. cbn [bind fst snd]. rewrite tenths_float by (auto; lra). cbn [bind].
  assert (J : (9 <= j)%nat).
  { destruct (Nat.le_gt_cases 9 j) as [J|J]; [exact J|exfalso]. assert (PJ : 0 < 1024 ^ j) by (apply pow_lt; lra).
    assert (QE : F2Rv f = F2Rv q * 1024 ^ j) by (rewrite A5; field; lra).
    assert (M : 1024 ^ (S j) <= 1024 ^ 9) by (apply Rle_pow; [lra|lia]). cbn [pow] in M, L. rewrite QE in L.
    assert (X : F2Rv q * 1024 ^ j < 1024 * 1024 ^ j) by (apply Rmult_lt_compat_r; lra). lra. }
  assert (N : nth_error byte_units j = None) by (apply nth_error_None; exact J).
  change (0 + j)%nat with j. rewrite N. reflexivity.
Qed.
(** And the infinite float keeps the loop going for ever. *)
Theorem C62_infinite_refuted fuel i : scale fuel (NF (S754_infinity false)) i = OutOfFuel.
Proof.
  revert i. induction fuel as [|fuel IH]; intros i; [reflexivity|]. cbn [scale].
  assert (G : ngeb (NF (S754_infinity false)) (NI 1024) = true) by (vm_compute; reflexivity). rewrite G. cbn [to_float bind].
  assert (D : fdiv (S754_infinity false) (of_Z 1024) = S754_infinity false) by (vm_compute; reflexivity). rewrite D. apply IH.
Qed.
End Bytes.

(** ** The hypotheses are met *)
Example C62_float_met : is_float64 (lit 15 10) = true /\ finite (lit 15 10) = true /\
  bytes_float (fun _ => ""%string) (lit 15 10) = Ok "1.5"%string /\ bytes_float (fun _ => ""%string) (fmul (of_Z (3 * 2 ^ 39)) (lit 11 10)) = Ok "1.7 TiB"%string.
Proof. vm_compute. auto. Qed.

Example C62_float_large_met : bytes_float (fun _ => ""%string) (of_Z (2 ^ 90)) = Raise IndexError.
Proof. vm_compute. reflexivity. Qed.

Print Assumptions C62_float_partial.
Print Assumptions C62_float_large_refuted.
Print Assumptions C62_infinite_refuted.
