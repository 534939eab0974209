(** The weighted sums of precomputed.py:30-33 in doubles: rounding errors. *)
From Coq Require Import Reals Psatz.
From Verif Require Import PyBase Float64 FloatReal.
From Flocq Require Import Core Relative Plus_error.
Local Open Scope R_scope.

(** Half the distance from 1 to the next double, and half the smallest positive double. *)
Definition u : R := bpow radix2 (-53).
Definition eta : R := bpow radix2 (-1075).

(** The terms of a sum are pairs (weight, value).  Their exact sum of products, the sum of the
    absolute values of the products. *)
Definition exact (l : list (f64 * f64)) : R := fold_right (fun p s => F2Rv (fst p) * F2Rv (snd p) + s) 0 l.
Definition mass (l : list (f64 * f64)) : R := fold_right (fun p s => Rabs (F2Rv (fst p) * F2Rv (snd p)) + s) 0 l.
(** The sum as it is computed. *)
Definition dot (l : list (f64 * f64)) : f64 := fold_left (fun s p => fadd s (fmul (fst p) (snd p))) l (of_Z 0).
Definition numbers (l : list (f64 * f64)) : Prop :=
  Forall (fun p => (is_float64 (fst p) = true /\ finite (fst p) = true) /\ is_float64 (snd p) = true /\ finite (snd p) = true) l.

Lemma u_pos : 0 < u. Proof. apply bpow_gt_0. Qed.
Lemma eta_pos : 0 < eta. Proof. apply bpow_gt_0. Qed.
Lemma exact_snoc l p : exact (l ++ [p]) = exact l + F2Rv (fst p) * F2Rv (snd p).
Proof. unfold exact. induction l as [|q l IH]; cbn; [ring|]. rewrite IH. ring. Qed.
Lemma mass_snoc l p : mass (l ++ [p]) = mass l + Rabs (F2Rv (fst p) * F2Rv (snd p)).
Proof. unfold mass. induction l as [|q l IH]; cbn; [ring|]. rewrite IH. ring. Qed.
Lemma mass_pos l : 0 <= mass l.
Proof. unfold mass. induction l as [|q l IH]; cbn; [lra|]. pose proof (Rabs_pos (F2Rv (fst q) * F2Rv (snd q))). lra. Qed.
Lemma exact_mass l : Rabs (exact l) <= mass l.
Proof.
  unfold exact, mass. induction l as [|q l IH]; cbn; [rewrite Rabs_R0; lra|].
  eapply Rle_trans; [apply Rabs_triang|]. lra.
Qed.

Lemma half e : / 2 * bpow radix2 e = bpow radix2 (-1 + e).
Proof. rewrite bpow_plus. reflexivity. Qed.

(** Rounding: relative error u and, for products only, absolute error eta. *)
Lemma rnd_product x : Rabs (rnd x - x) <= u * Rabs x + eta.
Proof.
  destruct (error_N_FLT radix2 (3 - 1024 - 53) 53 eq_refl (fun z => negb (Z.even z)) x) as (e & h & E & H & _ & R).
  assert (E0 : rnd x = x * (1 + e) + h) by exact R. rewrite E0. replace (x * (1 + e) + h - x) with (x * e + h) by ring.
  eapply Rle_trans; [apply Rabs_triang|]. rewrite Rabs_mult. apply Rplus_le_compat.
  - rewrite Rmult_comm. apply Rmult_le_compat_r; [apply Rabs_pos|]. eapply Rle_trans; [exact E|]. rewrite half. apply Rle_refl.
  - eapply Rle_trans; [exact H|]. rewrite half. apply Rle_refl.
Qed.
Lemma rnd_plus x y : is_double x -> is_double y -> Rabs (rnd (x + y) - (x + y)) <= u * Rabs (x + y).
Proof.
  intros Dx Dy. destruct (@FLT_plus_error_N_ex radix2 (3 - 1024 - 53) 53 eq_refl (fun z => negb (Z.even z)) x y Dx Dy) as (e & E & R).
  assert (E0 : rnd (x + y) = (x + y) * (1 + e)) by exact R. rewrite E0. replace ((x + y) * (1 + e) - (x + y)) with ((x + y) * e) by ring.
  rewrite Rabs_mult, Rmult_comm. apply Rmult_le_compat_r; [apply Rabs_pos|]. eapply Rle_trans; [exact E|].
  assert (U : u_ro radix2 53 = u) by (unfold u_ro; rewrite half; reflexivity).
  rewrite U. pose proof u_pos. apply Rle_trans with (u / 1); [|lra]. apply Rmult_le_compat_l; [lra|]. apply Rinv_le; lra.
Qed.

Lemma zero_float : is_float64 (of_Z 0) = true /\ finite (of_Z 0) = true /\ F2Rv (of_Z 0) = 0.
Proof. split; [apply valid_of_Z|]. split; reflexivity. Qed.
Lemma pow_ge_1 k : 1 <= (1 + u) ^ k.
Proof. apply pow_R1_Rle. pose proof u_pos. lra. Qed.

Lemma valid_fmul x y : is_float64 x = true -> is_float64 y = true -> is_float64 (fmul x y) = true.
Proof. intros Hx Hy. destruct (is_B x Hx) as (a & ->), (is_B y Hy) as (b & ->). rewrite fmul_eq. apply B_valid. Qed.

Definition bound (l : list (f64 * f64)) : R :=
  ((1 + u) ^ S (List.length l) - 1) * mass l + INR (List.length l) * eta * (1 + u) ^ List.length l.
Definition in_range (l : list (f64 * f64)) : Prop :=
  (1 + u) ^ S (List.length l) * (mass l + INR (List.length l) * eta) <= HUGE.

Lemma dot_error l : numbers l -> in_range l ->
  is_float64 (dot l) = true /\ finite (dot l) = true /\ Rabs (F2Rv (dot l) - exact l) <= bound l.
Proof.
  pose proof u_pos as U. pose proof eta_pos as H0.
  induction l as [|[w x] l IH] using rev_ind; intros N B.
  - destruct zero_float as (A & C & D). split; [exact A|]. split; [exact C|]. unfold bound. cbn. rewrite D. replace (0 - 0) with 0 by ring. rewrite Rabs_R0. lra.
  - apply Forall_app in N. destruct N as [N NP]. inversion NP as [|? ? [[Vw Fw] [Vx Fx]] _]; subst. cbn [fst snd] in *.
    unfold in_range in B. rewrite app_length, Nat.add_1_r, S_INR, mass_snoc in B. cbn [fst snd] in B.
    set (k := List.length l) in *. set (t := Rabs (F2Rv w * F2Rv x)) in *. pose proof (mass_pos l) as T0. assert (t0 : 0 <= t) by apply Rabs_pos.
    pose proof (pow_ge_1 k) as P1. pose proof (pos_INR k) as K0. cbn [pow] in B. set (P := (1 + u) ^ k) in *. fold k in IH.
    assert (KE : 0 <= INR k * eta) by (apply Rmult_le_pos; lra).
    assert (B1 : (1 + u) * P * (mass l + INR k * eta) <= HUGE).
    { eapply Rle_trans; [|exact B]. apply Rle_trans with ((1 + u) * P * (mass l + t + (INR k + 1) * eta)).
      - apply Rmult_le_compat_l; [apply Rmult_le_pos; lra|]. lra.
      - apply Rmult_le_compat_r; [lra|]. rewrite <- (Rmult_1_l ((1 + u) * P)) at 1. apply Rmult_le_compat_r; [apply Rmult_le_pos; lra|lra]. }
    destruct (IH N) as (Vs & Fs & Es). { unfold in_range. fold k. cbn [pow]. exact B1. }
    unfold bound in Es. fold k in Es. cbn [pow] in Es. fold P in Es.
    unfold dot. rewrite fold_left_app. cbn [fold_left fst snd]. fold (dot l). set (s := dot l) in *.
    assert (tH : t <= HUGE).
    { eapply Rle_trans; [|exact B]. apply Rle_trans with (1 * t); [lra|]. apply Rmult_le_compat; try lra.
      rewrite <- (Rmult_1_r 1) at 1. apply Rmult_le_compat; try lra. rewrite <- (Rmult_1_r 1) at 1. apply Rmult_le_compat; lra. }
    destruct (fmul_real w x Vw Vx Fw Fx tH) as [Fp Ep]. set (p := fmul w x) in *.
    assert (Vp : is_float64 p = true) by (apply valid_fmul; assumption).
    pose proof (rnd_product (F2Rv w * F2Rv x)) as RP. rewrite <- Ep in RP. fold t in RP.
    set (S := exact l) in *. set (T := mass l) in *. pose proof (exact_mass l) as ST. fold S T in ST.
    set (q := F2Rv w * F2Rv x) in *. set (sr := F2Rv s) in *. set (pr := F2Rv p) in *.
    assert (SP : Rabs (sr + pr) <= (1 + u) * P * (T + t) + (INR k + 1) * eta * P).
    { assert (A : Rabs (sr + pr) <= Rabs (sr - S) + Rabs (pr - q) + (Rabs S + t)).
      { replace (sr + pr) with ((sr - S) + (pr - q) + (S + q)) by ring. eapply Rle_trans; [apply Rabs_triang|]. apply Rplus_le_compat; apply Rabs_triang. }
      assert (A1 : u * t <= ((1 + u) * P - 1) * t) by (apply Rmult_le_compat_r; [lra|]; nra).
      assert (A2 : INR k * eta * P + eta <= (INR k + 1) * eta * P) by nra. nra. }
    destruct (fadd_real s p Vs Vp Fs Fp) as [Fa Ea].
    { fold sr pr. eapply Rle_trans; [exact SP|]. eapply Rle_trans; [|exact B].
      assert (C1 : (INR k + 1) * eta * P <= (1 + u) * ((1 + u) * P) * ((INR k + 1) * eta)).
      { assert (K1 : 0 <= (INR k + 1) * eta) by (apply Rmult_le_pos; lra). rewrite (Rmult_comm _ P). apply Rmult_le_compat_r; [exact K1|].
        apply Rle_trans with ((1 + u) * P); nra. }
      assert (C2 : (1 + u) * P * (T + t) <= (1 + u) * ((1 + u) * P) * (T + t)).
      { apply Rmult_le_compat_r; [lra|]. apply Rmult_le_compat_l; [lra|]. nra. }
      rewrite (Rmult_plus_distr_l _ (T + t)). lra. }
    split; [apply valid_fadd; assumption|]. split; [exact Fa|]. rewrite Ea. fold sr pr.
    pose proof (rnd_plus sr pr (real_double s Vs) (real_double p Vp)) as RA.
    rewrite exact_snoc. cbn [fst snd]. fold S q. unfold bound. rewrite app_length, Nat.add_1_r, S_INR, mass_snoc. cbn [fst snd]. fold k q t T. cbn [pow]. fold P.
    assert (A : Rabs (rnd (sr + pr) - (S + q)) <= u * Rabs (sr + pr) + (Rabs (sr - S) + Rabs (pr - q))).
    { replace (rnd (sr + pr) - (S + q)) with ((rnd (sr + pr) - (sr + pr)) + ((sr - S) + (pr - q))) by ring. eapply Rle_trans; [apply Rabs_triang|]. apply Rplus_le_compat; [exact RA|apply Rabs_triang]. }
    eapply Rle_trans; [exact A|].
    assert (A1 : u * t <= ((1 + u) * P - 1) * t) by (apply Rmult_le_compat_r; [lra|]; nra).
    assert (A2 : INR k * eta * P + eta <= (INR k + 1) * eta * P) by nra.
    assert (A3 : u * Rabs (sr + pr) <= u * ((1 + u) * P * (T + t) + (INR k + 1) * eta * P)) by (apply Rmult_le_compat_l; lra).
    assert (A4 : Rabs (sr - S) + Rabs (pr - q) <= ((1 + u) * P - 1) * (T + t) + (INR k + 1) * eta * P) by lra.
    replace ((1 + u) * ((1 + u) * P)) with ((1 + u) * P + u * ((1 + u) * P)) by ring. lra.
Qed.

(** A simple bound on the power: (1+u)^n - 1 <= 2 n u as long as 2 n u <= 1. *)
Lemma power_bound n : INR n * u <= / 2 -> (1 + u) ^ n - 1 <= 2 * INR n * u.
Proof.
  pose proof u_pos as U. induction n as [|n IH]; intros H; [cbn; lra|]. rewrite S_INR in *. cbn [pow].
  pose proof (pos_INR n). assert (H' : INR n * u <= / 2) by nra. specialize (IH H'). nra.
Qed.
