(** The loops of normalise_lon (gridspec.py:126-132) on the reals. *)
From Coq Require Import Reals Psatz.
From Verif Require Import PyBase Float64 GridSpec FloatReal.
From Flocq Require Import Core.
Local Open Scope R_scope.

(** The longitude in [0, 360) that differs from x by a multiple of 360. *)
Definition mod360 (x : R) : R := x - 360 * IZR (Zfloor (x / 360)).
(** 360 is written 0. *)
Definition wrap (x : R) : R := if Req_EM_T x 360 then 0 else x.

Lemma mod360_range x : 0 <= mod360 x < 360.
Proof.
  unfold mod360. pose proof (Zfloor_lb (x / 360)). pose proof (Zfloor_ub (x / 360)).
  assert (x = 360 * (x / 360)) by field. lra.
Qed.
Lemma mod360_unique x y k : 0 <= y < 360 -> x = y + 360 * IZR k -> mod360 x = y.
Proof.
  intros H E. unfold mod360. replace (Zfloor (x / 360)) with k; [lra|]. symmetry. apply Zfloor_imp.
  rewrite plus_IZR. assert (x = 360 * (x / 360)) by field. lra.
Qed.
Lemma mod360_small x : 0 <= x < 360 -> mod360 x = x.
Proof. intros H. apply mod360_unique with 0%Z; lra. Qed.
Lemma mod360_shift x k : mod360 (x + 360 * IZR k) = mod360 x.
Proof.
  unfold mod360 at 2. apply mod360_unique with (k + Zfloor (x / 360))%Z; [exact (mod360_range x)|].
  rewrite plus_IZR. unfold mod360. lra.
Qed.

Lemma FULL_real : good (NF FULL_GLOBE) /\ F2Rv FULL_GLOBE = 360.
Proof. destruct (of_Z_exact 360) as [A B]; [lia|]. split; [split; [apply valid_of_Z|exact A]|exact B]. Qed.

Lemma double_360 : is_double 360. Proof. apply int_double. lia. Qed.
Lemma double_0 : is_double 0. Proof. apply int_double. lia. Qed.

(** Doubles below 2^53 are multiples of 2^e with e <= 0. *)
Lemma double_repr x : is_double x -> Rabs x < IZR (2 ^ 53) ->
  exists m e, x = IZR m * bpow radix2 e /\ (Z.abs m < 2 ^ 53)%Z /\ (-1074 <= e <= 0)%Z.
Proof.
  intros H B. apply FLT_format_generic in H; [|exact (eq_refl _ : (0 < 53)%Z)].
  destruct H as [[m e] E Hm He]. cbn in Hm, He. unfold F2R in E. cbn in E.
  destruct (Z_le_dec e 0) as [L|L].
  - exists m, e. auto.
  - exists (m * 2 ^ e)%Z, 0%Z. assert (E2 : x = IZR (m * 2 ^ e)).
    { rewrite mult_IZR, E. change (2 ^ e)%Z with (radix2 ^ e)%Z. rewrite IZR_Zpower by lia. reflexivity. }
    split; [cbn; lra|]. split; [|lia]. apply lt_IZR. rewrite abs_IZR, <- E2. exact B.
Qed.

(** Taking 360 off is exact. *)
Lemma sub360_exact x : is_double x -> 360 <= x < IZR (2 ^ 53) -> is_double (x - 360).
Proof.
  intros H B. destruct (double_repr x H) as (m & e & E & Hm & He).
  { rewrite Rabs_pos_eq; lra. }
  set (q := (360 * 2 ^ (- e))%Z).
  assert (Eq : IZR q * bpow radix2 e = 360).
  { unfold q. rewrite mult_IZR. change (2 ^ (- e))%Z with (radix2 ^ (- e))%Z. rewrite IZR_Zpower by lia.
    rewrite Rmult_assoc, <- bpow_plus, Z.add_opp_diag_l. cbn. ring. }
  assert (P : 0 < bpow radix2 e) by apply bpow_gt_0.
  assert (Hq : (q <= m)%Z). { apply le_IZR. apply Rmult_le_reg_r with (bpow radix2 e); [exact P|]. lra. }
  assert (Hq0 : (0 < q)%Z). { unfold q. apply Z.mul_pos_pos; [lia|apply Z.pow_pos_nonneg; lia]. }
  apply generic_format_FLT. exists (Float radix2 (m - q) e); cbn [Fnum Fexp].
  - unfold F2R. cbn [Fnum Fexp]. rewrite minus_IZR. lra.
  - change (radix2 ^ 53)%Z with (2 ^ 53)%Z. clearbody q. lia.
  - change (-1074 <= e)%Z. lia.
Qed.
Lemma add360_exact x : is_double x -> - IZR (2 ^ 53) < x <= -360 -> is_double (x + 360).
Proof.
  intros H B. replace (x + 360) with (- ((- x) - 360)) by ring. apply generic_format_opp, sub360_exact; [|lra].
  apply generic_format_opp, H.
Qed.

Lemma HUGE_big x : Rabs x <= IZR (2 ^ 54) -> Rabs x <= HUGE.
Proof.
  intros H. eapply Rle_trans; [exact H|]. unfold HUGE. change (IZR (2 ^ 54)) with (IZR (radix2 ^ 54)).
  rewrite IZR_Zpower by lia. apply bpow_le. lia.
Qed.
Ltac big := apply HUGE_big; change (IZR (2 ^ 54)) with 18014398509481984; apply Rabs_le;
            change (IZR (2 ^ 53)) with 9007199254740992 in *; lra.

Lemma good_NI0 : good (NI 0). Proof. cbn. lia. Qed.

(** Adding 360 while negative. *)
Lemma lon_up_real n : forall a, good a -> - IZR (2 ^ 53) < N2R a -> - 360 * IZR (Z.of_nat n) <= N2R a ->
  exists b, lon_up (S n) a (NI 0) = Ok b /\ good b /\
    (0 <= N2R a -> b = a) /\
    (N2R a < 0 -> N2R b = rnd (mod360 (N2R a))).
Proof.
  induction n as [|n IH]; intros a Ga Hb Hn.
  - cbn [Z.of_nat] in Hn. cbn [lon_up]. destruct (nltb a (NI 0)) eqn:E.
    + apply (nltb_real a (NI 0)) in E; [|exact Ga|exact good_NI0]. cbn in E. lra.
    + exists a. split; [reflexivity|]. split; [exact Ga|]. split; [auto|]. intros H. exfalso. lra.
  - cbn [lon_up]. destruct (nltb a (NI 0)) eqn:E.
    + apply (nltb_real a (NI 0)) in E; [|exact Ga|exact good_NI0]. cbn in E.
      destruct FULL_real as [GF RF].
      destruct (nadd_real a (NF FULL_GLOBE)) as (c & E1 & Gc & Ic & Rc); [exact Ga|exact GF|cbn [N2R]; rewrite RF; big|destruct a; reflexivity|].
      cbn [N2R] in Rc. rewrite RF in Rc. rewrite E1. cbn [bind].
      assert (Ha : N2R a < -360 \/ -360 <= N2R a) by lra. destruct Ha as [Ha|Ha].
      * rewrite rnd_double in Rc by (apply add360_exact; [apply good_double, Ga|lra]).
        destruct (IH c Gc) as (b & B1 & B2 & B3 & B4); [lra| |].
        { rewrite Nat2Z.inj_succ, succ_IZR in Hn. lra. }
        exists b. split; [exact B1|]. split; [exact B2|]. split; [intros; lra|]. intros _.
        rewrite B4 by lra. rewrite Rc. f_equal. rewrite <- (mod360_shift (N2R a) 1). f_equal. lra.
      * destruct (IH c Gc) as (b & B1 & B2 & B3 & B4).
        { rewrite Rc. assert (0 <= rnd (N2R a + 360)); [rewrite <- rnd_0; apply rnd_le; lra|]. big || (change (IZR (2^53)) with 9007199254740992; lra). }
        { rewrite Rc. assert (0 <= rnd (N2R a + 360)); [rewrite <- rnd_0; apply rnd_le; lra|].
          assert (0 <= IZR (Z.of_nat n)) by (apply IZR_le; lia). lra. }
        assert (P : 0 <= N2R c) by (rewrite Rc, <- rnd_0; apply rnd_le; lra).
        exists b. split; [exact B1|]. split; [exact B2|]. split; [intros; lra|]. intros _.
        rewrite (B3 P), Rc. f_equal. symmetry. apply mod360_unique with (-1)%Z; lra.
    + assert (~ N2R a < 0) as X.
      { intros X. rewrite (proj2 (nltb_real a (NI 0) Ga good_NI0)) in E; [discriminate|exact X]. }
      exists a. split; [reflexivity|]. split; [exact Ga|]. split; [auto|]. intros; lra.
Qed.

Lemma top_eq : nadd (NI 0) (NF FULL_GLOBE) = Ok (NF FULL_GLOBE).
Proof. reflexivity. Qed.

(** Taking 360 off while at least 360. *)
Lemma lon_down_real n : forall a, good a -> 0 <= N2R a < IZR (2 ^ 53) -> N2R a < 360 * IZR (Z.of_nat (S n)) ->
  exists b, lon_down (S n) a (NI 0) = Ok b /\ good b /\ N2R b = mod360 (N2R a).
Proof.
  destruct FULL_real as [GF RF].
  induction n as [|n IH]; intros a Ga Hb Hn; cbn [lon_down]; rewrite top_eq; cbn [bind];
    (destruct (ngeb a (NF FULL_GLOBE)) eqn:E;
     [apply (ngeb_real a (NF FULL_GLOBE) Ga GF) in E; cbn [N2R] in E; rewrite RF in E|]).
  - cbn in Hn. exfalso. lra.
  - exists a. split; [reflexivity|]. split; [exact Ga|]. symmetry. apply mod360_small. cbn in Hn. lra.
  - destruct (nsub_real a (NF FULL_GLOBE)) as (c & E1 & _ & C); [exact Ga|exact GF|cbn [N2R]; rewrite RF; big|].
    destruct C as (Gc & Ic & Rc); [destruct a; reflexivity|]. cbn [N2R] in Rc. rewrite RF in Rc.
    rewrite rnd_double in Rc by (apply sub360_exact; [apply good_double, Ga|lra]).
    rewrite E1. cbn [bind]. destruct (IH c Gc) as (b & B1 & B2 & B3); [lra| |].
    { rewrite Nat2Z.inj_succ, succ_IZR in Hn. lra. }
    exists b. split; [exact B1|]. split; [exact B2|]. rewrite B3, Rc.
    rewrite <- (mod360_shift (N2R a) (-1)). f_equal. lra.
  - assert (~ N2R a >= 360) as X.
    { intros X. rewrite (proj2 (ngeb_real a (NF FULL_GLOBE) Ga GF)) in E; [discriminate|cbn [N2R]; rewrite RF; exact X]. }
    exists a. split; [reflexivity|]. split; [exact Ga|]. symmetry. apply mod360_small. lra.
Qed.

(** More fuel changes nothing. *)
Lemma lon_up_fuel n : forall m a lo b, (n <= m)%nat -> lon_up n a lo = Ok b -> lon_up m a lo = Ok b.
Proof.
  induction n as [|n IH]; intros m a lo b L H; [discriminate|]. destruct m as [|m]; [lia|]. cbn in *.
  destruct (nltb a lo); [|exact H]. destruct (nadd _ _); cbn in *; try discriminate. apply IH; [lia|exact H].
Qed.
Lemma lon_down_fuel n : forall m a lo b, (n <= m)%nat -> lon_down n a lo = Ok b -> lon_down m a lo = Ok b.
Proof.
  induction n as [|n IH]; intros m a lo b L H; [discriminate|]. destruct m as [|m]; [lia|]. cbn in *.
  destruct (nadd _ _); cbn in *; try discriminate. destruct (ngeb _ _); [|exact H].
  destruct (nsub _ _); cbn in *; try discriminate. apply IH; [lia|exact H].
Qed.

Lemma normalise_real fuel a : good a -> Rabs (N2R a) < IZR (2 ^ 53) -> Rabs (N2R a) + 720 <= 360 * IZR (Z.of_nat fuel) ->
  exists b, normalise_num fuel a (NI 0) = Ok b /\ good b /\ N2R b = wrap (rnd (mod360 (N2R a))).
Proof.
  intros Ga Hb Hf. apply Rabs_def2 in Hb.
  destruct fuel as [|n]; [cbn in Hf; pose proof (Rabs_pos (N2R a)); lra|].
  assert (A1 : N2R a <= Rabs (N2R a)) by apply Rle_abs.
  assert (A2 : - N2R a <= Rabs (N2R a)) by (rewrite <- Rabs_Ropp; apply Rle_abs).
  rewrite Nat2Z.inj_succ, succ_IZR in Hf.
  destruct (lon_up_real n a Ga) as (c & C1 & C2 & C3 & C4); [lra|lra|].
  unfold normalise_num. rewrite C1. cbn [bind].
  destruct (Rle_lt_dec 0 (N2R a)) as [L|L].
  - rewrite (C3 L) in *. clear C3 C4. pose proof L as L2.
    destruct (lon_down_real n a Ga) as (b & B1 & B2 & B3); [lra| |].
    { rewrite Nat2Z.inj_succ, succ_IZR. lra. }
    exists b. split; [exact B1|]. split; [exact B2|]. pose proof (mod360_range (N2R a)) as MR.
    rewrite <- B3 in MR. rewrite rnd_double by (rewrite <- B3; apply good_double, B2).
    unfold wrap. destruct (Req_EM_T _ _) as [E|E]; [rewrite <- B3 in E; lra|exact B3].
  - specialize (C4 L). pose proof (mod360_range (N2R a)) as MR.
    assert (R0 : 0 <= N2R c <= 360).
    { rewrite C4. split; [rewrite <- rnd_0; apply rnd_le; lra|].
      rewrite <- (rnd_double 360 double_360). apply rnd_le. lra. }
    assert (P : 1 <= IZR (Z.of_nat n)).
    { apply (IZR_le 1). destruct n; [cbn in Hf; lra|lia]. }
    destruct (lon_down_real n c C2) as (b & B1 & B2 & B3).
    { change (IZR (2 ^ 53)) with 9007199254740992. lra. }
    { rewrite Nat2Z.inj_succ, succ_IZR. lra. }
    exists b. split; [exact B1|]. split; [exact B2|]. rewrite B3. unfold wrap. rewrite <- C4.
    destruct (Req_EM_T (N2R c) 360) as [E|E].
    + rewrite E. apply mod360_unique with 1%Z; lra.
    + apply mod360_small. lra.
Qed.
