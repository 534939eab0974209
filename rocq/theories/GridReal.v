(** Real-number reasoning about the comparisons of gridspec.py. *)
From Coq Require Import Reals Psatz.
From Verif Require Import PyBase ListLemmas PyStr Float64 GridSpec GridVocab GridProofs FloatReal GridLon GridMatchSpec.
From Flocq Require Import Core.
Set Default Proof Using "Type".
Local Open Scope R_scope.

Definition U : R := / 8796093022208.   (* 2^-43 *)

Lemma rnd_err x : Rabs x <= 1024 -> Rabs (rnd x - x) <= U.
Proof.
  intros H. unfold rnd. eapply Rle_trans; [apply error_le_half_ulp; typeclasses eauto|].
  assert (L : ulp radix2 fexp64 x <= ulp radix2 fexp64 (bpow radix2 10)).
  { apply ulp_le; [typeclasses eauto..|]. rewrite (Rabs_pos_eq (bpow radix2 10)) by apply bpow_ge_0. exact H. }
  rewrite ulp_bpow in L. change (fexp64 (10 + 1)) with (-42)%Z in L. change (bpow radix2 (-42)) with (/ 4398046511104) in L.
  unfold U. lra.
Qed.

Lemma nsub_rnd a b : good a -> good b -> Rabs (N2R a - N2R b) <= IZR (2 ^ 53) ->
  exists c, nsub a b = Ok c /\ good c /\ N2R c = rnd (N2R a - N2R b).
Proof.
  intros Ha Hb H. destruct (nsub_real a b Ha Hb) as (c & E & S1 & S2).
  { apply HUGE_big. eapply Rle_trans; [exact H|]. apply IZR_le. lia. }
  exists c. split; [exact E|]. destruct (is_int a && is_int b) eqn:EI; [|destruct (S2 eq_refl) as (A & _ & B); auto].
  destruct a as [x|]; [|discriminate]. destruct b as [y|]; [|discriminate]. subst c. cbn in *. rewrite <- minus_IZR in *.
  rewrite <- abs_IZR in H. apply le_IZR in H. split; [exact H|]. symmetry. apply rnd_double, int_double, H.
Qed.

Definition nsmall (a : num) (x : R) : Prop := good a /\ N2R a = x.

Lemma EPS_real : good (NF FULL_GLOBE_EPS) /\ 0.0000000099 <= F2Rv FULL_GLOBE_EPS <= 0.0000000101.
Proof.
  destruct (of_Z_exact 1) as [A1 B1]; [lia|]. destruct (of_Z_exact 100000000) as [A2 B2]; [lia|].
  assert (E : finite FULL_GLOBE_EPS = true /\ F2Rv FULL_GLOBE_EPS = rnd (1 / 100000000)).
  { unfold FULL_GLOBE_EPS, lit. destruct (fdiv_real (of_Z 1) (of_Z 100000000)) as [A B];
      try apply valid_of_Z; try assumption; rewrite ?B1, ?B2.
    - lra.
    - apply HUGE_big. rewrite Rabs_pos_eq by lra. apply Rle_trans with 1; [lra|apply IZR_le; lia].
    - rewrite B1, B2 in B. auto. }
  destruct E as [F E]. split; [split; [apply valid_lit|exact F]|]. rewrite E.
  pose proof (rnd_err (1 / 100000000)) as R. rewrite Rabs_pos_eq in R by lra.
  specialize (R ltac:(lra)). apply Rabs_le_inv in R. unfold U in R. lra.
Qed.
Lemma DEG_real : good (NF DEGREE_EPS) /\ 0.0000000099 <= F2Rv DEGREE_EPS <= 0.0000000101.
Proof. exact EPS_real. Qed.
Lemma RGGEPS_real : good (NF RGG_EPS) /\ 0.11999999 <= F2Rv RGG_EPS <= 0.12000001.
Proof.
  destruct (of_Z_exact 12) as [A1 B1]; [lia|]. destruct (of_Z_exact 100) as [A2 B2]; [lia|].
  assert (E : finite RGG_EPS = true /\ F2Rv RGG_EPS = rnd (12 / 100)).
  { unfold RGG_EPS, lit. destruct (fdiv_real (of_Z 12) (of_Z 100)) as [A B];
      try apply valid_of_Z; try assumption; rewrite ?B1, ?B2.
    - lra.
    - apply HUGE_big. rewrite Rabs_pos_eq by lra. apply Rle_trans with 1; [lra|apply IZR_le; lia].
    - rewrite B1, B2 in B. auto. }
  destruct E as [F E]. split; [split; [apply valid_lit|exact F]|]. rewrite E.
  pose proof (rnd_err (12 / 100)) as R. rewrite Rabs_pos_eq in R by lra.
  specialize (R ltac:(lra)). apply Rabs_le_inv in R. unfold U in R. lra.
Qed.

(** |x - y| < eps as computed, in both directions. *)
Lemma lt_rnd x eps : is_double eps -> Rabs (rnd x) < eps -> Rabs x < eps.
Proof.
  intros D H. rewrite <- rnd_abs in H. destruct (Rlt_le_dec (Rabs x) eps) as [L|L]; [exact L|].
  apply rnd_le in L. rewrite (rnd_double eps D) in L. lra.
Qed.
Lemma rnd_lt x m eps : Rabs x <= m -> m <= 1 -> m + U < eps -> Rabs (rnd x) < eps.
Proof.
  intros A B C. pose proof (rnd_err x ltac:(lra)) as R. apply Rabs_le_inv in R. apply Rabs_le_inv in A.
  apply Rabs_def1; lra.
Qed.

(** [same_coord] on numbers. *)
Lemma same_coord_real v u x y eps : number v x -> number u y -> good (NF eps) ->
  exists b, same_coord v u eps = Ok b /\ (b = true <-> Rabs (rnd (x - y)) < F2Rv eps).
Proof.
  intros (a & Ea & Ga & Ra & Ba) (c & Ec & Gc & Rc & Bc) Ge. nums. unfold same_coord. rewrite Ea, Ec.
  destruct (nsub_rnd a c Ga Gc) as (d & Ed & Gd & Rd).
  { rewrite Ra, Rc. apply Rabs_le. apply Rabs_le_inv in Ba, Bc.
    change (IZR (2 ^ 52)) with 4503599627370496 in *. change (IZR (2 ^ 53)) with 9007199254740992. lra. }
  rewrite Ed. cbn [bind]. eexists. split; [reflexivity|].
  rewrite (nltb_real _ _ (nabs_good d Gd) Ge), nabs_real, Rd, Ra, Rc. reflexivity.
Qed.

(** ** normalise_lon *)
Definition enough (fuel : nat) (x : R) : Prop := Rabs x + 720 <= 360 * IZR (Z.of_nat fuel).
Lemma normalise_number fuel v x : number v x -> enough fuel x ->
  exists b, normalise_lon fuel v 0 = Ok b /\ good b /\ N2R b = wrap (rnd (mod360 x)).
Proof.
  intros (a & Ea & Ga & Ra & Ba) Hf. nums. unfold normalise_lon. rewrite Ea. rewrite <- Ra in *.
  apply normalise_real; [exact Ga| |exact Hf].
  eapply Rle_lt_trans; [exact Ba|]. apply IZR_lt. lia.
Qed.
Lemma norm_range x : 0 <= wrap (rnd (mod360 x)) < 360.
Proof.
  pose proof (mod360_range x) as [L H].
  assert (A : 0 <= rnd (mod360 x)) by (rewrite <- rnd_0; apply rnd_le, L).
  assert (B : rnd (mod360 x) <= 360) by (rewrite <- (rnd_double 360 double_360); apply rnd_le; lra).
  unfold wrap. destruct (Req_EM_T _ _); lra.
Qed.
Lemma norm_near x : exists i, Rabs (wrap (rnd (mod360 x)) - x - 360 * IZR i) <= U.
Proof.
  pose proof (mod360_range x) as [L H]. pose proof (rnd_err (mod360 x)) as R.
  rewrite Rabs_pos_eq in R by lra. specialize (R ltac:(lra)).
  unfold wrap. destruct (Req_EM_T (rnd (mod360 x)) 360) as [E|N].
  - exists (- Zfloor (x / 360) - 1)%Z. rewrite E in R. unfold mod360 in R.
    replace (0 - x - 360 * IZR (- Zfloor (x / 360) - 1)) with (360 - (x - 360 * IZR (Zfloor (x / 360)))); [exact R|].
    rewrite minus_IZR, opp_IZR. ring.
  - exists (- Zfloor (x / 360))%Z. unfold mod360 in R at 2.
    replace (rnd (mod360 x) - x - 360 * IZR (- Zfloor (x / 360))) with (rnd (mod360 x) - (x - 360 * IZR (Zfloor (x / 360)))); [exact R|].
    rewrite opp_IZR. ring.
Qed.
Lemma norm_congruent x y : congruent x y -> mod360 x = mod360 y.
Proof. intros (k & E). replace x with (y + 360 * IZR k) by lra. apply mod360_shift. Qed.

(** ** The tests of is_global_ew *)
Lemma abs_U x m : Rabs x <= m -> - m <= x <= m. Proof. apply Rabs_le_inv. Qed.

Lemma rnd_range x lo hi : is_double lo -> is_double hi -> lo <= x <= hi -> lo <= rnd x <= hi.
Proof. intros A B [L H]. rewrite <- (rnd_double lo A), <- (rnd_double hi B). split; apply rnd_le; assumption. Qed.

Lemma double_720 : is_double 720. Proof. apply int_double. lia. Qed.

Lemma spans_dist g w e :
  good w -> good e -> 0 <= N2R w < 360 -> 0 <= N2R e < 360 ->
  exists d, good d /\ 0 <= N2R d <= 360 + 2 * U /\
    (exists j, Rabs (N2R d - (N2R e - N2R w) - 360 * IZR j) <= 2 * U) /\
    spans g w e = (if tiny d then Ok true
                   else d1 <- nsub d (NF FULL_GLOBE) ;; if tiny d1 then Ok true
                   else d2 <- nsub (NF FULL_GLOBE) d ;; x <- dx g ;; d3 <- nsub d2 x ;; Ok (tiny d3)).
Proof.
  intros Gw Ge Hw He. destruct FULL_real as [GF RF].
  assert (P : 0 < U) by (unfold U; lra). unfold spans.
  destruct (nltb e w) eqn:E.
  - apply (nltb_real e w Ge Gw) in E.
    destruct (nadd_real e (NF FULL_GLOBE) Ge GF) as (e2 & Ea & G2 & _ & R2).
    { cbn [N2R]. rewrite RF. big. }
    { destruct e; reflexivity. }
    cbn [N2R] in R2. rewrite RF in R2. rewrite Ea. cbn [bind].
    assert (B2 : 360 <= N2R e2 <= 720).
    { rewrite R2. apply rnd_range; [exact double_360|exact double_720|lra]. }
    pose proof (rnd_err (N2R e + 360) ltac:(apply Rabs_le; lra)) as Q. apply abs_U in Q. rewrite <- R2 in Q.
    destruct (nsub_rnd e2 w G2 Gw) as (d & Ed & Gd & Rd).
    { apply Rabs_le. change (IZR (2 ^ 53)) with 9007199254740992. lra. }
    rewrite Ed. cbn [bind]. exists d. split; [exact Gd|].
    pose proof (rnd_err (N2R e2 - N2R w) ltac:(apply Rabs_le; lra)) as Q1. apply abs_U in Q1.
    assert (D0 : 0 <= N2R d <= 360 + 2 * U).
    { rewrite Rd. split; [rewrite <- rnd_0; apply rnd_le; lra|lra]. }
    split; [exact D0|]. split; [|reflexivity].
    exists 1%Z. rewrite Rd.
    apply Rabs_le. lra.
  - assert (L : N2R w <= N2R e).
    { destruct (Rlt_le_dec (N2R e) (N2R w)) as [L|L]; [|exact L]. apply (nltb_real e w Ge Gw) in L. congruence. }
    cbn [bind]. destruct (nsub_rnd e w Ge Gw) as (d & Ed & Gd & Rd).
    { apply Rabs_le. change (IZR (2 ^ 53)) with 9007199254740992. lra. }
    rewrite Ed. cbn [bind]. exists d. split; [exact Gd|]. split; [|split; [|reflexivity]].
    + assert (0 <= N2R d <= 360) by (rewrite Rd; apply rnd_range; [exact double_0|exact double_360|lra]). lra.
    + exists 0%Z. rewrite Rd. pose proof (rnd_err (N2R e - N2R w) ltac:(apply Rabs_le; lra)) as Q1. apply abs_U in Q1.
      apply Rabs_le. lra.
Qed.

Lemma tiny_real d : good d -> tiny d = true <-> Rabs (N2R d) < F2Rv FULL_GLOBE_EPS.
Proof. intros G. unfold tiny. rewrite (nltb_real _ _ (nabs_good d G) (proj1 EPS_real)), nabs_real. reflexivity. Qed.

(** The increment as computed: within a unit of the true one. *)
Definition dx_ok (g : gspec) (x : R) : Prop := exists a, dx g = Ok a /\ good a /\ 0 <= N2R a <= 360 /\ Rabs (N2R a - x) <= U.

Lemma near_int a k : Rabs (a - 360 * IZR k) <= 1 -> 0 <= a <= 360 + 2 * U -> k = 0%Z \/ k = 1%Z.
Proof.
  intros H B. assert (PU : U <= 0.000000000001) by (unfold U; lra). apply abs_U in H. assert (A : -2 < IZR k < 2) by lra. destruct A as [A1 A2].
  apply (lt_IZR (-2)) in A1. apply (lt_IZR _ 2) in A2. destruct (Z.eq_dec k 0); [auto|]. destruct (Z.eq_dec k 1); [auto|].
  assert (k = -1)%Z by lia. subst. exfalso. lra.
Qed.

Section Spans.
  Variables (g : gspec) (w e : num) (W E x : R).
  Hypothesis (Gw : good w) (Ge : good e) (Bw : 0 <= N2R w < 360) (Be : 0 <= N2R e < 360).
  Hypothesis (Nw : exists i, Rabs (N2R w - W - 360 * IZR i) <= U) (Ne : exists i, Rabs (N2R e - E - 360 * IZR i) <= U).
  Hypothesis (Hx : dx_ok g x).

  Lemma spans_real : exists b, spans g w e = Ok b /\
    (full_extent 0.000000009 W E x -> b = true) /\ (b = true -> full_extent 0.000000011 W E x).
  Proof using All.
    destruct (spans_dist g w e Gw Ge Bw Be) as (d & Gd & Bd & (j & Hj) & ->).
    destruct Nw as (iw & Hw), Ne as (ie & He). destruct Hx as (a & Ea & Ga & Ba & Na). destruct FULL_real as [GF RF].
    destruct EPS_real as [GE [EL EH]].
    assert (PU : U <= 0.000000000001) by (unfold U; lra).
    assert (D : exists k, Rabs (N2R d - (E - W) - 360 * IZR k) <= 4 * U).
    { exists (j + ie - iw)%Z. rewrite minus_IZR, plus_IZR. apply abs_U in Hj, Hw, He. apply Rabs_le. lra. }
    destruct D as (k & HD). clear Hj Hw He. apply abs_U in HD, Na.
    destruct (nsub_rnd d (NF FULL_GLOBE) Gd GF) as (d1 & E1 & G1 & R1).
    { cbn [N2R]. rewrite RF. apply Rabs_le. change (IZR (2 ^ 53)) with 9007199254740992. lra. }
    destruct (nsub_rnd (NF FULL_GLOBE) d GF Gd) as (d2 & E2 & G2 & R2).
    { cbn [N2R]. rewrite RF. apply Rabs_le. change (IZR (2 ^ 53)) with 9007199254740992. lra. }
    cbn [N2R] in R1, R2. rewrite RF in R1, R2.
    assert (Q1 : Rabs (N2R d1 - (N2R d - 360)) <= U) by (rewrite R1; apply rnd_err; apply Rabs_le; lra).
    assert (Q2 : Rabs (N2R d2 - (360 - N2R d)) <= U) by (rewrite R2; apply rnd_err; apply Rabs_le; lra).
    apply abs_U in Q1, Q2.
    destruct (nsub_rnd d2 a G2 Ga) as (d3 & E3 & G3 & R3).
    { apply Rabs_le. change (IZR (2 ^ 53)) with 9007199254740992. lra. }
    assert (Q3 : Rabs (N2R d3 - (N2R d2 - N2R a)) <= U) by (rewrite R3; apply rnd_err; apply Rabs_le; lra).
    apply abs_U in Q3.
    assert (RES : exists b, (if tiny d then Ok true
                   else d1 <- nsub d (NF FULL_GLOBE) ;; if tiny d1 then Ok true
                   else d2 <- nsub (NF FULL_GLOBE) d ;; x <- dx g ;; d3 <- nsub d2 x ;; Ok (tiny d3)) = Ok b /\
       (b = true <-> tiny d = true \/ tiny d1 = true \/ tiny d3 = true)).
    { rewrite E1, E2, Ea. cbn [bind]. rewrite E3. cbn [bind].
      destruct (tiny d); [exists true; intuition|]. destruct (tiny d1); [exists true; intuition|].
      exists (tiny d3). split; [reflexivity|]. intuition discriminate. }
    destruct RES as (b & -> & Hb). exists b. split; [reflexivity|].
    rewrite (tiny_real d Gd), (tiny_real d1 G1), (tiny_real d3 G3) in Hb. split.
    - intros (m & [H|H]); apply Hb; apply abs_U in H.
      + destruct (near_int (N2R d) (m + k)) as [Z0|Z1]; [|exact Bd| |].
        * rewrite plus_IZR. apply Rabs_le. lra.
        * left. assert (IZR m + IZR k = 0) by (rewrite <- plus_IZR, Z0; reflexivity). apply Rabs_def1; lra.
        * right; left. assert (IZR m + IZR k = 1) by (rewrite <- plus_IZR, Z1; reflexivity). apply Rabs_def1; lra.
      + (* d = 360 (m + k) - x *)
        assert (S1 : - 0.000000009 - 6 * U <= N2R d + N2R a - 360 * IZR (m + k) <= 0.000000009 + 6 * U).
        { rewrite plus_IZR. lra. }
        assert (A : -1 < IZR (m + k) < 3) by lra. destruct A as [A1 A2]. apply lt_IZR in A1, A2.
        assert (C : (m + k = 0 \/ m + k = 1 \/ m + k = 2)%Z) by lia. destruct C as [C|[C|C]]; rewrite C in S1.
        * left. apply Rabs_def1; lra.
        * right; right. apply Rabs_def1; lra.
        * right; left. apply Rabs_def1; lra.
    - intros Hb'. apply Hb in Hb'. destruct Hb' as [H|[H|H]]; apply Rabs_def2 in H.
      + exists (- k)%Z. left. rewrite opp_IZR. apply Rabs_le. lra.
      + exists (1 - k)%Z. left. rewrite minus_IZR. apply Rabs_le. lra.
      + exists (1 - k)%Z. right. rewrite minus_IZR. apply Rabs_le. lra.
  Qed.
End Spans.
