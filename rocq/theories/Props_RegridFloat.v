(** C36, C37 with doubles: how far rounding can take a regridded value from the exact weighted sum. *)
From Coq Require Import Reals Psatz.
From Verif Require Import PyBase Float64 FloatReal Regrid RegridSpec RegridProofs RegridFloat.
From Verif Require Props_Regrid.
From Flocq Require Import Core IEEE754.BinarySingleNaN.
Local Open Scope list_scope.
Local Open Scope R_scope.

(** The exact counterparts, over the real values of the doubles: the element (i, j) of the matrix,
    the sum over all points of the field, the same sum with absolute values, and the sum of the
    weights of a row. *)
Definition rsum (l : list R) : R := fold_right Rplus 0 l.
Definition weight_real (z : csr f64) (i j : nat) : R :=
  rsum (map (fun p => F2Rv (snd p)) (filter (fun p => Nat.eqb (fst p) j) (row z i))).
Definition weighted_real (z : csr f64) (i : nat) (values : array f64) : R :=
  rsum (map (fun jdx => weight_real z i (offset (shape values) jdx) * F2Rv (item values jdx)) (indices (shape values))).
(** The points of the field that the row names, each with its weight. *)
Definition terms (z : csr f64) (i : nat) (values : array f64) : list (f64 * f64) :=
  map (fun p => (snd p, item values (nth (fst p) (indices (shape values)) []))) (row z i).
Definition total (z : csr f64) (i : nat) : R := rsum (map (fun p => F2Rv (snd p)) (row z i)).

Section Rounding.
  Context {grid : Type}.
  Notation regrid := (@regrid f64 (of_Z 0) fadd fmul grid).

  Lemma rsum_zero {B} (f : B -> R) l : (forall b, In b l -> f b = 0) -> rsum (map f l) = 0.
  Proof. induction l as [|b l IH]; intros H; [reflexivity|]. cbn. rewrite (H b (or_introl eq_refl)). fold (rsum (map f l)). rewrite IH; [ring|]. intros c I. apply H. right. exact I. Qed.
  Lemma rsum_plus {B} (f g : B -> R) l : rsum (map (fun b => f b + g b) l) = rsum (map f l) + rsum (map g l).
  Proof. unfold rsum. induction l as [|b l IH]; cbn; [ring|]. rewrite IH. ring. Qed.
  Lemma rsum_pick n c (x : nat -> R) w : (c < n)%nat -> rsum (map (fun j => (if Nat.eqb c j then w else 0) * x j) (seq 0 n)) = w * x c.
  Proof.
    intros L. assert (G : forall m k, (k <= c < k + m)%nat -> rsum (map (fun j => (if Nat.eqb c j then w else 0) * x j) (seq k m)) = w * x c).
    { induction m as [|m IH]; intros k H; [lia|]. cbn. fold (rsum (map (fun j => (if Nat.eqb c j then w else 0) * x j) (seq (S k) m))).
      destruct (Nat.eqb_spec c k) as [->|N].
      - rewrite rsum_zero; [ring|]. intros b I. apply in_seq in I. destruct (Nat.eqb_spec k b); [lia|ring].
      - rewrite IH by lia. ring. }
    apply G. lia.
  Qed.
  Lemma group_real n (l : list (nat * f64)) (x : nat -> R) : Forall (fun p => (fst p < n)%nat) l ->
    rsum (map (fun p => F2Rv (snd p) * x (fst p)) l) =
    rsum (map (fun j => rsum (map (fun p => F2Rv (snd p)) (filter (fun p => Nat.eqb (fst p) j) l)) * x j) (seq 0 n)).
  Proof.
    induction l as [|[c w] l IH]; intros C; cbn [map filter fst snd].
    - rewrite rsum_zero; [reflexivity|]. intros. cbn. ring.
    - inversion C as [|? ? C1 C2]; subst. cbn [rsum fold_right]. fold (rsum (map (fun p => F2Rv (snd p) * x (fst p)) l)).
      rewrite (IH C2), <- (rsum_pick n c x (F2Rv w) C1), <- rsum_plus. f_equal. apply map_ext. intros j.
      destruct (Nat.eqb c j); cbn; fold (rsum (map (fun p : nat * f64 => F2Rv (snd p)) (filter (fun p => Nat.eqb (fst p) j) l))); ring.
  Qed.

  Lemma exact_terms z i (values : array f64) : proper_csr z -> prod (shape values) = n_cols z ->
    exact (terms z i values) = weighted_real z i values.
  Proof.
    intros P E. pose proof (row_cols z i P) as C. rewrite <- E in C.
    transitivity (rsum (map (fun p => F2Rv (snd p) * F2Rv (item values (nth (fst p) (indices (shape values)) []))) (row z i))).
    - unfold exact, terms, rsum. induction (row z i) as [|p l IH]; cbn; [reflexivity|]. rewrite IH; [reflexivity|]. inversion C; assumption.
    - rewrite (group_real (prod (shape values)) _ (fun k => F2Rv (item values (nth k (indices (shape values)) []))) C).
      rewrite <- offsets, map_map. unfold weighted_real, weight_real. f_equal. apply map_ext_in. intros jdx I. apply indices_valid in I. rewrite nth_indices by exact I. reflexivity.
  Qed.

  Lemma dot_terms z sh (values : array f64) g r g' idx : proper_csr z -> regrid (Ok (Some (z, sh))) values g = Ok (r, g') -> valid sh idx ->
    item r idx = dot (terms z (offset sh idx) values) /\ prod (shape values) = n_cols z.
  Proof.
    intros P H V. destruct (Props_Regrid.C38_returns _ _ _ _ _ _ _ _ H) as (-> & z0 & sh0 & E & E1 & E2). inversion E; subst z0 sh0.
    destruct (Props_Regrid.C36_computed (of_Z 0) fadd fmul z sh values g P E1 E2) as (q & Q & _ & I). rewrite H in Q. inversion Q; subst q.
    split; [|exact E1]. rewrite (I idx V). unfold dot, terms. rewrite fold_left_map. reflexivity.
  Qed.

  (** C36 in doubles.  A row of [n] weights, all numbers finite, the absolute values of the
      products adding up to [M]: nothing overflows unless [M] is near the largest double, and the
      result differs from the exact weighted sum by at most ((1+u)^(n+1) - 1) M plus the
      underflow of [n] products, where u = 2^-53 and eta = 2^-1075. *)
  Theorem C36_rounding z sh values g r g' idx : proper_csr z -> regrid (Ok (Some (z, sh))) values g = Ok (r, g') -> valid sh idx ->
    let t := terms z (offset sh idx) values in
    let n := List.length t in
    let M := rsum (map (fun p => Rabs (F2Rv (fst p) * F2Rv (snd p))) t) in
    numbers t -> (1 + u) ^ S n * (M + INR n * eta) <= HUGE ->
    finite (item r idx) = true /\
    Rabs (F2Rv (item r idx) - weighted_real z (offset sh idx) values) <= ((1 + u) ^ S n - 1) * M + INR n * eta * (1 + u) ^ n.
  Proof.
    intros P H V t n M N B. destruct (dot_terms z sh values g r g' idx P H V) as [-> E]. fold t.
    assert (EM : M = mass t). { unfold M, mass, rsum. clear. induction t as [|p l IH]; cbn; [reflexivity|]. rewrite IH. reflexivity. }
    rewrite <- exact_terms by assumption. fold t. rewrite EM in *. destruct (dot_error t N B) as (_ & F & D). split; [exact F|exact D].
  Qed.

  (** The same with a simpler bound, for rows of up to 2^51 weights. *)
  Theorem C36_rounding_simple z sh values g r g' idx : proper_csr z -> regrid (Ok (Some (z, sh))) values g = Ok (r, g') -> valid sh idx ->
    let t := terms z (offset sh idx) values in
    let n := List.length t in
    let M := rsum (map (fun p => Rabs (F2Rv (fst p) * F2Rv (snd p))) t) in
    numbers t -> (INR n + 1) * u <= / 2 -> 2 * (M + INR n * eta) <= HUGE ->
    finite (item r idx) = true /\
    Rabs (F2Rv (item r idx) - weighted_real z (offset sh idx) values) <= 2 * (INR n + 1) * u * M + 2 * INR n * eta.
  Proof.
    intros P H V t n M N K B. pose proof u_pos as U. pose proof eta_pos as H0. pose proof (pos_INR n) as N0.
    pose proof (power_bound (S n)) as PB. rewrite S_INR in PB. specialize (PB K).
    assert (M0 : 0 <= M). { unfold M, rsum. clear. induction t as [|p l IH]; cbn; [lra|]. pose proof (Rabs_pos (F2Rv (fst p) * F2Rv (snd p))). lra. }
    assert (P2 : (1 + u) ^ S n <= 2) by lra. pose proof (pow_ge_1 n) as P1.
    assert (P3 : (1 + u) ^ n <= (1 + u) ^ S n) by (cbn [pow]; nra).
    assert (NE : 0 <= INR n * eta) by (apply Rmult_le_pos; lra).
    destruct (C36_rounding z sh values g r g' idx P H V N) as [F D].
    { fold t n M. eapply Rle_trans; [|exact B]. apply Rmult_le_compat_r; lra. }
    split; [exact F|]. eapply Rle_trans; [exact D|]. fold t n M. apply Rplus_le_compat.
    - apply Rmult_le_compat_r; [exact M0|lra].
    - rewrite (Rmult_assoc 2), (Rmult_comm 2). apply Rmult_le_compat_l; lra.
  Qed.

  (** C37 in doubles.  Non-negative weights, values between lo and hi: the result stays between
      lo and hi up to [d], the distance of the sum of the weights from one, and rounding. *)
  Theorem C37_rounding_bounds z sh values g r g' idx lo hi d : proper_csr z -> regrid (Ok (Some (z, sh))) values g = Ok (r, g') -> valid sh idx ->
    let t := terms z (offset sh idx) values in
    let n := List.length t in
    let X := Rmax (Rabs lo) (Rabs hi) in
    let E := d * X + ((1 + u) ^ S n - 1) * ((1 + d) * X) + INR n * eta * (1 + u) ^ n in
    numbers t -> Forall (fun p => 0 <= F2Rv (fst p) /\ lo <= F2Rv (snd p) <= hi) t ->
    Rabs (total z (offset sh idx) - 1) <= d ->
    (1 + u) ^ S n * ((1 + d) * X + INR n * eta) <= HUGE ->
    finite (item r idx) = true /\ lo - E <= F2Rv (item r idx) <= hi + E.
  Proof.
    intros P H V t n X E N Q W B. pose proof u_pos as U.
    destruct (dot_terms z sh values g r g' idx P H V) as [EQ _]. fold t in EQ. rewrite EQ.
    assert (T : total z (offset sh idx) = rsum (map (fun p => F2Rv (fst p)) t)). { unfold total, t, terms. rewrite map_map. reflexivity. }
    rewrite T in W. set (w := rsum (map (fun p => F2Rv (fst p)) t)) in *.
    assert (X0 : 0 <= X) by (unfold X; apply Rle_trans with (Rabs lo); [apply Rabs_pos|apply Rmax_l]).
    assert (G : 0 <= w /\ lo * w <= exact t <= hi * w /\ mass t <= X * w).
    { unfold w, exact, mass, rsum. clear - Q. induction Q as [|[a x] l [A [L R]] Q IH]; cbn [map fold_right fst snd] in *; [lra|].
      destruct IH as (I0 & [I1 I2] & I3). set (s := fold_right Rplus 0 (map (fun p => F2Rv (fst p)) l)) in *.
      assert (AX : Rabs (F2Rv a * F2Rv x) <= X * F2Rv a).
      { rewrite Rabs_mult, (Rabs_pos_eq _ A), Rmult_comm. apply Rmult_le_compat_r; [exact A|]. unfold X. apply Rabs_le. split.
        - apply Rle_trans with (- Rabs lo); [pose proof (Rmax_l (Rabs lo) (Rabs hi)); lra|]. pose proof (Rle_abs (- lo)) as Z. rewrite Rabs_Ropp in Z. lra.
        - apply Rle_trans with (Rabs hi); [pose proof (Rle_abs hi); lra|apply Rmax_r]. }
      assert (A1 : lo * F2Rv a <= F2Rv a * F2Rv x) by (rewrite Rmult_comm; apply Rmult_le_compat_l; assumption).
      assert (A2 : F2Rv a * F2Rv x <= hi * F2Rv a) by (rewrite (Rmult_comm hi); apply Rmult_le_compat_l; assumption). lra. }
    destruct G as (w0 & [G1 G2] & G3). apply Rabs_le_inv in W.
    assert (MB : mass t <= (1 + d) * X) by nra. pose proof (mass_pos t) as M0. pose proof (pow_ge_1 (S n)) as P1.
    destruct (dot_error t N) as (_ & F & D).
    { unfold in_range. fold n. eapply Rle_trans; [|exact B]. apply Rmult_le_compat_l; lra. }
    split; [exact F|]. apply Rabs_le_inv in D. unfold bound in D. fold n in D.
    assert (D2 : ((1 + u) ^ S n - 1) * mass t <= ((1 + u) ^ S n - 1) * ((1 + d) * X)) by (apply Rmult_le_compat_l; lra).
    assert (lX : Rabs lo <= X) by apply Rmax_l. assert (hX : Rabs hi <= X) by apply Rmax_r. apply Rabs_le_inv in lX, hX.
    assert (d0 : 0 <= d) by lra.
    assert (L1 : lo - d * X <= lo * w) by nra. assert (H1 : hi * w <= hi + d * X) by nra. unfold E. lra.
  Qed.

  (** A constant field: values equal to c give c up to the same terms. *)
  Theorem C37_rounding_constant z sh values g r g' idx c d : proper_csr z -> regrid (Ok (Some (z, sh))) values g = Ok (r, g') -> valid sh idx ->
    let n := List.length (row z (offset sh idx)) in
    let E := d * Rabs (F2Rv c) + ((1 + u) ^ S n - 1) * ((1 + d) * Rabs (F2Rv c)) + INR n * eta * (1 + u) ^ n in
    is_float64 c = true -> finite c = true -> (forall j, valid (shape values) j -> item values j = c) ->
    Forall (fun p => is_float64 (snd p) = true /\ finite (snd p) = true /\ 0 <= F2Rv (snd p)) (row z (offset sh idx)) ->
    Rabs (total z (offset sh idx) - 1) <= d ->
    (1 + u) ^ S n * ((1 + d) * Rabs (F2Rv c) + INR n * eta) <= HUGE ->
    finite (item r idx) = true /\ Rabs (F2Rv (item r idx) - F2Rv c) <= E.
  Proof.
    intros P H V n E Vc Fc C Q W B. destruct (dot_terms z sh values g r g' idx P H V) as [_ EC].
    pose proof (row_cols z (offset sh idx) P) as RC. rewrite <- EC in RC.
    assert (T : Forall (fun p => snd p = c) (terms z (offset sh idx) values)).
    { unfold terms. apply Forall_map. eapply Forall_impl; [|exact RC]. intros [k w] L. cbn [fst snd] in *. destruct (offset_onto _ _ L) as (j & Vj & <-). rewrite nth_indices by exact Vj. exact (C j Vj). }
    assert (TW : Forall (fun p => is_float64 (fst p) = true /\ finite (fst p) = true /\ 0 <= F2Rv (fst p)) (terms z (offset sh idx) values)).
    { unfold terms. apply Forall_map. exact Q. }
    rewrite Forall_forall in T, TW.
    assert (LN : List.length (terms z (offset sh idx) values) = n) by (unfold terms; apply map_length).
    pose proof (C37_rounding_bounds z sh values g r g' idx (F2Rv c) (F2Rv c) d P H V) as R. cbv zeta in R. rewrite LN in R.
    rewrite Rmax_left in R by apply Rle_refl. fold E in R. destruct R as [F D].
    - apply Forall_forall. intros p I. destruct (TW p I) as (A & A1 & _). rewrite (T p I). auto.
    - apply Forall_forall. intros p I. destruct (TW p I) as (_ & _ & A). rewrite (T p I). split; [exact A|lra].
    - exact W.
    - exact B.
    - split; [exact F|]. apply Rabs_le. lra.
  Qed.
End Rounding.

(** ** Hypotheses are met: the weights 0.1, 0.2, 0.7, whose sum is not one, and values around 280 *)
Definition e_csr : csr f64 := mkCsr 1 3 [0; 3]%nat [0; 1; 2]%nat [lit 1 10; lit 2 10; lit 7 10].
Definition e_field : array f64 := mkArr [3]%nat (fun idx => match idx with [0%nat] => lit 27315 100 | [1%nat] => lit 2801 10 | _ => lit 2999 10 end).
Lemma e_proper : proper_csr e_csr.
Proof.
  constructor; try reflexivity.
  - intros i L. cbn in L. destruct i as [|i]; cbn; lia.
  - repeat (constructor; [cbn; lia|]). constructor.
Qed.
Lemma real_of m e : (e < 0)%Z -> F2Rv (S754_finite false m e) = IZR (Zpos m) / IZR (2 ^ (- e)).
Proof. intros H. unfold F2Rv, SF2R, F2R, Rdiv. cbn [Fnum Fexp Zaux.cond_Zopp]. f_equal. rewrite <- (Z.opp_involutive e) at 1. rewrite bpow_opp, <- IZR_Zpower by lia. reflexivity. Qed.
Ltac real_value f := let v := eval vm_compute in f in
  match v with S754_finite false ?m ?e => let E := fresh "E" in
    assert (E : F2Rv f = IZR (Zpos m) / IZR (2 ^ (- e))) by (change f with v; apply real_of; reflexivity);
    let d := eval vm_compute in (2 ^ (- e))%Z in change (2 ^ (- e))%Z with d in E end.
Example C37_rounding_met : exists r, regrid (of_Z 0) fadd fmul (Ok (Some (e_csr, [1]%nat))) e_field tt = Ok (r, tt) /\
  let t := terms e_csr (offset [1]%nat [0]%nat) e_field in
  numbers t /\ Forall (fun p => 0 <= F2Rv (fst p) /\ 273 <= F2Rv (snd p) <= 300) t /\
  total e_csr (offset [1]%nat [0]%nat) <> 1 /\ Rabs (total e_csr (offset [1]%nat [0]%nat) - 1) <= u /\
  (1 + u) ^ S (List.length t) * ((1 + u) * Rmax (Rabs 273) (Rabs 300) + INR (List.length t) * eta) <= HUGE.
Proof.
  eexists. split; [reflexivity|]. cbv zeta.
  change (terms e_csr (offset [1]%nat [0]%nat) e_field) with [(lit 1 10, lit 27315 100); (lit 2 10, lit 2801 10); (lit 7 10, lit 2999 10)].
  real_value (lit 1 10). real_value (lit 2 10). real_value (lit 7 10). real_value (lit 27315 100). real_value (lit 2801 10). real_value (lit 2999 10).
  assert (U : u = 1 / 9007199254740992) by (unfold u; change (-53)%Z with (- (53))%Z; rewrite bpow_opp, <- IZR_Zpower by lia; change (radix2 ^ 53)%Z with 9007199254740992%Z; lra).
  assert (T : total e_csr (offset [1]%nat [0]%nat) = F2Rv (lit 1 10) + (F2Rv (lit 2 10) + (F2Rv (lit 7 10) + 0))) by reflexivity.
  split; [|split; [|split; [|split]]].
  - repeat (constructor; [repeat split; (apply valid_lit || reflexivity)|]). constructor.
  - repeat (constructor; [cbn [fst snd]; lra|]). constructor.
  - rewrite T. lra.
  - rewrite T. apply Rabs_le. lra.
  - cbn [List.length]. rewrite Rmax_right by (rewrite !Rabs_pos_eq; lra). rewrite Rabs_pos_eq by lra.
    assert (H : IZR (2 ^ 13) <= HUGE) by (unfold HUGE; change (2 ^ 13)%Z with (radix2 ^ 13)%Z; rewrite IZR_Zpower by lia; apply bpow_le; lia).
    assert (E5 : eta <= 1) by (unfold eta; change 1 with (bpow radix2 0); apply bpow_le; lia). pose proof eta_pos as E6.
    eapply Rle_trans; [|exact H]. change (IZR (2 ^ 13)) with 8192. change (INR 3) with (1 + 1 + 1). cbn [pow].
    assert (P2 : (1 + u) * ((1 + u) * ((1 + u) * ((1 + u) * 1))) <= 16) by (rewrite U; lra).
    apply Rle_trans with (16 * ((1 + u) * 300 + (1 + 1 + 1) * eta)); [apply Rmult_le_compat_r; lra|lra].
Qed.

Print Assumptions C36_rounding.
Print Assumptions C36_rounding_simple.
Print Assumptions C37_rounding_bounds.
Print Assumptions C37_rounding_constant.
