(** C36-C38, C72: regridding with precomputed weights (backends/precomputed.py). *)
From Coq Require Import QArith Qcanon.
From Verif Require Import PyBase Float64 Regrid RegridSpec RegridProofs.
Local Open Scope nat_scope.
Local Open Scope list_scope.

(** ** Any numbers, for instance doubles with rounding *)
Section Any.
  Context {A grid : Type}.
  Variables (zero : A) (add mul : A -> A -> A).
  Notation regrid := (@regrid A zero add mul grid).

  (** C38: values are returned only when weights were found and the sizes agree. *)
  Theorem C38_no_weights values g : regrid (Ok None) values g = Raise ValueError.
  Proof. reflexivity. Qed.
  Theorem C38_wrong_size z sh values g : prod (shape values) <> n_cols z -> regrid (Ok (Some (z, sh))) values g = Raise ValueError.
  Proof. intros N. rewrite regrid_cases. destruct (Nat.eqb_spec (prod (shape values)) (n_cols z)); [contradiction|reflexivity]. Qed.
  Theorem C38_returns found values g r g' : regrid found values g = Ok (r, g') ->
    g' = g /\ exists z sh, found = Ok (Some (z, sh)) /\ prod (shape values) = n_cols z /\ prod sh = n_rows z.
  Proof.
    destruct found as [[[z sh]|]|e|]; intros H; try discriminate H. rewrite regrid_cases in H.
    destruct (Nat.eqb_spec (prod (shape values)) (n_cols z)); [|discriminate H]. cbn [andb] in H.
    destruct (Nat.eqb_spec (n_rows z) (prod sh)); [|discriminate H]. inversion H. split; [reflexivity|]. exists z, sh. auto.
  Qed.
  Theorem C38_lookup_fails e values g : regrid (Raise e) values g = Raise e.
  Proof. reflexivity. Qed.
  Theorem C38_interpolate found values g :
    interpolate zero add mul found values = (r <- regrid found values g ;; Ok (fst r)).
  Proof.
    destruct found as [[[z sh]|]|e|]; try reflexivity. unfold interpolate, Regrid.regrid. cbn [bind].
    destruct (matmul zero add mul z (reshape_column zero values)); [|reflexivity..]. cbn [bind]. destruct (reshape zero a sh); reflexivity.
  Qed.

  (** C36: the result has the stored shape, and each point is the sum, in stored order, of the
      stored weights of its row times the points they name. *)
  Theorem C36_shape z sh values g r g' : regrid (Ok (Some (z, sh))) values g = Ok (r, g') -> shape r = sh.
  Proof. rewrite regrid_cases. destruct (_ && _); intros H; inversion H. reflexivity. Qed.
  Theorem C36_computed z sh values g : proper_csr z -> prod (shape values) = n_cols z -> prod sh = n_rows z ->
    exists r, regrid (Ok (Some (z, sh))) values g = Ok (r, g) /\ shape r = sh /\
      forall idx, valid sh idx -> item r idx =
        fold_left (fun s p => add s (mul (snd p) (item values (nth (fst p) (indices (shape values)) [])))) (row z (offset sh idx)) zero.
  Proof.
    intros P E1 E2. exists (of_list zero (matvec zero add mul z (flatten values)) sh). rewrite regrid_cases, E1, E2, !Nat.eqb_refl.
    split; [reflexivity|]. split; [reflexivity|]. intros idx V. pose proof (offset_lt _ _ V) as L. rewrite E2 in L.
    cbn [item of_list]. rewrite nth_matvec by exact L. rewrite row_sum_row by assumption.
    pose proof (row_cols z (offset sh idx) P) as C. revert C. generalize (row z (offset sh idx)) as l. clear - E1.
    assert (G : forall l s, Forall (fun p => fst p < n_cols z) l ->
      fold_left (fun s p => add s (mul (snd p) (nth (fst p) (flatten values) zero))) l s =
      fold_left (fun s p => add s (mul (snd p) (item values (nth (fst p) (indices (shape values)) [])))) l s).
    { induction l as [|[c w] l IH]; intros s C; [reflexivity|]. inversion C as [|? ? C1 C2]; subst. cbn [fold_left fst snd] in *.
      rewrite IH by exact C2. do 3 f_equal. rewrite <- E1 in C1. destruct (offset_onto (shape values) c C1) as (i & Vi & <-).
      rewrite nth_flatten, nth_indices by exact Vi. reflexivity. }
    intros l C. exact (G l zero C).
  Qed.
  (** The way the input is shaped does not matter. *)
  Theorem C36_input_shape found values values' g : same_points values values' -> regrid found values g = regrid found values' g.
  Proof.
    intros S. destruct found as [[[z sh]|]|e|]; try reflexivity. rewrite !regrid_cases. destruct (same_points_flatten values values') as [F _].
    rewrite (F S). destruct S as [-> _]. reflexivity.
  Qed.

  (** C72: a target point depends only on the source points that have a weight for it. *)
  Theorem C72_local z sh values values' g r r' idx : proper_csr z -> shape values = shape values' ->
    regrid (Ok (Some (z, sh))) values g = Ok (r, g) -> regrid (Ok (Some (z, sh))) values' g = Ok (r', g) -> valid sh idx ->
    (forall p jdx, In p (row z (offset sh idx)) -> valid (shape values) jdx -> offset (shape values) jdx = fst p -> item values jdx = item values' jdx) ->
    item r idx = item r' idx.
  Proof.
    intros P S H H' V D. destruct (C38_returns _ _ _ _ _ H) as (_ & z0 & sh0 & E & E1 & E2). inversion E; subst z0 sh0.
    destruct (C36_computed z sh values g P E1 E2) as (r0 & Q & _ & I). rewrite H in Q. inversion Q; subst r0. clear Q.
    rewrite S in E1. destruct (C36_computed z sh values' g P E1 E2) as (r0 & Q & _ & I'). rewrite H' in Q. inversion Q; subst r0. clear Q.
    rewrite (I idx V), (I' idx V). pose proof (row_cols z (offset sh idx) P) as C. rewrite <- E1, <- S in C. rewrite <- S. clear - C D.
    revert C D. generalize (row z (offset sh idx)) as l. intros l0 C0 D0.
    assert (G : forall l s, Forall (fun p => fst p < prod (shape values)) l ->
      (forall p jdx, In p l -> valid (shape values) jdx -> offset (shape values) jdx = fst p -> item values jdx = item values' jdx) ->
      fold_left (fun s p => add s (mul (snd p) (item values (nth (fst p) (indices (shape values)) [])))) l s =
      fold_left (fun s p => add s (mul (snd p) (item values' (nth (fst p) (indices (shape values)) [])))) l s).
    { clear l0 C0 D0. induction l as [|[c w] l IH]; intros s C D; [reflexivity|]. inversion C as [|? ? C1 C2]; subst. cbn [fold_left fst snd] in *.
      rewrite IH; [|exact C2|intros p j Ip; apply D; right; exact Ip]. do 3 f_equal.
      destruct (offset_onto (shape values) c C1) as (j & Vj & Ej). rewrite <- Ej, nth_indices by exact Vj.
      apply (D (c, w) j); [left; reflexivity|exact Vj|rewrite Ej; reflexivity]. }
    exact (G l0 zero C0 D0).
  Qed.
End Any.

(** ** Exact arithmetic *)
Section Exact.
  Local Open Scope Qc_scope.
  Context {grid : Type}.
  Notation regrid := (@regrid Qc 0 Qcplus Qcmult grid).

  (** C36: the result at a point is the sum, over all points of the input, of matrix element
      times value. *)
  Theorem C36_weighted_sum z sh values g r g' idx : proper_csr z -> regrid (Ok (Some (z, sh))) values g = Ok (r, g') -> valid sh idx ->
    item r idx = weighted z (offset sh idx) values.
  Proof.
    intros P H V. destruct (C38_returns _ _ _ _ _ _ _ _ H) as (_ & z0 & sh0 & E & E1 & E2). inversion E; subst z0 sh0.
    rewrite regrid_cases in H. rewrite E1, E2, !Nat.eqb_refl in H. inversion H. cbn [item of_list].
    pose proof (offset_lt _ _ V) as L. rewrite E2 in L. rewrite nth_matvec by exact L. apply row_sum_weighted; assumption.
  Qed.
  Theorem C36_linear z sh values values' g r r' g' a b : proper_csr z -> shape values = shape values' ->
    regrid (Ok (Some (z, sh))) values g = Ok (r, g') -> regrid (Ok (Some (z, sh))) values' g = Ok (r', g') ->
    exists q, regrid (Ok (Some (z, sh))) (mkArr (shape values) (fun idx => a * item values idx + b * item values' idx)) g = Ok (q, g') /\
      shape q = sh /\ forall idx, valid sh idx -> item q idx = a * item r idx + b * item r' idx.
  Proof.
    intros P S H H'. destruct (C38_returns _ _ _ _ _ _ _ _ H) as (-> & z0 & sh0 & E & E1 & E2). inversion E; subst z0 sh0.
    destruct (C36_computed 0 Qcplus Qcmult z sh (mkArr (shape values) (fun idx => a * item values idx + b * item values' idx)) g P E1 E2) as (q & Q & SQ & _).
    exists q. split; [exact Q|]. split; [exact SQ|]. intros idx V. rewrite (C36_weighted_sum z sh _ g q g idx P Q V).
    rewrite (C36_weighted_sum z sh values g r g idx P H V), (C36_weighted_sum z sh values' g r' g idx P H' V).
    unfold weighted. cbn [shape item]. rewrite <- S, <- !qsum_scale, <- qsum_plus. f_equal. apply map_ext. intros j. ring.
  Qed.

  (** C37 *)
  Theorem C37_constant z sh values g r g' idx c : proper_csr z -> regrid (Ok (Some (z, sh))) values g = Ok (r, g') -> valid sh idx ->
    weights_sum_to_one z (offset sh idx) -> (forall j, valid (shape values) j -> item values j = c) -> item r idx = c.
  Proof.
    intros P H V W C. destruct (C38_returns _ _ _ _ _ _ _ _ H) as (-> & z0 & sh0 & E & E1 & E2). inversion E; subst z0 sh0.
    rewrite (C36_weighted_sum z sh values g r g idx P H V). pose proof (offset_lt _ _ V) as L. rewrite E2 in L.
    rewrite <- (row_sum_weighted z values _ P L E1), row_sum_pairs by assumption. unfold weights_sum_to_one in W. rewrite <- (Qcmult_1_r c), <- W, <- qsum_scale.
    f_equal. apply map_ext_in. intros [k w] I. cbn [fst snd]. pose proof (row_cols z (offset sh idx) P) as F. rewrite Forall_forall in F. specialize (F _ I). cbn in F. rewrite <- E1 in F.
    destruct (offset_onto (shape values) k F) as (j & Vj & <-). rewrite nth_flatten, C by exact Vj. ring.
  Qed.
  Theorem C37_bounds z sh values g r g' idx lo hi : proper_csr z -> regrid (Ok (Some (z, sh))) values g = Ok (r, g') -> valid sh idx ->
    weights_sum_to_one z (offset sh idx) -> Forall (fun p => 0 <= snd p) (row z (offset sh idx)) ->
    (forall j, valid (shape values) j -> lo <= item values j /\ item values j <= hi) -> lo <= item r idx /\ item r idx <= hi.
  Proof.
    intros P H V W N B. destruct (C38_returns _ _ _ _ _ _ _ _ H) as (-> & z0 & sh0 & E & E1 & E2). inversion E; subst z0 sh0.
    rewrite (C36_weighted_sum z sh values g r g idx P H V). pose proof (offset_lt _ _ V) as L. rewrite E2 in L.
    rewrite <- (row_sum_weighted z values _ P L E1), row_sum_pairs by assumption. unfold weights_sum_to_one in W.
    rewrite <- (Qcmult_1_l lo), <- (Qcmult_1_l hi), <- W.
    apply (qsum_bounds (row z (offset sh idx)) (fun k => nth k (flatten values) 0)). rewrite Forall_forall in *. intros [k w] I.
    pose proof (row_cols z (offset sh idx) P) as F. rewrite Forall_forall in F. specialize (F _ I). cbn [fst snd] in *. rewrite <- E1 in F.
    destruct (offset_onto (shape values) k F) as (j & Vj & <-). rewrite nth_flatten by exact Vj. split; [exact (N _ I)|exact (B j Vj)].
  Qed.
End Exact.

(** ** With doubles neither law is exact: weights 5/8, 1/4, 1/8 and the constant 9.8 *)
Definition f_csr : csr f64 := mkCsr 1 3 [0; 3] [0; 1; 2] [lit 5 8; lit 1 4; lit 1 8].
Definition f_const : array f64 := mkArr [3] (fun _ => lit 98 10).
Theorem C37_rounding_refuted : exists r, regrid (of_Z 0) fadd fmul (Ok (Some (f_csr, [1]))) f_const tt = Ok (r, tt) /\
  nltb (NF (item r [0])) (NF (lit 98 10)) = true.
Proof. eexists. split; [reflexivity|]. vm_compute. reflexivity. Qed.

(** ** Hypotheses are met: a 2 x 2 field, two target points *)
Definition q (n d : Z) : Qc := Q2Qc (QArith_base.Qmake n (Z.to_pos d)).
Definition q_csr : csr Qc := mkCsr 2 4 [0; 2; 5] [0; 3; 1; 2; 1] [q 1 2; q 1 2; q 1 4; q 1 2; q 1 4].
Definition q_field : array Qc := mkArr [2; 2] (fun idx => match idx with [i; j] => q (Z.of_nat (3 * i + j)) 1 | _ => q 0 1 end).
Lemma q_proper : proper_csr q_csr.
Proof.
  constructor; try reflexivity.
  - intros i L. cbn in L. destruct i as [|[|i]]; cbn; lia.
  - repeat (constructor; [cbn; lia|]). constructor.
Qed.
Example C36_example : exists r, regrid 0%Qc Qcplus Qcmult (Ok (Some (q_csr, [1; 2]))) q_field tt = Ok (r, tt) /\
  item r [0; 0]%nat = q 2 1 /\ item r [0; 1]%nat = q 2 1 /\ weights_sum_to_one q_csr 0 /\ weights_sum_to_one q_csr 1 /\ valid [1; 2]%nat [0; 1]%nat.
Proof.
  eexists. split; [reflexivity|]. repeat split; try (apply Qc_is_canon; reflexivity). repeat constructor.
Qed.

Print Assumptions C38_no_weights.
Print Assumptions C38_wrong_size.
Print Assumptions C38_returns.
Print Assumptions C38_lookup_fails.
Print Assumptions C38_interpolate.
Print Assumptions C36_shape.
Print Assumptions C36_computed.
Print Assumptions C36_input_shape.
Print Assumptions C72_local.
Print Assumptions C36_weighted_sum.
Print Assumptions C36_linear.
Print Assumptions C37_constant.
Print Assumptions C37_bounds.
Print Assumptions C37_rounding_refuted.
