(** Vocabulary for the statements about regridding. *)
From Coq Require Import Qcanon.
From Verif Require Import PyBase Regrid.
Local Open Scope nat_scope.
Local Open Scope list_scope.

(** [idx] is a valid multi-index of the shape. *)
Definition valid (sh idx : list nat) : Prop := Forall2 (fun n i => i < n) sh idx.
(** The same shape and the same value at every point. *)
Definition same_array {A} (a b : array A) : Prop :=
  shape a = shape b /\ forall idx, valid (shape a) idx -> item a idx = item b idx.
(** The same elements in the same (row-major) order, under possibly different shapes. *)
Definition same_points {A} (a b : array A) : Prop :=
  prod (shape a) = prod (shape b) /\
  forall i j, valid (shape a) i -> valid (shape b) j -> offset (shape a) i = offset (shape b) j -> item a i = item b j.

Section Matrix.
  Context {A : Type}.
  (** A proper CSR matrix: scipy's check_format. *)
  Record proper_csr (z : csr A) : Prop := {
    p_len : List.length (indptr z) = S (n_rows z);
    p_first : nth 0 (indptr z) 0 = 0;
    p_mono : forall i, i < n_rows z -> nth i (indptr z) 0 <= nth (S i) (indptr z) 0;
    p_last : nth (n_rows z) (indptr z) 0 = List.length (data z);
    p_data : List.length (col z) = List.length (data z);
    p_cols : Forall (fun c => c < n_cols z) (col z) }.
  (** The stored elements of row [i], as pairs (column, weight). *)
  Definition row (z : csr A) (i : nat) : list (nat * A) :=
    let lo := nth i (indptr z) 0 in
    let hi := nth (S i) (indptr z) 0 in
    firstn (hi - lo) (skipn lo (combine (col z) (data z))).
End Matrix.

Local Open Scope Qc_scope.
Definition qsum (l : list Qc) : Qc := fold_right Qcplus 0 l.
(** The element (i, j) of the matrix: the stored weights for it, added up. *)
Definition weight (z : csr Qc) (i j : nat) : Qc :=
  qsum (map snd (filter (fun p => Nat.eqb (fst p) j) (row z i))).
(** The sum over all points of the input field of weight times value. *)
Definition weighted (z : csr Qc) (i : nat) (values : array Qc) : Qc :=
  qsum (map (fun jdx => weight z i (offset (shape values) jdx) * item values jdx) (indices (shape values))).
Definition weights_sum_to_one (z : csr Qc) (i : nat) : Prop := qsum (map snd (row z i)) = 1.
