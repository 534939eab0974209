(** Model of src/earthkit/regrid/backends/precomputed.py: applying precomputed weights.

    numpy arrays are modelled as a shape and the value at each multi-index; their memory layout
    (strides, order) is not visible to the code.  scipy's CSR product is modelled as its loop
    (sparsetools csr_matvec), over any type of numbers with an addition and a multiplication. *)
From Verif Require Import PyBase.
Local Open Scope nat_scope.
Local Open Scope list_scope.

Section Regrid.
  Variable A : Type.
  Variables (zero : A) (add mul : A -> A -> A).

  Record array := mkArr { shape : list nat; item : list nat -> A }.

  Fixpoint prod (sh : list nat) : nat := match sh with [] => 1 | n :: r => n * prod r end.
  (** The multi-indices of a shape in row-major ("C") order. *)
  Fixpoint indices (sh : list nat) : list (list nat) :=
    match sh with
    | [] => [[]]
    | n :: r => flat_map (fun i => map (cons i) (indices r)) (seq 0 n)
    end.
  (** The position of a multi-index in that order. *)
  Fixpoint offset (sh idx : list nat) : nat :=
    match sh, idx with
    | n :: sh', i :: idx' => i * prod sh' + offset sh' idx'
    | _, _ => 0
    end.

  (** numpy.ndarray.reshape in C order: the elements in row-major order, seen under the new
      shape.  [reshape_column] is reshape(-1, 1) (precomputed.py:30, 46); the second is
      reshape(shape) (33, 50) for a shape of non-negative numbers. *)
  Definition flatten (a : array) : list A := map (item a) (indices (shape a)).
  Definition of_list (l : list A) (sh : list nat) : array := mkArr sh (fun idx => nth (offset sh idx) l zero).
  Definition reshape_column (a : array) : array := of_list (flatten a) [prod (shape a); 1].
  Definition reshape (a : array) (sh : list nat) : result array :=
    if prod (shape a) =? prod sh then Ok (of_list (flatten a) sh) else Raise ValueError.

  (** scipy.sparse.csr_matrix: db.py:500-503 [load_npz]. *)
  Record csr := mkCsr { n_rows : nat; n_cols : nat; indptr : list nat; col : list nat; data : list A }.

  (** sparsetools csr_matvec: for jj in indptr[i] .. indptr[i+1]: sum += data[jj] * x[col[jj]] *)
  Definition row_sum (z : csr) (x : list A) (i : nat) : A :=
    let lo := nth i (indptr z) 0 in
    let hi := nth (S i) (indptr z) 0 in
    fold_left (fun s jj => add s (mul (nth jj (data z) zero) (nth (nth jj (col z) 0) x zero))) (seq lo (hi - lo)) zero.
  Definition matvec (z : csr) (x : list A) : list A := map (row_sum z x) (seq 0 (n_rows z)).
  (** [z @ values] with a column: an other number of rows than the columns of z is a ValueError. *)
  Definition matmul (z : csr) (x : array) : result array :=
    if nth 0 (shape x) 0 =? n_cols z then Ok (of_list (matvec z (flatten x)) [n_rows z; 1]) else Raise ValueError.

  (** precomputed.py:22-35 [regrid] and 38-50 [interpolate], given what [self.db.find] did. *)
  Variable grid : Type.
  Definition regrid (found : result (option (csr * list nat))) (values : array) (out_grid : grid) : result (array * grid) :=
    zs <- found ;;
    match zs with
    | None => Raise ValueError
    | Some (z, sh) =>
        v <- matmul z (reshape_column values) ;;
        r <- reshape v sh ;;
        Ok (r, out_grid)
    end.
  Definition interpolate (found : result (option (csr * list nat))) (values : array) : result array :=
    zs <- found ;;
    match zs with
    | None => Raise ValueError
    | Some (z, sh) => v <- matmul z (reshape_column values) ;; reshape v sh
    end.
End Regrid.
Arguments mkArr {A}. Arguments shape {A}. Arguments item {A}. Arguments flatten {A}. Arguments of_list {A}.
Arguments reshape_column {A}. Arguments reshape {A}.
Arguments mkCsr {A}. Arguments n_rows {A}. Arguments n_cols {A}. Arguments indptr {A}. Arguments col {A}. Arguments data {A}.
Arguments row_sum {A}. Arguments matvec {A}. Arguments matmul {A}. Arguments regrid {A} zero add mul {grid}. Arguments interpolate {A}.
