(** What MIR's files are, said without the code that reads and writes them. *)
From Verif Require Import PyBase Stream StreamSpec Mir.
Local Open Scope list_scope.
Local Open Scope Z_scope.

(** ** A file of weights *)

(** the [k] bytes of an item, least significant first or last *)
Definition le_bytes (k : nat) (n : Z) : bytes := map (fun i => n / 256 ^ Z.of_nat i mod 256) (seq 0 k).
Definition item_bytes (le : bool) (k : nat) (n : Z) : bytes :=
  if le then le_bytes k n else rev (le_bytes k n).
Definition blob (b : bytes) : bytes :=
  let n := Z.of_nat (List.length b) in
  21 :: word (n / 2 ^ 32) ++ word (n mod 2 ^ 32) ++ b.

(** the numbers before the arrays *)
Record header := mkHeader {
  h_nnz : Z;          (* number of non-zeros *)
  h_endian : Z;       (* not 0: little-endian *)
  h_index : nat;      (* size of an index *)
  h_scalar : nat;     (* size of a weight *)
  h_size : Z          (* size of a size *)
}.
Definition header_ok (h : header) : Prop :=
  0 <= h_nnz h < 2 ^ 32 /\ 0 <= h_endian h < 2 ^ 32 /\
  Z.of_nat (h_index h) < 2 ^ 32 /\ Z.of_nat (h_scalar h) < 2 ^ 32 /\ 0 <= h_size h < 2 ^ 32.
Definition matrix_head (h : header) (m : csrz) : list (nat * value) :=
  map (fun v => (O, v))
    [VULong (m_rows m); VULong (m_cols m); VULong (h_nnz h); VInt (h_endian h);
     VULong (Z.of_nat (h_index h)); VULong (Z.of_nat (h_scalar h)); VULong (h_size h)].
Definition array_bytes (h : header) (k : nat) (l : list Z) : bytes :=
  flat_map (item_bytes (negb (h_endian h =? 0)) k) l.
Definition matrix_file (h : header) (m : csrz) : bytes :=
  wires (matrix_head h m) ++
  blob (array_bytes h (h_index h) (m_indptr m)) ++
  blob (array_bytes h (h_index h) (m_indices m)) ++
  blob (array_bytes h (h_scalar h) (m_data m)).

(** a compressed-row matrix, its weights bit patterns of [k] bytes *)
Definition matrix_ok (k : nat) (m : csrz) : Prop :=
  0 <= m_rows m < 2 ^ 32 /\ 0 <= m_cols m < 2 ^ 32 /\
  Z.of_nat (List.length (m_indptr m)) = m_rows m + 1 /\
  hd 0 (m_indptr m) = 0 /\
  last (m_indptr m) 0 = Z.of_nat (List.length (m_indices m)) /\
  List.length (m_data m) = List.length (m_indices m) /\
  Forall (fun n => 0 <= n < 2 ^ 32) (m_indptr m) /\
  Forall (fun n => 0 <= n < 2 ^ 32) (m_indices m) /\
  Forall (fun n => 0 <= n < 256 ^ Z.of_nat k) (m_data m).

(** ** A grid definition: the version, the number of points, the points *)
Definition points (lats lons : list Z) : list (nat * value) :=
  flat_map (fun p => [(O, VDouble (fst p)); (O, VDouble (snd p))]) (combine lats lons).
Definition griddef_file (lats lons : list Z) : bytes :=
  wires ([(O, VULong 1); (O, VULong (Z.of_nat (List.length lats)))] ++ points lats lons).
Definition is_grid (lats lons : list Z) : Prop :=
  lats <> [] /\ List.length lats = List.length lons /\
  Z.of_nat (List.length lats) < 2 ^ 32 /\
  Forall (fun b => 0 <= b < 2 ^ 64) lats /\ Forall (fun b => 0 <= b < 2 ^ 64) lons.
