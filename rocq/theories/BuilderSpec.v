(** Vocabulary for the statements about the matrix builder: the natural specifications of
    the grids that MIR describes. *)
From Coq Require Import Reals.
From Verif Require Import PyBase PyStr Float64 GridSpec GridVocab FloatReal GridMatchSpec Builder.
Local Open Scope string_scope.
Local Open Scope list_scope.
Local Open Scope R_scope.

(** A longitude of at most ten turns. *)
Definition longitude (v : val) (x : R) : Prop := number v x /\ Rabs x <= 3600.

(** The area that the documentation gives for a global grid of increments [x], [y]. *)
Definition documented (x y a : val) : Prop :=
  (exists k, In k increments /\ x = degrees k /\ y = degrees k /\ a = aligned_area k) \/
  ((forall k, In k increments -> py_eq x (degrees k) = false \/ py_eq y (degrees k) = false) /\ a = whole_globe).

(** Declared global, or spanning the globe, up to [tol]. *)
Definition flagged (g : mgrid) : Prop := exists v, g_global g = Some v /\ counts_as_true v.
Definition spanning (g : mgrid) (w e dx : R) : Prop := flagged g \/ full_extent 0.000000009 w e dx.

(** The rows of the octahedral grid of number [n]: 20, 24, ..., 24, 20 points. *)
Definition half_rows (n : nat) : list Z := map (fun i => (20 + 4 * Z.of_nat i)%Z) (seq 0 n).
Definition octahedral_rows (n : nat) : list Z := half_rows n ++ rev (half_rows n).
(** The name of a Gaussian grid, in either case. *)
Definition named (pl : list Z) (n : Z) (s : string) : Prop :=
  (1 <= n <= 1000000)%Z /\ exists c, s = String c (show_Z n) /\
    ((In c ["O"; "o"]%char /\ pl = octahedral_rows (Z.to_nat n) /\ (2 <= n)%Z) \/
     (In c ["N"; "n"]%char /\ exists a b r, pl = a :: b :: r /\ (b - a)%Z <> 4%Z)).
(** The increment at the equator. *)
Definition gaussian_step (s : string) (n : Z) : R :=
  360 / IZR (4 * n + match s with String c _ => if octahedral c then 16 else 0 | _ => 0 end).

Definition coordinate (v : val) : Prop := finite_num v /\ int64 v.
Definition healpix_grid (v : val) : Prop :=
  exists c ds, v = VStr (String c (of_chars ds)) /\ In c ["H"; "h"]%char /\ ds <> [] /\
    Forall (fun c => is_digit c = true) ds /\ (1 <= digits_val ds <= 1000000)%Z.

Inductive natural : mgrid -> dict -> Prop :=
(** the increments and the area *)
| nat_ll_area we sn nj ni n w s e gl :
    coordinate we -> coordinate sn -> Forall finite_num [n; w; s; e] ->
    natural (mkGrid (KLL we sn nj ni n w s e) gl) [("grid", VList [we; sn]); ("area", VList [n; w; s; e])]
(** a global grid by its increments, when its latitudes are the documented ones *)
| nat_ll_global we sn nj ni n w s e gl x rn rw rs re n' w' s' e' rn' rs' :
    coordinate we -> coordinate sn -> number we x -> Rabs x <= 360 ->
    number n rn -> longitude w rw -> number s rs -> longitude e re ->
    spanning (mkGrid (KLL we sn nj ni n w s e) gl) rw re (Rabs x) -> congruent rw 0 ->
    documented we sn (VList [n'; w'; s'; e']) -> number n' rn' -> number s' rs' ->
    Rabs (rn - rn') <= 0.000000009 -> Rabs (rs - rs') <= 0.000000009 ->
    natural (mkGrid (KLL we sn nj ni n w s e) gl) [("grid", VList [we; sn])]
(** the name and the area *)
| nat_gg_area pl k name n w s e gl :
    named pl k name -> Forall finite_num [n; w; s; e] ->
    natural (mkGrid (KRGG pl k n w s e) gl) [("grid", VStr name); ("area", VList [n; w; s; e])]
(** a global grid by its name *)
| nat_gg_global pl k name n w s e gl rn rw rs re :
    named pl k name -> number n rn -> longitude w rw -> number s rs -> longitude e re ->
    spanning (mkGrid (KRGG pl k n w s e) gl) rw re (gaussian_step name k) -> congruent rw 0 ->
    natural (mkGrid (KRGG pl k n w s e) gl) [("grid", VStr name)]
| nat_hp grid o gl key :
    healpix_grid grid -> In o ["ring"; "nested"] -> In key ["order"; "ordering"] ->
    natural (mkGrid (KHP grid (VStr o)) gl) [("grid", grid); (key, VStr o)]
| nat_hp_ring grid gl :
    healpix_grid grid -> natural (mkGrid (KHP grid (VStr "ring")) gl) [("grid", grid)]
| nat_orca t s gl :
    orca_name (t ++ "_" ++ s)%string ->
    natural (mkGrid (KORCA t s) gl) [("grid", VStr (t ++ "_" ++ s))].
