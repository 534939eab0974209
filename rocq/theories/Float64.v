(** IEEE binary64 as used by Python's float: Coq's SpecFloat instantiated at precision 53 and
    maximal exponent 1024 (stdlib, no axioms).  Vocabulary, not a model of a particular file. *)
From Coq Require Export SpecFloat.
From Verif Require Import PyBase.

Notation f64 := spec_float.
Definition fadd : f64 -> f64 -> f64 := SFadd 53 1024.
Definition fsub : f64 -> f64 -> f64 := SFsub 53 1024.
Definition fmul : f64 -> f64 -> f64 := SFmul 53 1024.
Definition fdiv : f64 -> f64 -> f64 := SFdiv 53 1024.
Definition fabs : f64 -> f64 := SFabs.
Definition is_float64 (f : f64) : bool := valid_binary 53 1024 f.
Definition finite (f : f64) : bool :=
  match f with S754_zero _ | S754_finite _ _ _ => true | _ => false end.

(** Nearest float of an integer (ties to even); infinity when out of range. *)
Definition of_Z (z : Z) : f64 := binary_normalize 53 1024 z 0 false.

(** The literal n/d of the source text, correctly rounded because n and d are exact. *)
Definition lit (n d : Z) : f64 := fdiv (of_Z n) (of_Z d).

(** Exact comparison of an integer with a float, as Python compares int and float. *)
Definition compare_Z (z : Z) (f : f64) : option comparison :=
  match f with
  | S754_nan => None
  | S754_infinity s => Some (if s then Gt else Lt)
  | S754_zero _ => Some (z ?= 0)
  | S754_finite s m e =>
      let v := cond_Zopp s (Zpos m) in
      Some (if 0 <=? e then z ?= v * 2 ^ e else z * 2 ^ (- e) ?= v)
  end.

(** ** Python numbers: int and float, with Python's mixed arithmetic. *)
Inductive num : Type := NI (z : Z) | NF (f : f64).

(** int -> float conversion inside mixed arithmetic. *)
Definition int_float (z : Z) : result f64 :=
  match of_Z z with S754_infinity _ => Raise OverflowError | f => Ok f end.
Definition to_float (a : num) : result f64 := match a with NI z => int_float z | NF f => Ok f end.

Definition nsub (a b : num) : result num :=
  match a, b with
  | NI x, NI y => Ok (NI (x - y))
  | _, _ => x <- to_float a ;; y <- to_float b ;; Ok (NF (fsub x y))
  end.
Definition nadd (a b : num) : result num :=
  match a, b with
  | NI x, NI y => Ok (NI (x + y))
  | _, _ => x <- to_float a ;; y <- to_float b ;; Ok (NF (fadd x y))
  end.
Definition nabs (a : num) : num := match a with NI z => NI (Z.abs z) | NF f => NF (fabs f) end.

Definition ncompare (a b : num) : option comparison :=
  match a, b with
  | NI x, NI y => Some (x ?= y)
  | NI x, NF y => compare_Z x y
  | NF x, NI y => match compare_Z y x with Some c => Some (CompOpp c) | None => None end
  | NF x, NF y => SFcompare x y
  end.
Definition nltb (a b : num) : bool := match ncompare a b with Some Lt => true | _ => false end.
Definition neqb (a b : num) : bool := match ncompare a b with Some Eq => true | _ => false end.
Definition ngeb (a b : num) : bool := match ncompare a b with Some (Gt | Eq) => true | _ => false end.
Global Arguments lit : simpl never.
Global Arguments of_Z : simpl never.
Global Arguments fadd : simpl never.
Global Arguments fsub : simpl never.
Global Arguments fmul : simpl never.
Global Arguments fdiv : simpl never.
