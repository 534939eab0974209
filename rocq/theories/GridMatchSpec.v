(** Vocabulary for the statements about matching of grids: values as real numbers, limits of
    an area, full extent.  Independent of how gridspec.py computes. *)
From Coq Require Import Reals.
From Verif Require Import PyBase PyStr Float64 GridSpec GridVocab FloatReal.

Local Open Scope string_scope.
Local Open Scope list_scope.
Local Open Scope R_scope.

(** A Python number (an int of at most 2^52 in absolute value or a finite float up to 2^52)
    with its real value; True and False count as 1 and 0. *)
Definition numeral (v : val) : option num :=
  match v with
  | VBool b => Some (NI (if b then 1 else 0)%Z)
  | VInt z => Some (NI z) | VFloat f => Some (NF f) | _ => None
  end.
Definition number (v : val) (x : R) : Prop :=
  exists a, numeral v = Some a /\ good a /\ N2R a = x /\ Rabs x <= IZR (2 ^ 52).

(** The model reads numbers in the same way. *)
Ltac nums := repeat match goal with E : numeral ?v = Some ?a |- _ => change (as_num v = Some a) in E end.

(** North, west, south, east. *)
Definition limits (g : gspec) (n w s e : R) : Prop :=
  exists vn vw vs ve, alookup "area" (gd g) = Some (VList [vn; vw; vs; ve]) /\
    number vn n /\ number vw w /\ number vs s /\ number ve e.

(** The increment in longitude at the equator. *)
Definition octahedral (c : ascii) : bool := Ascii.eqb c "O" || Ascii.eqb c "o".
Definition increment (g : gspec) (dx : R) : Prop :=
  match cls g with
  | LL => exists v r x, alookup "grid" (gd g) = Some (VList (v :: r)) /\ number v x /\ dx = Rabs x
  | RGG => exists c ds, alookup "grid" (gd g) = Some (VStr (String c (of_chars ds))) /\
             In c ["O"; "o"; "N"; "n"]%char /\ ds <> [] /\ Forall (fun c => is_digit c = true) ds /\
             (1 <= digits_val ds <= 1000000)%Z /\
             dx = 360 / IZR (4 * digits_val ds + if octahedral c then 16 else 0)
  | _ => False
  end.

(** Going from west to east is a whole number of turns, or falls short of one by [dx], up to
    [tol]. *)
Definition full_extent (tol w e dx : R) : Prop :=
  exists k, Rabs (e - w - 360 * IZR k) <= tol \/ Rabs (e - w + dx - 360 * IZR k) <= tol.
(** Declared global. *)
Definition declared (g : gspec) : Prop := exists v, alookup "global" (gd g) = Some v /\ counts_as_true v.
Definition congruent (w v : R) : Prop := exists k, w - v = 360 * IZR k.
Definition near_congruent (tol w v : R) : Prop := exists k, Rabs (w - v - 360 * IZR k) <= tol.

(** Two specifications that differ at most in how the area is written. *)
Definition alike (g h : gspec) : Prop :=
  cls g = cls h /\ forall k, k <> "area" -> k <> "global" -> alookup k (gd g) = alookup k (gd h).
