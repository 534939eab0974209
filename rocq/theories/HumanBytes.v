(** Model of humanize.bytes (src/earthkit/regrid/utils/humanize.py:13-30) for integers and for
    floats.  Its callers pass file sizes; those at caching.py:407, 423 and 427 also the float of
    caching.py:510 (through 511). *)
From Verif Require Import PyBase PyStr Humanize Float64.
Local Open Scope string_scope.
Local Open Scope Z_scope.

(** humanize.py:25 *)
Definition byte_units : list string :=
  [""; " KiB"; " MiB"; " GiB"; " TiB"; " PiB"; " EiB"; " ZiB"; " YiB"].

(** Lines 26-29: divides by 1024.0 while at least 1024, counting. *)
Fixpoint scale (fuel : nat) (n : num) (i : nat) : result (num * nat) :=
  match fuel with
  | O => OutOfFuel
  | S fuel =>
      if ngeb n (NI 1024) then
        x <- to_float n ;; scale fuel (NF (fdiv x (of_Z 1024))) (S i)
      else Ok (n, i)
  end.

(** int(x): truncation *)
Definition trunc (f : f64) : result Z :=
  match f with
  | S754_nan => Raise ValueError
  | S754_infinity _ => Raise OverflowError
  | S754_zero _ => Ok 0
  | S754_finite s m e =>
      Ok (cond_Zopp s (if 0 <=? e then Zpos m * 2 ^ e else Zpos m / 2 ^ (- e)))
  end.

(** Line 30: int(n * 10 + 0.5) *)
Definition tenths (n : num) : result Z :=
  match n with
  | NI z => x <- int_float (z * 10) ;; trunc (fadd x (lit 1 2))
  | NF f => trunc (fadd (fmul f (of_Z 10)) (lit 1 2))
  end.

Section Bytes.
  (** "%g" of a number of tenths needing more than six significant digits: rounded or in
      scientific notation, not modelled *)
  Variable long_g : Z -> string.

  (** "%g" % (m / 10.0): at most six significant digits, without trailing zeros *)
  Definition show_abs (m : Z) : string :=
    (show_Z (m / 10)%Z ++ (if (m mod 10 =? 0)%Z then "" else "." ++ show_Z (m mod 10)%Z))%string.
  Definition show_tenths (m : Z) : string :=
    if 1000000 <=? Z.abs m then long_g m
    else if m <? 0 then ("-" ++ show_abs (- m))%string else show_abs m.

  (** humanize.py:13-30.  Line 21 is [n -= 0]. *)
  Definition bytes (n : Z) : result string :=
    let sign := if n <? 0 then "-" else "" in
    s <- scale 200 (NI n) 0 ;;
    m <- tenths (fst s) ;;
    match nth_error byte_units (snd s) with
    | Some u => Ok (sign ++ show_tenths m ++ u)%string
    | None => Raise IndexError
    end.
  (** The same for a float. *)
  Definition bytes_float (n : f64) : result string :=
    let sign := if nltb (NF n) (NI 0) then "-" else "" in
    s <- scale 200 (NF n) 0 ;;
    m <- tenths (fst s) ;;
    match nth_error byte_units (snd s) with
    | Some u => Ok (sign ++ show_tenths m ++ u)%string
    | None => Raise IndexError
    end.
End Bytes.
