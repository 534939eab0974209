(** What a written number means, and edit distance, independently of humanize.py. *)
From Verif Require Import PyBase PyStr.

Local Open Scope list_scope.

Definition blank (l : list ascii) : Prop := Forall (fun c => is_space c = true) l.

(** [s] is the decimal number [n] (digits [ds]) followed by the unit word [u], with
    white space around and possibly between.  A unit word is made of letters, digits,
    "_" and "%", and begins with a non-digit unless separated by white space. *)
Inductive written (s : string) (n : Z) (u : list ascii) : Prop :=
| written_intro (w1 ds w2 w3 : list ascii) :
    chars s = w1 ++ ds ++ w2 ++ u ++ w3 ->
    blank w1 -> blank w2 -> blank w3 ->
    ds <> [] -> Forall (fun c => is_digit c = true) ds -> digits_val ds = n ->
    Forall (fun c => is_word c = true \/ c = "%"%char) u ->
    (w2 <> [] \/ match u with [] => True | c :: _ => is_digit c = false end) ->
    (u = [] -> w3 = []) ->
    written s n u.

(** Factors of the documented units. *)
Definition byte_factor (u : ascii) (f : Z) : Prop :=
  exists k, (0 <= k <= 4)%nat /\ f = 1024 ^ (Z.of_nat k + 1) /\
    (Some u = nth_error ["K"; "M"; "G"; "T"; "P"]%char k \/
     Some u = nth_error ["k"; "m"; "g"; "t"; "p"]%char k).
Definition second_factor (u : ascii) (f : Z) : Prop :=
  (u = "s" /\ f = 1 \/ u = "m" /\ f = 60 \/ u = "h" /\ f = 60 * 60 \/
   u = "d" /\ f = 24 * 60 * 60 \/ u = "w" /\ f = 7 * 24 * 60 * 60)%char.
Definition percent_factor (u : ascii) (f : Z) : Prop := u = "%"%char /\ f = 1.

(** One insertion, deletion or replacement of a character, anywhere. *)
Inductive edit1 : list ascii -> list ascii -> Prop :=
| e_ins p c q : edit1 (p ++ q) (p ++ c :: q)
| e_del p c q : edit1 (p ++ c :: q) (p ++ q)
| e_sub p c d q : edit1 (p ++ c :: q) (p ++ d :: q).

Inductive edits : Z -> list ascii -> list ascii -> Prop :=
| edits_0 s : edits 0 s s
| edits_S n s t u : edits n s t -> edit1 t u -> edits (n + 1) s u.
