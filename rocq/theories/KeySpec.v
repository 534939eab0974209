(** When JSON values mean the same, and which ones exist. *)
From Verif Require Import PyBase PyStr Key.
From Coq Require Import Permutation.
Local Open Scope string_scope.
Local Open Scope list_scope.

(** Equal up to the order of the items of dictionaries. *)
Inductive jeq : json -> json -> Prop :=
| jeq_null : jeq JNull JNull
| jeq_bool b : jeq (JBool b) (JBool b)
| jeq_num t : jeq (JNum t) (JNum t)
| jeq_str s : jeq (JStr s) (JStr s)
| jeq_list l m : Forall2 jeq l m -> jeq (JList l) (JList m)
| jeq_dict l l' m m' : Permutation l l' -> Permutation m m' ->
    Forall2 (fun p q => fst p = fst q /\ jeq (snd p) (snd q)) l' m' -> jeq (JDict l) (JDict m).

(** What numbers look like: 12, -3, 1.5e-07, NaN, Infinity, -Infinity. *)
Definition num_char (c : ascii) : bool :=
  is_digit c || existsb (Ascii.eqb c) ["-"; "+"; "."; "e"; "E"; "N"; "a"; "I"; "n"; "f"; "i"; "t"; "y"]%char.
Definition num_start (c : ascii) : bool := is_digit c || existsb (Ascii.eqb c) ["-"; "N"; "I"]%char.
Definition num_text (t : string) : Prop :=
  forallb num_char (chars t) = true /\ match t with String c _ => num_start c = true | EmptyString => False end.
(** Dictionaries have each key once, numbers look like numbers. *)
Fixpoint wf (j : json) : Prop :=
  match j with
  | JNum t => num_text t
  | JList l => fold_right (fun x P => wf x /\ P) True l
  | JDict l => NoDup (map fst l) /\ fold_right (fun p P => wf (snd p) /\ P) True l
  | _ => True
  end.
Definition container (j : json) : Prop := match j with JList _ | JDict _ => True | _ => False end.
(** A moment in the calendar's ranges (months and days not checked against each other). *)
Definition in_range (t : moment) : Prop :=
  0 <= year t < 10000 /\ 0 <= month t < 100 /\ 0 <= day t < 100 /\ 0 <= hour t < 100 /\ 0 <= minute t < 100 /\ 0 <= second t < 100 /\ 0 <= micro t < 1000000.
(** Owners: no character that could be taken for what follows the owner. *)
Definition plain_owner (s : string) : Prop := forall c, In c (chars s) -> c <> "["%char /\ c <> "{"%char /\ c <> "-"%char.
