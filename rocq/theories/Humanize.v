(** Model of src/earthkit/regrid/utils/humanize.py: reading sizes, durations and
    percentages; the edit distance behind spelling suggestions.
    [bytes] (lines 13-32) is modelled in HumanBytes.v. *)
From Verif Require Import PyBase PyStr.

Local Open Scope list_scope.

(** Second character class of the pattern at humanize.py:84. *)
Definition is_unit_char (c : ascii) : bool := Ascii.eqb c "%" || is_word c.

(** humanize.py:84: re.search(r"^\s*(\d+)\s*([%\w]+)?\s*$", value): the digits and the
    optional unit.  The pattern is matched greedily; when the greedy choice fails no
    other choice succeeds (proved: [parse_complete] in HumanizeProofs.v).  ASCII only;
    Python's [\d] and [\w] also accept other alphabets. *)
Definition parse_number (s : list ascii) : option (list ascii * list ascii) :=
  let '(_, r1) := span is_space s in
  let '(digits, r2) := span is_digit r1 in
  let '(_, r3) := span is_space r2 in
  let '(unit_, r4) := span is_unit_char r3 in
  let '(_, r5) := span is_space r4 in
  match digits, r5 with
  | _ :: _, [] => Some (digits, unit_)
  | _, _ => None
  end.

(** humanize.py:78-95 [as_number]; [value] is None or str(value).  int() of more than
    4300 digits, which recent Pythons refuse with ValueError, is not modelled. *)
Definition as_number (value : option string) (units : list (ascii * Z)) (none_ok : bool)
  : result (option Z) :=
  match value, none_ok with
  | None, true => Ok None
  | _, _ =>
      let text := match value with None => "None"%string | Some s => s end in
      match parse_number (chars text) with
      | None => Raise ValueError
      | Some (digits, []) => Ok (Some (digits_val digits))
      | Some (digits, u :: _) =>
          match find (fun p => Ascii.eqb u (fst p)) units with
          | None => Raise ValueError
          | Some (_, f) => Ok (Some (digits_val digits * f))
          end
      end
  end.

(** humanize.py:98-100 *)
Definition second_units : list (ascii * Z) :=
  [("s", 1); ("m", 60); ("h", 3600); ("d", 86400); ("w", 86400 * 7)]%char.
Definition as_seconds := fun v => as_number v second_units.
(** humanize.py:103-105 *)
Definition percent_units : list (ascii * Z) := [("%"%char, 1)].
Definition as_percent := fun v => as_number v percent_units.
(** humanize.py:108-116: the loop building the table. *)
Fixpoint byte_units_from (n : Z) (us : list ascii) : list (ascii * Z) :=
  match us with
  | [] => []
  | u :: r => (u, n * 1024) :: (to_lower u, n * 1024) :: byte_units_from (n * 1024) r
  end.
Definition byte_units : list (ascii * Z) := byte_units_from 1 (chars "KMGTP").
Definition as_bytes := fun v => as_number v byte_units.

(** humanize.py:35-57 [string_distance].  One row of the table at a time instead of
    the whole table: [dist_row c left diag ups t] is row i from column 1 on, given
    d[i, j-1], d[i-1, j-1] and the rest of row i-1. *)
Fixpoint dist_row (c : ascii) (left diag : Z) (ups : list Z) (t : list ascii) : list Z :=
  match ups, t with
  | up :: ups', tc :: t' =>
      let cost := if Ascii.eqb c tc then 0 else 1 in
      let v := Z.min (Z.min (up + 1) (left + 1)) (diag + cost) in
      v :: dist_row c v up ups' t'
  | _, _ => []
  end.
(** lines 46-55: rows 1..m; [i] is the row number, [row] is row i-1. *)
Fixpoint dist_rows (i : Z) (s : list ascii) (row : list Z) (t : list ascii) : list Z :=
  match s with
  | [] => row
  | c :: s' =>
      match row with
      | [] => []
      | d :: ups => dist_rows (i + 1) s' (i :: dist_row c i d ups t) t
      end
  end.
Fixpoint arange (a : Z) (n : nat) : list Z :=
  match n with O => [] | S m => a :: arange (a + 1) m end.
Definition string_distance (s t : string) : Z :=
  last (dist_rows 1 (chars s) (arange 0 (S (List.length (chars t)))) (chars t)) 0.

(** humanize.py:60-63 [did_you_mean]: min over (distance, word) pairs; min of nothing is
    a ValueError. *)
Definition pair_ltb (a b : Z * string) : bool :=
  (fst a <? fst b) || ((fst a =? fst b) && String.ltb (snd a) (snd b)).
Definition did_you_mean (word : string) (vocabulary : list string) : result string :=
  match map (fun w => (string_distance word w, w)) vocabulary with
  | [] => Raise ValueError
  | p :: r => Ok (snd (fold_left (fun best q => if pair_ltb q best then q else best) r p))
  end.

(** humanize.py:66-73 [list_to_human] *)
Definition join (sep : string) (l : list string) : string := String.concat sep l.
Definition list_to_human (l : list string) (conjunction : string) : string :=
  match l with
  | [] => "??"
  | _ =>
      let l' := if (2 <? Z.of_nat (List.length l))%Z then [join ", " (removelast l); last l ""] else l in
      join (" " ++ conjunction ++ " ")%string l'
  end%string.
