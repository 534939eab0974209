(** Vocabulary for the statements about what the package shows. *)
From Verif Require Import PyBase PyStr Config StartupSpec.
Local Open Scope string_scope.
Local Open Scope list_scope.
Local Open Scope Z_scope.

(** The text [s] does not have the character [c]. *)
Definition without (c : ascii) (s : string) : Prop := ~ In c (chars s).

(** How a value is written by Python's str. *)
Inductive prints {Obj : Type} : value Obj -> string -> Prop :=
| pr_none : prints VNone "None"
| pr_true : prints (VBool true) "True"
| pr_false : prints (VBool false) "False"
| pr_int z : prints (VInt z) (show_Z z)
| pr_text s : prints (VStr s) s.

(** What stands between [<] and the next [>]. *)
Fixpoint marks (inside : option string) (s : string) : list string :=
  match s with
  | EmptyString => []
  | String c r =>
      match inside with
      | None => marks (if Ascii.eqb c "<" then Some "" else None) r
      | Some t => if Ascii.eqb c ">" then t :: marks None r else marks (Some (t ++ String c "")%string) r
      end
  end.
(** The first word. *)
Fixpoint word (s : string) : string :=
  match s with EmptyString => "" | String c r => if Ascii.eqb c " " then "" else String c (word r) end.
(** Every mark that opens is closed, in order; [br] needs no closing mark. *)
Fixpoint nested (opened : list string) (l : list string) : bool :=
  match l with
  | [] => match opened with [] => true | _ => false end
  | String "/" n :: r => match opened with m :: o => String.eqb m n && nested o r | [] => false end
  | m :: r => if String.eqb m "br" then nested opened r else nested (word m :: opened) r
  end.
Definition well_formed (page : string) : Prop := nested [] (marks None page) = true.

(** Each entry of [l] comes before those with a greater name, and no name comes twice. *)
Fixpoint increasing (l : list string) : Prop :=
  match l with [] => True | k :: r => (forall m, In m r -> String.compare k m = Lt) /\ increasing r end.

(** Nothing but white space. *)
Definition blank (s : string) : Prop := forall c, In c (chars s) -> In c [" "; ascii_of_nat 9; ascii_of_nat 10; ascii_of_nat 11; ascii_of_nat 12; ascii_of_nat 13]%char.
Definition ends_in_blank (s : string) : Prop := exists a b, s = (a ++ b)%string /\ b <> "" /\ forall c, In c (chars b) -> is_space c = true.

(** A text of ordinary characters: no quote, no backslash, nothing invisible. *)
Definition ordinary (s : string) : Prop :=
  forall c, In c (chars s) -> (32 <= code c < 127) /\ c <> ascii_of_nat 39 /\ c <> ascii_of_nat 92.
(** How a value is written in Python. *)
Inductive literal {Obj : Type} : value Obj -> string -> Prop :=
| lit_none : literal VNone "None"
| lit_true : literal (VBool true) "True"
| lit_false : literal (VBool false) "False"
| lit_int z : literal (VInt z) (show_Z z)
| lit_text s : ordinary s -> literal (VStr s) ("'" ++ s ++ "'")%string.

Section Shown.
  Context {Obj : Type}.
  Variable home : string.
  (** The documented default; an empty text for what is no option. *)
  Definition its_default (k : string) (d : value Obj) : Prop :=
    In (k, d) (stated home) \/ ((forall u : value Obj, ~ In (k, u) (stated home)) /\ d = VStr "").
  (** The line for one entry, [var] being the name of its variable. *)
  Definition says (var : string -> string) (env : list (string * string)) (p : string * value Obj) (line : string) : Prop :=
    forall v d D, prints (snd p) v -> its_default (fst p) D -> prints D d ->
      (alookup (var (fst p)) env = None -> line = (fst p ++ ": (" ++ v ++ ", " ++ d ++ ")")%string) /\
      (forall t, alookup (var (fst p)) env = Some t -> line = (fst p ++ ": (" ++ var (fst p) ++ "=" ++ t ++ ", " ++ v ++ ", " ++ d ++ ")")%string).
  (** The row for one entry. *)
  Definition tells (var : string -> string) (env : list (string * string)) (p : string * value Obj) (row : string) : Prop :=
    forall v d D, literal (snd p) v -> its_default (fst p) D -> literal D d ->
      (alookup (var (fst p)) env = None -> row = ("<tr><td>" ++ fst p ++ "</td><td>" ++ v ++ "</td><td>" ++ d ++ "</td></tr>")%string) /\
      (forall t, alookup (var (fst p)) env = Some t -> ordinary t ->
         row = ("<tr><td>" ++ fst p ++ "</td><td>" ++ var (fst p) ++ "='" ++ t ++ "'<br>(" ++ v ++ ")</td><td>" ++ d ++ "</td></tr>")%string).
End Shown.
(** Lines one under the other. *)
Fixpoint stacked (ls : list string) : string :=
  match ls with [] => "" | [l] => l | l :: r => (l ++ String (ascii_of_nat 10) "" ++ stacked r)%string end.
Fixpoint together (ls : list string) : string := match ls with [] => "" | l :: r => (l ++ together r)%string end.
