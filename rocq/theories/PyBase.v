(** Common vocabulary: Python exceptions as values, results, small list helpers.
    Nothing here models a particular source file; it is the language the models
    are written in. *)
From Coq Require Export List ZArith NArith Lia Bool String Ascii.
From Coq Require Export ZifyBool ZifyNat ZifyN.
Export ListNotations.
Open Scope Z_scope.

(** Exceptions the modelled code can raise.  [WeightsTooLarge] is the ValueError
    of memcache.py:275-280, kept apart from other ValueErrors so that statements
    can talk about it.  [UserError n] stands for whatever a callback supplied by
    the caller (a downloader, a loader, a matcher, the body of a [with]) raises. *)
Inductive exn : Type :=
| ValueError | WeightsTooLarge | KeyError | TypeError | IndexError
| AttributeError | OverflowError | AssertionError | NotADirectoryError
| FileExistsError | FileNotFoundError | StructError | NotImplementedError | RuntimeError
| UserError (n : Z).

(** Outcome of a Python call: a value, an exception, or (for the loops that are
    not structurally bounded) fuel exhaustion, which is not a Python outcome. *)
Inductive result (A : Type) : Type :=
| Ok (a : A)
| Raise (e : exn)
| OutOfFuel.
Arguments Ok {A} a.
Arguments Raise {A} e.
Arguments OutOfFuel {A}.

Definition bind {A B} (r : result A) (f : A -> result B) : result B :=
  match r with Ok a => f a | Raise e => Raise e | OutOfFuel => OutOfFuel end.
Notation "x <- r ;; k" := (bind r (fun x => k))
  (at level 61, r at next level, right associativity).

Definition is_ok {A} (r : result A) : bool :=
  match r with Ok _ => true | _ => false end.

(** Sum of a list of integers. *)
Fixpoint zsum (l : list Z) : Z :=
  match l with [] => 0 | x :: r => x + zsum r end.

(** Association lists with string keys, in insertion order (Python dicts). *)
Section Assoc.
  Context {A : Type}.
  Fixpoint alookup (k : string) (l : list (string * A)) : option A :=
    match l with
    | [] => None
    | (k', a) :: r => if String.eqb k k' then Some a else alookup k r
    end.
  Fixpoint aremove (k : string) (l : list (string * A)) : list (string * A) :=
    match l with
    | [] => []
    | (k', a) :: r => if String.eqb k k' then aremove k r else (k', a) :: aremove k r
    end.
  (** [d[k] = v]: in place if the key exists, else appended. *)
  Fixpoint aset (k : string) (v : A) (l : list (string * A)) : list (string * A) :=
    match l with
    | [] => [(k, v)]
    | (k', a) :: r => if String.eqb k k' then (k', v) :: r else (k', a) :: aset k v r
    end.
  Definition amem (k : string) (l : list (string * A)) : bool :=
    match alookup k l with Some _ => true | None => false end.
  Fixpoint akeys (l : list (string * A)) : list string :=
    match l with [] => [] | (k, _) :: r => k :: akeys r end.
End Assoc.
