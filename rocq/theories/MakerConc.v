(** Threads that ask for backends: the objects that [BackendMaker] keeps (backends/__init__.py:52-82),
    step by step where another thread can come in between.  There is no lock.

    Simplifications: a key (a name, or a tuple of the name and the arguments, 59-64) is of any type, with
    Python's equality of keys; whether it can be hashed, whether its name is known and what the
    constructor does are arbitrary functions of it; a backend is a number, the key it was made for and
    the thread that made it.  A single operation on a dictionary is one step, and a dictionary loses no
    key, so that the look and the read of lines 70-71 are one step. *)
From Verif Require Import PyBase.
Local Open Scope list_scope.
Local Open Scope nat_scope.

Section MakerConc.
  Context {key : Type}.
  Variable eqb : key -> key -> bool.
  Variables hashable known : key -> bool.
  Variable construct : key -> result unit.

  Record obj := mkObj { o_id : nat; o_key : key; o_by : nat }.
  (** A dictionary in order of insertion: an equal key stays the one first put in. *)
  Definition dict := list (key * obj).
  Definition find (k : key) (d : dict) : option obj :=
    match List.find (fun p => eqb (fst p) k) d with Some p => Some (snd p) | None => None end.
  Fixpoint put (k : key) (o : obj) (d : dict) : dict :=
    match d with
    | [] => [(k, o)]
    | (k', o') :: r => if eqb k' k then (k', o) :: r else (k', o') :: put k o r
    end.

  (** Where a thread is: about to look (line 70), to construct (79), to store (80). *)
  Inductive pc := Idle | Construct (k : key) | Store (k : key) (o : obj).
  Record thread := mkThread { todo : list key; at_ : pc; results : list (key * result obj) }.
  (** BACKEND_OBJECTS; and, for the statements, all objects ever made. *)
  Record shared := mkShared { objects : dict; created : list obj }.

  Definition answer (t : thread) (l : list key) (k : key) (y : result obj) : thread := mkThread l Idle (results t ++ [(k, y)]).

  (** One step of thread [n] in [__call__] (66-82). *)
  Definition move (n : nat) (s : shared) (t : thread) : shared * thread :=
    match at_ t with
    | Idle =>
        match todo t with
        | [] => (s, t)
        | k :: l =>
            if negb (hashable k) then (s, answer t l k (Raise TypeError))
            else match find k (objects s) with
                 | Some o => (s, answer t l k (Ok o))
                 | None => if known k then (s, mkThread l (Construct k) (results t)) else (s, answer t l k (Raise ValueError))
                 end
        end
    | Construct k =>
        match construct k with
        | Ok _ => let o := mkObj (List.length (created s)) k n in
                  (mkShared (objects s) (created s ++ [o]), mkThread (todo t) (Store k o) (results t))
        | Raise e => (s, answer t (todo t) k (Raise e))
        | OutOfFuel => (s, answer t (todo t) k OutOfFuel)
        end
    | Store k o => (mkShared (put k o (objects s)) (created s), answer t (todo t) k (Ok o))
    end.

  Record state := mkState { sh : shared; threads : nat -> thread }.
  Definition step (g : state) (n : nat) : state :=
    let '(s, t) := move n (sh g) (threads g n) in mkState s (fun m => if Nat.eqb m n then t else threads g m).
  Definition run (g : state) (l : list nat) : state := fold_left step l g.
  Definition start (progs : nat -> list key) : state := mkState (mkShared [] []) (fun n => mkThread (progs n) Idle []).
End MakerConc.
