(** Threads that ask one grid object for its number or its kind: the two memos [_N] and [_octahedral]
    of the reduced Gaussian grids (gridspec.py:326-357) and [_N] and [_order] of the HEALPix grids
    (402-432), which [_inspect_grid] fills one after the other, step by step where another thread can
    come in between.  Entries of an index are shared by all threads that use the inventory; with the
    memory cache off nothing locks them (utils/memcache.py:224-225).

    Simplifications: the dictionary of the object does not change, so reading the name of the grid
    and testing it is one step; [dx] (299-304) is a question about the kind followed by one about the
    number.  What is read from the dictionary is a parameter; Props_PairConc.v gives it the models of
    both classes. *)
From Verif Require Import PyBase.
Local Open Scope list_scope.
Local Open Scope nat_scope.

Section PairConc.
  Context {A B : Type}.
  (** gridspec.py:328-343, 404-418: number and kind according to the dictionary. *)
  Variable parse : result (A * B).

  (** Which property is asked for: 347-351 and 422-426 [N], 353-357 and 428-432 the kind. *)
  Inductive ask := Number | Kind.
  (** What the property gives; None is Python's None, which no caller expects. *)
  Inductive value := VNumber (x : option A) | VKind (y : option B).

  (** Where a thread is. *)
  Inductive pc :=
  | Idle                              (* 349, 355, 424, 430: is the memo asked for None? *)
  | Test1 (q : ask)                   (* 327, 403: is self._N None? *)
  | Test2 (q : ask)                   (* 327, 403: is the other memo None? *)
  | Parse (q : ask)                   (* 328-343, 404-418 *)
  | Put1 (q : ask) (n : A) (k : B)    (* 344, 419: self._N = N *)
  | Put2 (q : ask) (k : B)            (* 345, 420: the other memo *)
  | Read (q : ask).                   (* 351, 357, 426, 432: return the memo *)
  Record thread := mkThread { todo : list ask; at_ : pc; results : list (ask * result value) }.
  Definition goes (t : thread) (p : pc) : thread := mkThread (todo t) p (results t).
  Definition answer (t : thread) (q : ask) (y : result value) : thread := mkThread (todo t) Idle (results t ++ [(q, y)]).

  (** The two memos. *)
  Record memos := mkMemos { m_number : option A; m_kind : option B }.
  Definition known (m : memos) (q : ask) : bool :=
    match q with
    | Number => match m_number m with Some _ => true | None => false end
    | Kind => match m_kind m with Some _ => true | None => false end
    end.

  (** One step of a thread. *)
  Definition move (m : memos) (t : thread) : memos * thread :=
    match at_ t with
    | Idle =>
        match todo t with
        | [] => (m, t)
        | q :: l => (m, mkThread l (if known m q then Read q else Test1 q) (results t))
        end
    | Test1 q => (m, goes t (if known m Number then Test2 q else Parse q))
    | Test2 q => (m, goes t (if known m Kind then Read q else Parse q))
    | Parse q =>
        match parse with
        | Ok (n, k) => (m, goes t (Put1 q n k))
        | Raise e => (m, answer t q (Raise e))
        | OutOfFuel => (m, answer t q OutOfFuel)
        end
    | Put1 q n k => (mkMemos (Some n) (m_kind m), goes t (Put2 q k))
    | Put2 q k => (mkMemos (m_number m) (Some k), goes t (Read q))
    | Read q => (m, answer t q (Ok (match q with Number => VNumber (m_number m) | Kind => VKind (m_kind m) end)))
    end.

  Record state := mkState { memo : memos; threads : nat -> thread }.
  Definition step (s : state) (n : nat) : state :=
    let '(m, t) := move (memo s) (threads s n) in mkState m (fun k => if Nat.eqb k n then t else threads s k).
  (** A schedule: which thread moves. *)
  Definition run (s : state) (l : list nat) : state := fold_left step l s.
  (** A new object: both memos are None (gridspec.py:270-271, 378-379). *)
  Definition start (progs : nat -> list ask) : state := mkState (mkMemos None None) (fun n => mkThread (progs n) Idle []).
End PairConc.
