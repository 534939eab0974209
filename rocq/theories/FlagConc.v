(** Threads that compare grids with the same entry of an index: the memo [_global_ew] of the entry's
    GridSpec object, which [is_global_ew] sets to False before it tests and to True afterwards
    (gridspec.py:236-249, 306-319), step by step where another thread can come in between.  Entries are
    shared by all threads that use an inventory; with the memory cache off nothing locks them
    (utils/memcache.py:224-225).

    Simplifications: the dictionary of the object does not change; reading the limits and the tests
    are one step each, as they only read the dictionary; the memo [_global_ns] has no such race (it is
    only ever set to True, 321-324). *)
From Verif Require Import PyBase Float64 GridSpec.
Local Open Scope list_scope.
Local Open Scope nat_scope.

Section FlagConc.
  Variable fuel : nat.
  (** The entry's grid. *)
  Variable g : gspec.

  (** gridspec.py:238-239: west and east. *)
  Definition limits : result (num * num) :=
    w0 <- area_at g 1 ;; w <- normalise_lon fuel w0 0 ;; e0 <- area_at g 3 ;; e <- normalise_lon fuel e0 0 ;; Ok (w, e).

  (** Where a thread is in [is_global_ew]. *)
  Inductive pc :=
  | Idle                      (* 237: is self._global_ew None? *)
  | Limits                    (* 238-239 *)
  | Reset (w e : num)         (* 240: self._global_ew = False *)
  | Tests (w e : num)         (* 241-248, without the assignments *)
  | Mark                      (* 244, 246, 248: self._global_ew = True *)
  | Read.                     (* 249: return self._global_ew *)
  (** How many calls a thread still makes, and what it was told. *)
  Record thread := mkThread { todo : nat; at_ : pc; results : list (result bool) }.
  Definition answer (t : thread) (y : result bool) : thread := mkThread (todo t) Idle (results t ++ [y]).
  Definition goes (t : thread) (p : pc) : thread := mkThread (todo t) p (results t).

  (** One step, on the memo. *)
  Definition move (m : option bool) (t : thread) : option bool * thread :=
    match at_ t with
    | Idle =>
        match todo t with
        | 0 => (m, t)
        | S n =>
            let t' := mkThread n Idle (results t) in
            match m with
            | Some _ => (m, goes t' Read)
            | None => match cls g with
                      | LL | RGG => (m, goes t' Limits)
                      | _ => (m, answer t' (Raise NotADirectoryError))   (* 137-141 *)
                      end
            end
        end
    | Limits =>
        match limits with
        | Ok (w, e) => (m, goes t (Reset w e))
        | Raise x => (m, answer t (Raise x))
        | OutOfFuel => (m, answer t OutOfFuel)
        end
    | Reset w e => (Some false, goes t (Tests w e))
    | Tests w e =>
        match spans g w e with
        | Ok true => (m, goes t Mark)
        | Ok false => (m, goes t Read)
        | Raise x => (m, answer t (Raise x))
        | OutOfFuel => (m, answer t OutOfFuel)
        end
    | Mark => (Some true, goes t Read)
    | Read => (m, answer t (match m with Some b => Ok b | None => Raise TypeError end))   (* None does not occur: C146_answers *)
    end.

  Record state := mkState { memo : option bool; threads : nat -> thread }.
  Definition step (s : state) (n : nat) : state :=
    let '(m, t) := move (memo s) (threads s n) in mkState m (fun k => if Nat.eqb k n then t else threads s k).
  Definition run (s : state) (l : list nat) : state := fold_left step l s.
  (** Each thread [n] makes [calls n] calls. *)
  Definition start (calls : nat -> nat) : state := mkState (ew g) (fun n => mkThread (calls n) Idle []).
End FlagConc.
