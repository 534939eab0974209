(** Threads looking up weights in one local inventory: the object of class MatrixDb that they share
    (backends/db.py:430-515), step by step where another thread can come in between.  With the memory
    cache on, [MemoryCache.get] calls [find_entry] under its lock (utils/memcache.py:227-243); with the
    policy "off" it calls [create] without it (224-225).

    Simplifications: the files do not change and reading one is one step; the comparison of an entry
    with the request is one step, and the memos of grids (gridspec.py) are left out, as they do not
    change answers (IndexProofs.match_used); only lookups are shown, not the items of the memory cache
    (MemCacheConc.v has these, with lookups as functions). *)
From Verif Require Import PyBase PyStr Float64 GridSpec Index Db MemCache Inventory Regrid System.
Local Open Scope string_scope.
Local Open Scope list_scope.

Section DbConc.
  Context {A rest : Type}.
  Variables (py_str : val -> string) (key_order : list string) (fuel : nat).
  Variable files : fs rest (csr A).
  Variable path : string.

  (** A call of [MatrixDb.find], and whether its lookup is made under the lock of the memory cache. *)
  Record call := mkCall { c_in : dict; c_out : dict; c_method : string; c_locked : bool }.

  (** Where a thread is.  [again]: after the index was loaded once more (db.py:491-496). *)
  Inductive pc :=
  | Idle
  | Want (r : mreq)                              (* memcache.py:227: wants the lock *)
  | Enter (r : mreq) (again : bool)              (* db.py:437: is self._index None? *)
  | New (r : mreq) (again : bool)                (* db.py:442: self._index = MatrixIndex() *)
  | Open (r : mreq) (again : bool)               (* db.py:443-444 and 304-309: the file read, self._index.load *)
  | Fill (r : mreq) (again : bool) (k : nat) (l : list (string * raw rest))   (* db.py:311-327: entries still to be put in object k *)
  | Got (r : mreq) (again : bool)                (* db.py:439: return self._index *)
  | Have (r : mreq) (again : bool) (k : nat)     (* db.py:376-382: before the loop over object k *)
  | Scan (gi go : gspec) (r : mreq) (again : bool) (k n i : nat)  (* db.py:382-385: the loop over object k, which had n entries; entry i is next *)
  | Load (e : entry rest)                        (* db.py:482-485, 500-503 *)
  | Done (y : result (option (weights A))).      (* the result; the lock is released if held *)
  Record thread := mkThread {
    todo : list call;                            (* calls still to be made *)
    at_ : pc;
    doing : option call;
    holds : bool;                                (* this thread has the lock *)
    results : list (call * result (option (weights A))) }.
  (** [self._index] of the object, all objects of class MatrixIndex made, the lock. *)
  Record shared := mkShared { the_index : option nat; heap : list (index rest); lock : bool }.

  Fixpoint put {T} (k : nat) (x : T) (l : list T) : list T :=
    match l, k with [] , _ => [] | _ :: l, O => x :: l | y :: l, S k => y :: put k x l end.
  Definition object (k : nat) (s : shared) : index rest := nth k (heap s) [].
  (** db.py:303-309: what the loop of [MatrixIndex.load] goes over *)
  Definition listed : result (list (string * raw rest)) :=
    f <- read_index (join_path path "index.json") files ;;
    match f_version f with
    | Some v => if (v =? VERSION)%Z then match f_matrix f with Some m => Ok m | None => Raise KeyError end else Raise ValueError
    | None => Raise ValueError
    end.

  Definition goes (t : thread) (p : pc) : thread := mkThread (todo t) p (doing t) (holds t) (results t).
  (** One step of a thread. *)
  Definition move (s : shared) (t : thread) : shared * thread :=
    match at_ t with
    | Idle =>
        match todo t with
        | [] => (s, t)
        | c :: l =>
            let t' := mkThread l Idle (Some c) false (results t) in
            match (gi <- from_dict (c_in c) ;; go <- from_dict (c_out c) ;; Ok (gi, go, c_method c)) with
            | Ok r => (s, goes t' (if c_locked c then Want r else Enter r false))
            | Raise x => (s, goes t' (Done (Raise x)))
            | OutOfFuel => (s, goes t' (Done OutOfFuel))
            end
        end
    | Want r => if lock s then (s, t) else (mkShared (the_index s) (heap s) true, mkThread (todo t) (Enter r false) (doing t) true (results t))
    | Enter r again => (s, goes t (match the_index s with Some _ => Got r again | None => New r again end))
    | New r again => (mkShared (Some (List.length (heap s))) (heap s ++ [[]]) (lock s), goes t (Open r again))
    | Open r again =>
        (s, goes t (match listed, the_index s with
                    | Ok l, Some k => Fill r again k l
                    | Ok _, None => Done (Raise AttributeError)
                    | Raise x, _ => Done (Raise x)
                    | OutOfFuel, _ => Done OutOfFuel
                    end))
    | Fill r again k [] => (s, goes t (Enter r again))
    | Fill r again k (p :: l) => (mkShared (the_index s) (put k (load_item (object k s) p) (heap s)) (lock s), goes t (Fill r again k l))
    | Got r again => (s, goes t (match the_index s with Some k => Have r again k | None => Done (Raise AttributeError) end))
    | Have r again k =>
        let '(gi, go, m) := r in
        (s, goes t (match (gi' <- from_dict (gd gi) ;; go' <- from_dict (gd go) ;; Ok (gi', go')) with
                    | Ok (gi', go') => Scan gi' go' r again k (List.length (object k s)) 0
                    | Raise x => Done (Raise x)
                    | OutOfFuel => Done OutOfFuel
                    end))
    | Scan gi go r again k n i =>
        let '(_, _, m) := r in
        (* CPython: next() on an iterator of a dict whose size changed *)
        (s, goes t (if Nat.eqb (List.length (object k s)) n then
                      match nth_error (object k s) i with
                      | Some (_, e) =>
                          match snd (match_entry py_str key_order fuel e gi go (method_alias m)) with
                          | Ok true => Load e
                          | Ok false => Scan gi go r again k n (S i)
                          | Raise x => Done (Raise x)
                          | OutOfFuel => Done OutOfFuel
                          end
                      | None => if again then Done (Ok None) else New r true
                      end
                    else Done (Raise RuntimeError)))
    | Load e => (s, goes t (Done (w <- load_weights files path e ;; Ok (Some w))))
    | Done y =>
        (if holds t then mkShared (the_index s) (heap s) false else s,
         mkThread (todo t) Idle None false (match doing t with Some c => results t ++ [(c, y)] | None => results t end))
    end.

  Record state := mkState { sh : shared; threads : nat -> thread }.
  Definition step (s : state) (n : nat) : state :=
    let '(h, t) := move (sh s) (threads s n) in mkState h (fun m => if Nat.eqb m n then t else threads s m).
  (** A schedule: which thread moves. *)
  Definition run (s : state) (l : list nat) : state := fold_left step l s.
  (** The object was not used yet, or the index was loaded before. *)
  Definition start (progs : nat -> list call) : state := mkState (mkShared None [] false) (fun n => mkThread (progs n) Idle None false []).
  Definition start_loaded (i : index rest) (progs : nat -> list call) : state := mkState (mkShared (Some 0%nat) [i] false) (fun n => mkThread (progs n) Idle None false []).
End DbConc.
