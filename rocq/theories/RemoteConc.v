(** Threads looking up weights in one remote inventory: the objects of classes MatrixDb and
    UrlAccessor that they share (backends/db.py:98-272, 430-498), step by step where another thread
    can come in between, while the server has a newer index than the one in the cache or the memory.
    With the memory cache on, [MemoryCache.get] does all this under its lock (utils/memcache.py:
    227-243); with the policy "off" it does it without (224-225).

    Simplifications: the server does not change, and answers; an index is a function from requests to
    weights, so that a search is one step, and reading the whole index is one step (DbConc.v shows
    these loops entry by entry); the matrices themselves are not fetched; the entry of the index in
    the table of the cache has its checksum whenever the file is there; making the file under its
    lock (caching.py:1016-1026) is one step (Protocol.v and FileConc.v show this in detail). *)
From Verif Require Import PyBase.
Local Open Scope list_scope.
Local Open Scope nat_scope.

Section RemoteConc.
  Context {req W : Type}.
  (** The index that was on the server when it was cached, and the one that is there now. *)
  Variables old new_ : req -> option W.

  Inductive version := Empty | Old | New.
  Definition lookup (v : version) (r : req) : option W := match v with Empty => None | Old => old r | New => new_ r end.

  (** A call of [MatrixDb.find], and whether it is made under the lock of the memory cache. *)
  Record call := mkCall { c_req : req; c_locked : bool }.
  (** Where a thread is.  [again]: after the remote index was checked (db.py:491-496). *)
  Inductive pc :=
  | Idle
  | Want (r : req)                   (* memcache.py:227: wants the lock *)
  | Enter (r : req)                  (* db.py:437: is self._index None? *)
  | Clear (r : req) (again : bool)   (* db.py:442: self._index = MatrixIndex() *)
  | Path (r : req) (again : bool)    (* db.py:443, 120-123: index_path() *)
  | Open (r : req) (again : bool)    (* db.py:444: self._index.load(path) *)
  | Find (r : req) (again : bool)    (* db.py:490, 496: self.index.find *)
  | Check (r : req)                  (* db.py:491: not checked_remote() *)
  | Compare (r : req)                (* db.py:494, 130-155; caching.py:1004-1009: is there a file, and its checksum the server's? *)
  | Delete (r : req)                 (* caching.py:1011-1014: the file is deleted *)
  | Make (r : req)                   (* caching.py:1016-1026: the file is made if it is not there *)
  | Done (y : result (option W)).    (* the result; the lock is released if held *)
  Record thread := mkThread {
    todo : list call;
    at_ : pc;
    doing : option call;
    holds : bool;
    results : list (call * result (option W)) }.
  (** [self._index] of the MatrixDb, the index file in the cache, [_checked_remote] of the
      accessor, the lock of the memory cache. *)
  Record shared := mkShared { mem : option version; file : option version; checked : bool; lock : bool }.

  Definition goes (t : thread) (p : pc) : thread := mkThread (todo t) p (doing t) (holds t) (results t).
  Definition set_mem (s : shared) (m : option version) : shared := mkShared m (file s) (checked s) (lock s).
  Definition set_file (s : shared) (f : option version) : shared := mkShared (mem s) f (checked s) (lock s).
  Definition set_checked (s : shared) : shared := mkShared (mem s) (file s) true (lock s).
  Definition set_lock (s : shared) (b : bool) : shared := mkShared (mem s) (file s) (checked s) b.
  (** The file as it is after [cache_file] without force. *)
  Definition made (f : option version) : option version := match f with None => Some New | Some v => Some v end.

  (** One step of a thread. *)
  Definition move (s : shared) (t : thread) : shared * thread :=
    match at_ t with
    | Idle =>
        match todo t with
        | [] => (s, t)
        | c :: l => (s, mkThread l (if c_locked c then Want (c_req c) else Enter (c_req c)) (Some c) false (results t))
        end
    | Want r => if lock s then (s, t) else (set_lock s true, mkThread (todo t) (Enter r) (doing t) true (results t))
    | Enter r => (s, goes t (match mem s with Some _ => Find r false | None => Clear r false end))
    | Clear r again => (set_mem s (Some Empty), goes t (Path r again))
    | Path r again => (set_file s (made (file s)), goes t (Open r again))
    | Open r again =>
        match file s with
        | Some v => (set_mem s (Some v), goes t (Find r again))
        | None => (s, goes t (Done (Raise FileNotFoundError)))
        end
    | Find r again =>
        (s, goes t (match (match mem s with Some v => lookup v r | None => None end) with
                    | Some w => Done (Ok (Some w))
                    | None => if again then Done (Ok None) else Check r
                    end))
    | Check r => (s, goes t (if checked s then Done (Ok None) else Compare r))
    | Compare r =>
        match file s with
        | None => (s, goes t (Make r))
        | Some New => (set_checked s, goes t (Clear r true))
        | Some _ => (set_checked s, goes t (Delete r))
        end
    | Delete r => (set_file s None, goes t (Make r))
    | Make r => (set_file s (made (file s)), goes t (Clear r true))
    | Done y =>
        (if holds t then set_lock s false else s,
         mkThread (todo t) Idle None false (match doing t with Some c => results t ++ [(c, y)] | None => results t end))
    end.

  Record state := mkState { sh : shared; threads : nat -> thread }.
  Definition step (s : state) (n : nat) : state :=
    let '(h, t) := move (sh s) (threads s n) in mkState h (fun m => if Nat.eqb m n then t else threads s m).
  (** A schedule: which thread moves. *)
  Definition run (s : state) (l : list nat) : state := fold_left step l s.
  (** The inventory as found in the memory and in the cache, before the calls. *)
  Definition start (m f : option version) (c : bool) (progs : nat -> list call) : state :=
    mkState (mkShared m f c false) (fun n => mkThread (progs n) Idle None false []).
End RemoteConc.
