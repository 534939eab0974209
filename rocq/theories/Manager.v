(** Model of the threads that use the disk cache: the class Cache (src/earthkit/regrid/utils/caching.py:752-929),
    its two locks, the manager thread with its queue (120-135, 173-178) and the futures (91-117).

    Any number of threads call the methods of the cache; their steps and those of the manager thread
    interleave.  What the steps decide from elsewhere (configuration, files, database) is an arbitrary
    answer.  The queue and the futures have a condition variable each.  What is done holding its lock (no
    other lock is taken meanwhile) is one step: enqueue; pop or wait in run; the last two
    lines of execute; the test or wait in result.  A thread that waits sleeps until notified.
    Not modelled: what the policies are (Policy.v) and what the manager does (Disk.v), failing to start a
    thread, and BaseExceptions in the clients. *)
From Verif Require Import PyBase.
Local Open Scope list_scope.

(** A policy object: managed() and its identity. *)
Definition pol : Type := bool * nat.
Inductive val := VNone | VPol (p : option pol) | VExc (e : exn) (* an exception object *) | VData (n : nat).
(** How a call ends.  [Escaped]: with a BaseException that is not an Exception (SystemExit, KeyboardInterrupt). *)
Inductive outcome := Val (v : val) | Raised (e : exn) | Escaped.
Inductive lock := PL (* _policy_lock *) | ML (* _manager_lock *).

(** What a thread has yet to do. *)
Inductive proc :=
| Done (o : outcome)
| Acq (l : lock) (k : proc)
| Rel (l : lock) (k : proc)
| Put (b : proc) (k : nat -> proc)            (* enqueue: [b] is func with its arguments; gives the future *)
| Await (f : nat) (k : outcome -> proc)       (* Future.result *)
| Read (k : option pol -> bool -> proc)       (* self._policy; self._manager is not None *)
| SetPol (p : option pol) (k : proc)          (* self._policy = ... *)
| StartM (k : proc)                           (* self._manager = CacheManager(); self._manager.start() *)
| Oracle (k : result pol -> proc).            (* anything that depends on what is not modelled *)

(** with self._lock: ... *)
Definition with_lock (l : lock) (body : (outcome -> proc) -> proc) (k : outcome -> proc) : proc :=
  Acq l (body (fun o => Rel l (k o))).

(** caching.py:811-813 _call_manager_config_changed; [b p] is the manager's _config_changed(p). *)
Definition call_changed (b : option pol -> proc) (k : outcome -> proc) : proc :=
  Read (fun p man =>
    if man then Put (b p) (fun f => Await f k) else k (Raised AttributeError)).

(** caching.py:776-785 _make_policy; the answer is what CachePolicy.from_config gives. *)
Definition make_policy (b : option pol -> proc) (k : outcome -> proc) : proc :=
  Read (fun p _ =>
    match p with
    | Some _ => k (Val VNone)
    | None =>
        Oracle (fun a =>
          match a with
          | Ok q =>
              SetPol (Some q)
                (if fst q then
                   with_lock ML (fun k =>
                     Read (fun _ man =>
                       if man then call_changed b k else StartM (call_changed b k))) k
                 else k (Val VNone))
          | Raise e => k (Raised e)
          | OutOfFuel => k (Raised ValueError)
          end)
    end).

(** caching.py:768-774 the property policy *)
Definition policy (b : option pol -> proc) (k : outcome -> proc) : proc :=
  with_lock PL (fun k =>
    Read (fun p _ =>
      match p with
      | Some _ => k (Val (VPol p))
      | None =>
          make_policy b (fun o =>
            match o with
            | Val _ => Read (fun p _ => k (Val (VPol p)))
            | _ => k o
            end)
      end)) k.

(** Uses self.policy; a method call on None raises. *)
Definition with_policy (b : option pol -> proc) (use : pol -> proc) (k : outcome -> proc) : proc :=
  policy b (fun o =>
    match o with
    | Val (VPol (Some p)) => use p
    | Val _ => k (Raised AttributeError)
    | _ => k o
    end).

(** An unmodelled test or call. *)
Definition ask (yes no : proc) (k : outcome -> proc) : proc :=
  Oracle (fun a =>
    match a with
    | Ok (true, _) => yes
    | Ok (false, _) => no
    | Raise e => k (Raised e)
    | OutOfFuel => k (Raised ValueError)
    end).

(** caching.py:787-797 _config_changed.  The first answer is that of CONFIG.get (788), then
    those of outdated and update. *)
Definition config_changed (b : option pol -> proc) (k : outcome -> proc) : proc :=
  let rest :=
    with_policy b (fun _ =>
      ask
        (with_lock PL (fun k =>
           Read (fun p _ =>
             match p with
             | None => k (Raised AttributeError)
             | Some _ => ask (SetPol None (make_policy b k)) (k (Val VNone)) k
             end)) k)
        (with_policy b (fun _ =>
           ask
             (with_policy b (fun p =>
                if fst p then with_lock ML (call_changed b) k else k (Val VNone)) k)
             (k (Val VNone)) k) k)
        k) k in
  ask rest rest k.

(** caching.py:799-809 _call_manager *)
Definition call_manager (b : option pol -> proc) (forget : bool) (job : proc) (k : outcome -> proc) : proc :=
  with_policy b (fun p =>
    if fst p then
      Read (fun _ man =>
        if man then
          with_lock ML (fun k =>
            Put job (fun f => if forget then k (Val VNone) else Await f k)) k
        else k (Val VNone))
    else k (Val VNone)) k.

(** The methods of the cache: policy and directory (768-774, 919-929; using a policy object takes no
    lock), _config_changed, and those that call the manager. *)
Inductive meth := MPolicy | MChanged | MManager (forget : bool) (job : proc).
Definition method (b : option pol -> proc) (m : meth) (k : outcome -> proc) : proc :=
  match m with
  | MPolicy => policy b k
  | MChanged => config_changed b k
  | MManager forget job => call_manager b forget job k
  end.
(** A client: calls methods one after the other, depending on what they return. *)
Inductive client := CEnd | CCall (m : meth) (k : outcome -> client).
Fixpoint compile (b : option pol -> proc) (c : client) : proc :=
  match c with
  | CEnd => Done (Val VNone)
  | CCall m k => method b m (fun o => compile b (k o))
  end.

(** ** The machine *)
Inductive who := Mgr | Cl (t : nat).
(** What happened, for the record. *)
Inductive ev :=
| EPut (w : who) (f : nat) (b : proc)
| EStart (f : nat)
| EStore (f : nat) (o : outcome)
| EGot (w : who) (f : nat) (o : outcome).
(** A future: _result (what execute stored) and _ready. *)
Record future := mkFut { stored : option outcome; ready : bool }.
(** The manager thread: not created; at the test of line 130; in wait (131); executing; _result assigned
    (101 or 104) but not _ready; ended by an exception. *)
Inductive mgr := MOff | MTest | MSleep | MRun (f : nat) (p : proc) (asleep : bool) | MStored (f : nat) | MDead.
Record sys := mkSys {
  pl : option who; ml : option who;
  spol : option pol; smgr : mgr;
  queue : list (nat * proc);
  futs : list future;
  threads : list (proc * bool);   (* with: asleep in Future.result *)
  trace : list ev;
}.

Definition is_on (m : mgr) : bool := match m with MOff => false | _ => true end.
(** Replaces an item of a list. *)
Fixpoint upd {A} (n : nat) (x : A) (l : list A) : list A :=
  match l, n with
  | [], _ => []
  | _ :: r, O => x :: r
  | y :: r, S n => y :: upd n x r
  end.
(** caching.py:111-117: what result() does with _result: an exception object is raised. *)
Definition seen (o : outcome) : outcome :=
  match o with
  | Val (VExc e) => Raised e
  | _ => o
  end.
(** notify_all on the condition of [f] *)
Definition wake (f : nat) (x : proc * bool) : proc * bool :=
  match fst x with
  | Await g _ => if Nat.eqb g f then (fst x, false) else x
  | _ => x
  end.

(** One step of what [w] has to do: the new state, what is left, and whether [w] now sleeps. *)
Definition pstep (w : who) (a : result pol) (s : sys) (p : proc) : option (sys * proc * bool) :=
  match p with
  | Done _ => None
  | Acq PL k =>
      match pl s with
      | Some _ => None
      | None => Some (mkSys (Some w) (ml s) (spol s) (smgr s) (queue s) (futs s) (threads s) (trace s), k, false)
      end
  | Acq ML k =>
      match ml s with
      | Some _ => None
      | None => Some (mkSys (pl s) (Some w) (spol s) (smgr s) (queue s) (futs s) (threads s) (trace s), k, false)
      end
  | Rel PL k => Some (mkSys None (ml s) (spol s) (smgr s) (queue s) (futs s) (threads s) (trace s), k, false)
  | Rel ML k => Some (mkSys (pl s) None (spol s) (smgr s) (queue s) (futs s) (threads s) (trace s), k, false)
  | Put b k =>                                                  (* 173-178 *)
      match smgr s with
      | MOff => None
      | m =>
          let f := List.length (futs s) in
          Some (mkSys (pl s) (ml s) (spol s) (match m with MSleep => MTest | _ => m end)
                  (queue s ++ [(f, b)]) (futs s ++ [mkFut None false]) (threads s) (trace s ++ [EPut w f b]),
                k f, false)
      end
  | Await f k =>                                                (* 111-117 *)
      match nth_error (futs s) f with
      | Some (mkFut (Some o) true) =>
          Some (mkSys (pl s) (ml s) (spol s) (smgr s) (queue s) (futs s) (threads s)
                  (trace s ++ [EGot w f (seen o)]), k (seen o), false)
      | _ => Some (s, p, true)
      end
  | Read k => Some (s, k (spol s) (is_on (smgr s)), false)
  | SetPol q k => Some (mkSys (pl s) (ml s) q (smgr s) (queue s) (futs s) (threads s) (trace s), k, false)
  | StartM k => Some (mkSys (pl s) (ml s) (spol s) MTest [] (futs s) (threads s) (trace s), k, false)
  | Oracle k => Some (s, k a, false)
  end.

Definition set_mgr (m : mgr) (s : sys) : sys :=
  mkSys (pl s) (ml s) (spol s) m (queue s) (futs s) (threads s) (trace s).
Definition set_thread (t : nat) (x : proc * bool) (s : sys) : sys :=
  mkSys (pl s) (ml s) (spol s) (smgr s) (queue s) (futs s)
    (upd t x (threads s)) (trace s).

(** One step of the thread [w]; [None] if it cannot move. *)
Definition step (w : who) (a : result pol) (s : sys) : option sys :=
  match w with
  | Cl t =>
      match nth_error (threads s) t with
      | Some (p, false) =>
          match pstep w a s p with
          | Some (s', p', z) => Some (set_thread t (p', z) s')
          | None => None
          end
      | _ => None
      end
  | Mgr =>
      match smgr s with
      | MOff | MSleep | MDead => None
      | MTest =>                                                (* 128-134 *)
          match queue s with
          | [] => Some (set_mgr MSleep s)
          | (f, b) :: q =>
              Some (mkSys (pl s) (ml s) (spol s) (MRun f b false) q (futs s) (threads s) (trace s ++ [EStart f]))
          end
      | MRun f (Done Escaped) _ => Some (set_mgr MDead s)       (* not caught at 102 *)
      | MRun f (Done o) _ =>                                    (* 101, 102-104 *)
          let x := match o with Raised e => Val (VExc e) | _ => o end in
          Some (mkSys (pl s) (ml s) (spol s) (MStored f) (queue s)
                  (upd f (mkFut (Some x) false) (futs s)) (threads s) (trace s ++ [EStore f o]))
      | MRun f p false =>
          match pstep Mgr a s p with
          | Some (s', p', z) => Some (set_mgr (MRun f p' z) s')
          | None => None
          end
      | MRun _ _ true => None
      | MStored f =>                                            (* 105-107 *)
          match nth_error (futs s) f with
          | Some x =>
              Some (mkSys (pl s) (ml s) (spol s) MTest (queue s)
                      (upd f (mkFut (stored x) true) (futs s)) (map (wake f) (threads s)) (trace s))
          | None => None
          end
      end
  end.

(** A schedule: which thread moves, and the answer it gets if it asks. *)
Fixpoint run (sch : list (who * result pol)) (s : sys) : option sys :=
  match sch with
  | [] => Some s
  | (w, a) :: r => match step w a s with Some s' => run r s' | None => None end
  end.
Definition start (b : option pol -> proc) (cs : list client) : sys :=
  mkSys None None None MOff [] [] (map (fun c => (compile b c, false)) cs) [].
