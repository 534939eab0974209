(** Threads that change settings while others use the memory cache:
    utils/config.py:350-358 [set], 457 [reset], 232-244 [new_config] and 500-508 [_notify] on
    one side, utils/memcache.py:223-354 [get], [update], [clear], [info] on the other.

    [update] takes the lock of the memory cache, but the three options it reads under that
    lock belong to CONFIG, which no lock protects: another thread may write an option between
    two of the reads.

    Simplifications: the configuration is a value of any type with a [view] to the three
    options the memory cache reads; a change of settings (set, reset, entering or leaving a
    temporary block) is a list of assignments, each one step, followed by one call of the
    memory cache's [update] (a [set] with keywords notifies twice: that is a change followed
    by a change without assignments).  Other callbacks only delay the notification.  Changes
    that are refused half-way are not modelled here (they are in Config.v).  A [get], [clear]
    or [info] under the lock is one step (MemCacheConc.v). *)
From Verif Require Import PyBase MemCache MemCacheConc.

Section SettingsConc.
  Variables Req Ent W C : Type.
  Variable key_of : Req -> string.
  Variable est_size : Ent -> Z.
  Variable size_of : W -> Z.
  Variable view : C -> mconf.
  Notation state := (MemCache.state W).
  Notation inventory := (MemCache.inventory Req Ent W).

  (** What a thread does: config.py:350-358 (and 457, 232-244), memcache.py:223, 328, 344. *)
  Inductive call :=
  | Change (fs : list (C -> C))
  | Get (i : inventory) (r : Req)
  | Clear
  | Info.

  (** memcache.py:223, 328, 344: the operation of the cache behind a call. *)
  Definition op_of (a : call) : MemCache.op Req Ent W :=
    match a with
    | Get i r => OpGet i r
    | Clear => OpClear
    | _ => OpInfo
    end.

  (** Where a thread is. *)
  Inductive place :=
  | Ready                                  (* between two calls *)
  | Writing (fs : list (C -> C))           (* config.py:350-357, assignments to do *)
  | Notify                                 (* config.py:508, in update before line 306 *)
  | U1                                     (* holds the lock, memcache.py:309 *)
  | U2 (ch : bool)                         (* line 310 *)
  | U3 (ch : bool)                         (* line 311 *)
  | U4 (ch : bool) (r : result bool)       (* line 307, 314 *)
  | Asking (a : call).                     (* wants the lock, memcache.py:227, 330, 346 *)

  (** What went wrong in a thread, and where. *)
  Inductive fault := InUpdate (e : exn) | InGet (e : exn).

  (** A thread: the calls to make, where it is, whether it goes on after an exception. *)
  Record thread := mkThread { prog : list call; place_ : place; catches : bool }.

  Record sys := mkSys {
    conf : C;                              (* what CONFIG answers *)
    mem : state;                           (* MEMORY_CACHE *)
    slock : option nat;                    (* who holds MEMORY_CACHE.lock *)
    thr : nat -> thread;
    faults : list (nat * fault) }.         (* exceptions so far, latest first *)

  Definition put (f : nat -> thread) (k : nat) (t : thread) : nat -> thread :=
    fun n => if Nat.eqb n k then t else f n.

  (** memcache.py:309 [_update("max_mem", …)] with the value CONFIG has now. *)
  Definition set_max (v : option Z) (s : state) : state * bool :=
    let ch := negb (optZ_eqb (max_mem s) v) in
    (mkState (items s) (if ch then v else max_mem s) (curr_mem s) (hits s) (misses s)
             (strict s) (pol s), ch).
  (** memcache.py:310 [_update("strict", …)] with the value CONFIG has now. *)
  Definition set_strict (v : bool) (s : state) : state * bool :=
    let ch := negb (Bool.eqb (strict s) v) in
    (mkState (items s) (max_mem s) (curr_mem s) (hits s) (misses s)
             (if ch then v else strict s) (pol s), ch).

  (** An exception leaves the call; the thread ends unless its caller catches it. *)
  Definition left_by (t : thread) (raised : bool) : thread :=
    mkThread (if raised && negb (catches t) then [] else prog t) Ready (catches t).

  (** The exception of an outcome, if any. *)
  Definition raised {A} (r : result A) : option exn :=
    match r with Raise e => Some e | _ => None end.
  Definition note (k : nat) (mk : exn -> fault) (o : option exn) (l : list (nat * fault)) :=
    match o with Some e => (k, mk e) :: l | None => l end.
  Definition is_some {A} (o : option A) : bool := match o with Some _ => true | None => false end.

  (** memcache.py:223-251, 328-331, 344-354: the outcome of an operation. *)
  Definition out_raised (x : MemCache.out Req Ent W) : option exn :=
    match x with
    | OutGet _ d => raised d
    | _ => None
    end.

  (** One step of thread [k]; a thread that wants a lock that is taken stays where it is. *)
  Definition step1 (k : nat) (g : sys) : sys :=
    let t := thr g k in
    let at_ p := put (thr g) k (mkThread (prog t) p (catches t)) in
    match place_ t with
    | Ready =>
        match prog t with
        | [] => g
        | Change fs :: rest =>
            mkSys (conf g) (mem g) (slock g)
                  (put (thr g) k (mkThread rest (Writing fs) (catches t))) (faults g)
        | Get i r :: rest =>
            (* memcache.py:224-225: the policy is read without the lock *)
            if has_cache (pol (mem g))
            then mkSys (conf g) (mem g) (slock g)
                       (put (thr g) k (mkThread rest (Asking (Get i r)) (catches t))) (faults g)
            else
              let e := raised (create i r) in
              mkSys (conf g) (mem g) (slock g)
                    (put (thr g) k (left_by (mkThread rest Ready (catches t)) (is_some e)))
                    (note k InGet e (faults g))
        | a :: rest =>
            mkSys (conf g) (mem g) (slock g)
                  (put (thr g) k (mkThread rest (Asking a) (catches t))) (faults g)
        end
    | Writing [] => mkSys (conf g) (mem g) (slock g) (at_ Notify) (faults g)
    | Writing (f :: fs) => mkSys (f (conf g)) (mem g) (slock g) (at_ (Writing fs)) (faults g)
    | Notify =>
        match slock g with
        | Some _ => g
        | None => mkSys (conf g) (mem g) (Some k) (at_ U1) (faults g)
        end
    | U1 =>
        let '(s, ch) := set_max (c_max (view (conf g))) (mem g) in
        mkSys (conf g) s (slock g) (at_ (U2 ch)) (faults g)
    | U2 ch =>
        let '(s, ch2) := set_strict (c_strict (view (conf g))) (mem g) in
        mkSys (conf g) s (slock g) (at_ (U3 (ch || ch2))) (faults g)
    | U3 ch =>
        let '(s, r) := upd2 W (view (conf g)) (mem g) in
        mkSys (conf g) s (slock g) (at_ (U4 ch r)) (faults g)
    | U4 ch r =>
        let '(s, x) := upd3 W ch r (mem g) in
        let e := raised x in
        mkSys (conf g) s None (put (thr g) k (left_by t (is_some e)))
              (note k InUpdate e (faults g))
    | Asking a =>
        match slock g with
        | Some _ => g
        | None =>
            let '(s, x) := MemCache.step key_of est_size size_of (mem g) (op_of a) in
            let e := out_raised x in
            mkSys (conf g) s None (put (thr g) k (left_by t (is_some e)))
                  (note k InGet e (faults g))
        end
    end.

  (** A schedule: which thread makes the next step. *)
  Fixpoint steps (l : list nat) (g : sys) : sys :=
    match l with
    | [] => g
    | k :: l => steps l (step1 k g)
    end.

  (** Threads about to start, with a configuration and a memory cache. *)
  Definition start (c : C) (s : state) (progs : nat -> list call * bool) : sys :=
    mkSys c s None (fun k => mkThread (fst (progs k)) Ready (snd (progs k))) [].

  Definition done (g : sys) : Prop := forall k, place_ (thr g k) = Ready /\ prog (thr g k) = [].
End SettingsConc.

Arguments Change {Req Ent W C} _.
Arguments Get {Req Ent W C} _ _.
Arguments Clear {Req Ent W C}.
Arguments Info {Req Ent W C}.
Arguments Ready {Req Ent W C}.
Arguments Writing {Req Ent W C} _.
Arguments Notify {Req Ent W C}.
Arguments U1 {Req Ent W C}.
Arguments U2 {Req Ent W C} _.
Arguments U3 {Req Ent W C} _.
Arguments U4 {Req Ent W C} _ _.
Arguments Asking {Req Ent W C} _.
Arguments mkThread {Req Ent W C} _ _ _.
Arguments prog {Req Ent W C} _.
Arguments place_ {Req Ent W C} _.
Arguments catches {Req Ent W C} _.
Arguments mkSys {Req Ent W C} _ _ _ _ _.
Arguments conf {Req Ent W C} _.
Arguments mem {Req Ent W C} _.
Arguments slock {Req Ent W C} _.
Arguments thr {Req Ent W C} _ _.
Arguments faults {Req Ent W C} _.
Arguments put {Req Ent W C} _ _ _ _.
Arguments set_max {W} _ _.
Arguments set_strict {W} _ _.
Arguments left_by {Req Ent W C} _ _.
Arguments step1 {Req Ent W C} _ _ _ _ _ _.
Arguments steps {Req Ent W C} _ _ _ _ _ _.
Arguments start {Req Ent W C} _ _ _.
Arguments done {Req Ent W C} _.
