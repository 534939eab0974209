(** Threads sharing the memory cache: memcache.py:223-354 at the granularity that
    matters.  [get] reads the policy once without the lock (line 224), everything
    else happens under [self.lock]; but because of that unlocked read the moment at
    which [update] replaces the policy (line 302) is visible, so [update] is split
    there.

    Simplifications: the inventory functions and the hash are pure; the three
    configuration values an update reads are a parameter of the update (they may be
    any mixture of values being set by other threads); a [get], [clear] or [info]
    inside the lock is one step (these never write the policy, the only field read
    outside the lock). *)
From Verif Require Import PyBase MemCache.

Section Conc.
  Variables Req Ent W : Type.
  Variable key_of : Req -> string.
  Variable est_size : Ent -> Z.
  Variable size_of : W -> Z.
  Notation state := (MemCache.state W).
  Notation op := (MemCache.op Req Ent W).
  Notation out := (MemCache.out Req Ent W).

  (** memcache.py:309-310: the first two assignments of [update]. *)
  Definition upd1 (c : mconf) (s : state) : state * bool :=
    let ch1 := negb (optZ_eqb (max_mem s) (c_max c)) in
    let s1 := mkState (items s) (if ch1 then c_max c else max_mem s) (curr_mem s)
                      (hits s) (misses s) (strict s) (pol s) in
    let ch2 := negb (Bool.eqb (strict s1) (c_strict c)) in
    (mkState (items s1) (max_mem s1) (curr_mem s1) (hits s1) (misses s1)
             (if ch2 then c_strict c else strict s1) (pol s1), ch1 || ch2).

  (** memcache.py:299-304 [_update_policy]; [self.policy] is assigned last. *)
  Definition upd2 (c : mconf) (s : state) : state * result bool :=
    if String.eqb (policy_name (pol s)) (c_policy c) then (s, Ok false)
    else match make_policy (c_policy c) with
         | None => (s, Raise ValueError)
         | Some p =>
             match check p s with
             | (s', Ok _) => (mkState (items s') (max_mem s') (curr_mem s') (hits s') (misses s')
                                      (strict s') p, Ok true)
             | (s', Raise e) => (s', Raise e)
             | (s', OutOfFuel) => (s', OutOfFuel)
             end
         end.

  (** memcache.py:307-314: [self._reduce()] if anything changed. *)
  Definition upd3 (ch : bool) (r : result bool) (s : state) : state * result unit :=
    match r with
    | Raise e => (s, Raise e)
    | OutOfFuel => (s, OutOfFuel)
    | Ok ch3 => if ch || ch3 then reduce_ None s else (s, Ok tt)
    end.

  (** Where a thread is. *)
  Inductive pc :=
  | Idle
  | Start (o : op)                          (* called, nothing done yet *)
  | Wait (o : op)                           (* wants the lock *)
  | Body (o : op)                           (* holds the lock *)
  | Upd2 (c : mconf) (ch : bool)            (* in update, before line 311 *)
  | Upd3 (ch : bool) (r : result bool)      (* in update, after line 311 *)
  | Rel (x : out)                           (* about to release the lock *)
  | Ret (x : out).                          (* about to return, no lock *)

  Record thread := mkThread {
    prog : list op;                         (* operations still to be called *)
    at_ : pc;
    results : list (op * out);              (* operations that returned, in order *)
    current : option op }.                  (* operation being executed *)

  Record sys := mkSys { shared : state; lock : option nat; threads : nat -> thread }.

  Definition upd_thread (f : nat -> thread) (t : nat) (x : thread) : nat -> thread :=
    fun n => if Nat.eqb n t then x else f n.

  (** Visible events: thread [t] calls its next operation / gets its result. *)
  Inductive event := EInv (t : nat) | ERet (t : nat).

  (** One step of thread [t]. *)
  Inductive tstep (t : nat) (g : sys) : sys -> list event -> Prop :=
  | TCall o rest :
      at_ (threads g t) = Idle -> prog (threads g t) = o :: rest ->
      tstep t g (mkSys (shared g) (lock g)
        (upd_thread (threads g) t (mkThread rest (Start o) (results (threads g t)) (Some o)))) [EInv t]
  (* line 224-225: unlocked test of the policy *)
  | TOff i r :
      at_ (threads g t) = Start (OpGet i r) -> has_cache (pol (shared g)) = false ->
      tstep t g (mkSys (shared g) (lock g)
        (upd_thread (threads g) t
           (mkThread (prog (threads g t)) (Ret (OutGet (create_calls i r) (create i r)))
                     (results (threads g t)) (current (threads g t))))) []
  | TOn i r :
      at_ (threads g t) = Start (OpGet i r) -> has_cache (pol (shared g)) = true ->
      tstep t g (mkSys (shared g) (lock g)
        (upd_thread (threads g) t
           (mkThread (prog (threads g t)) (Wait (OpGet i r))
                     (results (threads g t)) (current (threads g t))))) []
  | TOther o :
      at_ (threads g t) = Start o -> (forall i r, o <> OpGet i r) ->
      tstep t g (mkSys (shared g) (lock g)
        (upd_thread (threads g) t
           (mkThread (prog (threads g t)) (Wait o)
                     (results (threads g t)) (current (threads g t))))) []
  (* with self.lock *)
  | TLock o :
      at_ (threads g t) = Wait o -> lock g = None ->
      tstep t g (mkSys (shared g) (Some t)
        (upd_thread (threads g) t
           (mkThread (prog (threads g t)) (Body o)
                     (results (threads g t)) (current (threads g t))))) []
  | TBody o s' x :
      at_ (threads g t) = Body o -> (forall c, o <> OpUpdate c) ->
      step key_of est_size size_of (shared g) o = (s', x) ->
      tstep t g (mkSys s' (lock g)
        (upd_thread (threads g) t
           (mkThread (prog (threads g t)) (Rel x)
                     (results (threads g t)) (current (threads g t))))) []
  | TUpd1 c s' ch :
      at_ (threads g t) = Body (OpUpdate c) -> upd1 c (shared g) = (s', ch) ->
      tstep t g (mkSys s' (lock g)
        (upd_thread (threads g) t
           (mkThread (prog (threads g t)) (Upd2 c ch)
                     (results (threads g t)) (current (threads g t))))) []
  | TUpd2 c ch s' r :
      at_ (threads g t) = Upd2 c ch -> upd2 c (shared g) = (s', r) ->
      tstep t g (mkSys s' (lock g)
        (upd_thread (threads g) t
           (mkThread (prog (threads g t)) (Upd3 ch r)
                     (results (threads g t)) (current (threads g t))))) []
  | TUpd3 ch r s' x :
      at_ (threads g t) = Upd3 ch r -> upd3 ch r (shared g) = (s', x) ->
      tstep t g (mkSys s' (lock g)
        (upd_thread (threads g) t
           (mkThread (prog (threads g t)) (Rel (OutUpdate x))
                     (results (threads g t)) (current (threads g t))))) []
  (* leaving the with block; the lock belongs to whoever is inside *)
  | TRel x :
      at_ (threads g t) = Rel x ->
      tstep t g (mkSys (shared g) None
        (upd_thread (threads g) t
           (mkThread (prog (threads g t)) (Ret x)
                     (results (threads g t)) (current (threads g t))))) []
  | TRet x o :
      at_ (threads g t) = Ret x -> current (threads g t) = Some o ->
      tstep t g (mkSys (shared g) (lock g)
        (upd_thread (threads g) t
           (mkThread (prog (threads g t)) Idle
                     (results (threads g t) ++ [(o, x)]) None))) [ERet t].

  (** Executions: any interleaving of thread steps. *)
  Inductive exec (g0 : sys) : sys -> list event -> Prop :=
  | exec_nil : exec g0 g0 []
  | exec_step g g' tr evs t : exec g0 g tr -> tstep t g g' evs -> exec g0 g' (tr ++ evs).

  (** All threads idle, lock free, the cache in state [s], thread [t] going to call
      the operations [progs t]. *)
  Definition start (s : state) (progs : nat -> list op) : sys :=
    mkSys s None (fun t => mkThread (progs t) Idle [] None).

  Fixpoint count_inv (t : nat) (tr : list event) : nat :=
    match tr with
    | [] => 0
    | EInv t' :: r => (if Nat.eqb t t' then 1 else 0) + count_inv t r
    | _ :: r => count_inv t r
    end%nat.
  Fixpoint count_ret (t : nat) (tr : list event) : nat :=
    match tr with
    | [] => 0
    | ERet t' :: r => (if Nat.eqb t t' then 1 else 0) + count_ret t r
    | _ :: r => count_ret t r
    end%nat.

  (** Operations and results of thread [t] in a one-at-a-time execution. *)
  Definition of_thread {A} (t : nat) (l : list (nat * A)) : list A :=
    map snd (filter (fun p => Nat.eqb t (fst p)) l).

  (** [lin] is a one-at-a-time execution from [s]: each operation, in that order,
      gives exactly the result recorded with it. *)
  Definition serial (s : state) (lin : list (nat * (op * out))) : Prop :=
    snd (run key_of est_size size_of s (map (fun p => fst (snd p)) lin)) = map (fun p => snd (snd p)) lin.
  Definition serial_state (s : state) (lin : list (nat * (op * out))) : state :=
    fst (run key_of est_size size_of s (map (fun p => fst (snd p)) lin)).
End Conc.
