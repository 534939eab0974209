(** Threads that change the cache settings (CONFIG.set, then the callback Cache._config_changed,
    utils/caching.py:787-797, with the policies of 562-748).

    Every reading of an option of CONFIG, every writing of an option of a policy object and every
    taking of a lock is a step of its own; the steps of the threads interleave.

    Simplifications: every policy name CONFIG can have is known and the directories can be made; the
    policy has been made before (first use: Policy.v); temporary-directory-root is never set
    (C52_off_root_refuted says what happens then); what the manager does when told is Disk.v, that it
    does it while the caller waits holding _manager_lock is Manager.v; deepcopy is one step, and so is the comparison of an option of an object with
    that of CONFIG.
    Temporary settings are in ConfigConc.v. *)
From Verif Require Import PyBase.
Local Open Scope nat_scope.

(** caching.py:563-569 CACHE_KEYS *)
Inductive key := Kpol | Kuser | Ktmp | Kdisk | Ksize.
Definition CACHE_KEYS : list key := [Kpol; Kuser; Ktmp; Kdisk; Ksize].
Definition key_eqb (a b : key) : bool :=
  match a, b with
  | Kpol, Kpol | Kuser, Kuser | Ktmp, Ktmp | Kdisk, Kdisk | Ksize, Ksize => true
  | _, _ => false
  end.

(** caching.py:661-748 the classes of policies *)
Inductive kind := Off | User | Tmp.
(** OUTDATED_CHECK_KEYS, caching.py:662, 693, 732 *)
Definition checked (c : kind) : list key :=
  match c with Off => [Kpol] | User => [Kpol; Kuser] | Tmp => [Kpol; Ktmp] end.
(** managed(), 666, 702 *)
Definition managed (c : kind) : bool := match c with Off => false | _ => true end.
Definition is_checked (c : kind) (k : key) : bool := existsb (key_eqb k) (checked c).

Section PolicyConc.
  Variable V : Type.
  Variable same : V -> V -> bool.       (* == on values of options *)
  Variable named : V -> kind.           (* _cache_policies, 744-748 *)

  Definition cfg := key -> V.
  Definition cupd (c : cfg) (k : key) (v : V) : cfg := fun x => if key_eqb x k then v else c x.

  (** A policy object: its class and its _config (574-575). *)
  Record obj := mkObj { klass : kind; conf_of : cfg }.
  Definition set_obj (h : nat -> obj) (i : nat) (o : obj) : nat -> obj := fun j => if Nat.eqb j i then o else h j.

  (** Where a thread is. *)
  Inductive place :=
  | Rest                                               (* between two changes *)
  | Setting (a : list (key * V))                       (* assignments to CONFIG; then 789: self.policy *)
  | Out1 (i : nat) (ks : list key)                     (* 789: outdated() of object i, keys to be compared *)
  | WantP                                              (* 790: waits for _policy_lock *)
  | Out2 (ks : list key)                               (* 792: outdated() of self._policy *)
  | Build (c : kind) (ks : list key) (acc : cfg)       (* 793, 778: the new object reads its options (575) *)
  | WantM                                              (* 781: waits for _manager_lock *)
  | TellP                                              (* 785 *)
  | Get2                                               (* 795: self.policy *)
  | Cmp (i : nat) (ks : list key) (ch : bool)          (* 596-597: compare the next key *)
  | Fetch (i : nat) (k : key) (ks : list key) (ch : bool)              (* 599: read CONFIG *)
  | Store (i : nat) (k : key) (v : V) (ks : list key) (ch : bool)      (* 599: write _config *)
  | Get3                                               (* 795: self.policy.managed() *)
  | WantM2                                             (* 796 *)
  | Tell2.                                             (* 797 *)

  Definition change := list (key * V).                 (* assignments of one CONFIG.set and one callback; a second callback
                                                          (config.py:set with keywords) is a change without assignments *)
  Record thread := mkThr { at_ : place; todo : list change }.

  Record sys := mkSys {
    conf : cfg;                          (* CONFIG *)
    heap : nat -> obj;
    next : nat;                          (* objects made so far *)
    cur : option nat;                    (* self._policy *)
    told : option (nat * obj);           (* the manager's copy, and of which object *)
    plock : option nat;
    mlock : option nat;
    thr : nat -> thread;
    faults : nat }.                      (* AttributeErrors from the manager told None (C86) *)

  Definition put (g : sys) (t : nat) (p : place) : nat -> thread :=
    fun x => if Nat.eqb x t then mkThr p (todo (thr g t)) else thr g x.
  Definition goes (g : sys) (t : nat) (p : place) : sys :=
    mkSys (conf g) (heap g) (next g) (cur g) (told g) (plock g) (mlock g) (put g t p) (faults g).

  (** self.policy (768-774): waits while _policy_lock is held. *)
  Definition with_cur (g : sys) (f : nat -> sys) : sys :=
    match plock g, cur g with None, Some i => f i | _, _ => g end.

  Definition step (t : nat) (g : sys) : sys :=
    match at_ (thr g t) with
    | Rest =>
        match todo (thr g t) with
        | [] => g
        | c :: cs =>
            mkSys (conf g) (heap g) (next g) (cur g) (told g) (plock g) (mlock g)
              (fun x => if Nat.eqb x t then mkThr (Setting c) cs else thr g x) (faults g)
        end
    | Setting ((k, v) :: a) =>
        mkSys (cupd (conf g) k v) (heap g) (next g) (cur g) (told g) (plock g) (mlock g) (put g t (Setting a)) (faults g)
    | Setting [] => with_cur g (fun i => goes g t (Out1 i (checked (klass (heap g i)))))
    | Out1 i (k :: ks) =>
        if same (conf_of (heap g i) k) (conf g k) then goes g t (Out1 i ks) else goes g t WantP
    | Out1 i [] => goes g t Get2
    | WantP =>
        match plock g, cur g with
        | None, Some i =>
            mkSys (conf g) (heap g) (next g) (cur g) (told g) (Some t) (mlock g)
              (put g t (Out2 (checked (klass (heap g i))))) (faults g)
        | _, _ => g
        end
    | Out2 (k :: ks) =>
        match cur g with
        | Some i =>
            if same (conf_of (heap g i) k) (conf g k) then goes g t (Out2 ks)
            else (* 793: self._policy = None; 778, 583-585: the name is read *)
              mkSys (conf g) (heap g) (next g) None (told g) (plock g) (mlock g)
                (put g t (Build (named (conf g Kpol)) CACHE_KEYS (conf g))) (faults g)
        | None => g
        end
    | Out2 [] => mkSys (conf g) (heap g) (next g) (cur g) (told g) None (mlock g) (put g t Rest) (faults g)
    | Build c (k :: ks) acc => goes g t (Build c ks (cupd acc k (conf g k)))
    | Build c [] acc =>
        let h := set_obj (heap g) (next g) (mkObj c acc) in
        if managed c then
          mkSys (conf g) h (S (next g)) (Some (next g)) (told g) (plock g) (mlock g) (put g t WantM) (faults g)
        else
          mkSys (conf g) h (S (next g)) (Some (next g)) (told g) None (mlock g) (put g t Rest) (faults g)
    | WantM =>
        match mlock g with
        | None => mkSys (conf g) (heap g) (next g) (cur g) (told g) (plock g) (Some t) (put g t TellP) (faults g)
        | Some _ => g
        end
    | TellP =>
        match cur g with
        | Some i => mkSys (conf g) (heap g) (next g) (cur g) (Some (i, heap g i)) None None (put g t Rest) (faults g)
        | None => g
        end
    | Get2 => with_cur g (fun i => goes g t (Cmp i CACHE_KEYS false))
    | Cmp i (k :: ks) ch =>
        let ch := if same (conf_of (heap g i) k) (conf g k) then ch else true in
        if is_checked (klass (heap g i)) k then goes g t (Cmp i ks ch) else goes g t (Fetch i k ks ch)
    | Cmp i [] ch => if ch then goes g t Get3 else goes g t Rest
    | Fetch i k ks ch => goes g t (Store i k (conf g k) ks ch)
    | Store i k v ks ch =>
        mkSys (conf g) (set_obj (heap g) i (mkObj (klass (heap g i)) (cupd (conf_of (heap g i)) k v))) (next g)
          (cur g) (told g) (plock g) (mlock g) (put g t (Cmp i ks ch)) (faults g)
    | Get3 => with_cur g (fun i => if managed (klass (heap g i)) then goes g t WantM2 else goes g t Rest)
    | WantM2 =>
        match mlock g with
        | None => mkSys (conf g) (heap g) (next g) (cur g) (told g) (plock g) (Some t) (put g t Tell2) (faults g)
        | Some _ => g
        end
    | Tell2 =>
        match cur g with
        | Some i => mkSys (conf g) (heap g) (next g) (cur g) (Some (i, heap g i)) (plock g) None (put g t Rest) (faults g)
        | None => mkSys (conf g) (heap g) (next g) (cur g) None (plock g) None (put g t Rest) (S (faults g))
        end
    end.

  Definition run (sched : list nat) (g : sys) : sys := fold_left (fun g t => step t g) sched g.

  (** All threads between changes, the policy made from the configuration and told to the manager. *)
  Definition begin (c : cfg) (progs : nat -> list change) : sys :=
    let o := mkObj (named (c Kpol)) c in
    mkSys c (fun _ => o) 1 (Some 0) (if managed (klass o) then Some (0, o) else None) None None
      (fun t => mkThr Rest (progs t)) 0.

  (** Nobody is telling the cache about a change. *)
  Definition ended (g : sys) : Prop := forall t, at_ (thr g t) = Rest.
End PolicyConc.
Arguments Rest {V}.
