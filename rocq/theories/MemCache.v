(** Model of src/earthkit/regrid/utils/memcache.py: the in-memory cache of
    interpolation weights.

    Not modelled here: the lock (see MemCacheConc.v), logging, the [last]
    timestamp of an item (written at line 247, never read). *)
From Verif Require Import PyBase.

(** Byte-wise "less or equal" on strings; keys are ASCII hex digests, for which it
    is Python's string order. *)
Definition str_leb (a b : string) : bool := String.leb a b.

Section MemCache.
  (** [Req]: the positional arguments of [get] (two grid specifications and a
      method); [Ent]: an index entry; [W]: what loading an entry gives, i.e. the
      pair (matrix, output shape). *)
  Variables Req Ent W : Type.
  (** hash.py:14-20 [make_sha(args)] at memcache.py:231. *)
  Variable key_of : Req -> string.
  (** memcache.py:39-45 [estimate_matrix_size]: entry["_raw"]["memory"], 0 if
      absent.  Simplified: always an integer. *)
  Variable est_size : Ent -> Z.
  (** matrix.py:11-20 [matrix_memory_size] (the [size_fn] of memcache.py:365),
      applied to the matrix. *)
  Variable size_of : W -> Z.

  (** The three callables given to [get] (db.py:469-477).  [i_find] is
      [find_entry]; [i_load] is [create_from_entry] on an entry. *)
  Record inventory := mkInv {
    i_find : Req -> result (option Ent);
    i_load : Ent -> result W }.

  (** Calls made to the inventory, recorded so that statements can speak about
      them. *)
  Inductive call := CFind (r : Req) | CLoad (e : Ent).

  (** db.py:482-486 [_create_matrix_from_entry]: (None, None) is [None]. *)
  Definition create_from_entry (i : inventory) (oe : option Ent) : result (option W) :=
    match oe with
    | None => Ok None
    | Some e => w <- i_load i e ;; Ok (Some w)
    end.

  (** db.py:479-480 [_create_matrix], the [create] callable. *)
  Definition create (i : inventory) (r : Req) : result (option W) :=
    oe <- i_find i r ;; create_from_entry i oe.

  (** Calls made by [create]. *)
  Definition create_calls (i : inventory) (r : Req) : list call :=
    CFind r :: match i_find i r with Ok (Some e) => [CLoad e] | _ => [] end.

  (** memcache.py:24 [_MemoryItem] (without [last]). *)
  Record item := mkItem { it_data : W; it_size : Z }.

  (** memcache.py:78-169: the four policies. *)
  Inductive policy := POff | PUnlimited | PLru | PLargest.

  (** memcache.py:172 [CACHE_POLICIES] and 63-67 [make]. *)
  Definition make_policy (name : string) : option policy :=
    if String.eqb name "off" then Some POff
    else if String.eqb name "unlimited" then Some PUnlimited
    else if String.eqb name "lru" then Some PLru
    else if String.eqb name "largest" then Some PLargest
    else None.

  Definition policy_name (p : policy) : string :=
    match p with
    | POff => "off" | PUnlimited => "unlimited" | PLru => "lru" | PLargest => "largest"
    end%string.

  (** memcache.py:88,106,134,165 *)
  Definition has_cache (p : policy) : bool :=
    match p with POff => false | _ => true end.
  (** memcache.py:91,109,137,168 *)
  Definition has_limit (p : policy) : bool :=
    match p with PLru | PLargest => true | _ => false end.

  (** memcache.py:201-212: the fields of a MemoryCache. *)
  Record state := mkState {
    items : list (string * item);   (* OrderedDict, oldest first *)
    max_mem : option Z;
    curr_mem : Z;
    hits : Z;
    misses : Z;
    strict : bool;
    pol : policy }.

  Definition set_items (s : state) l c :=
    mkState l (max_mem s) c (hits s) (misses s) (strict s) (pol s).

  (** memcache.py:340-342 [_curr_mem] *)
  Definition curr_mem_of (l : list (string * item)) : Z :=
    zsum (map (fun p => it_size (snd p)) l).

  (** memcache.py:333-338 [_clear] *)
  Definition clear_ (s : state) : state :=
    mkState [] (max_mem s) 0 0 0 (strict s) (pol s).

  (** memcache.py:81-83 / 98-100 / 116-120 / 144-148 [check] of policy [p].
      [None <= 0] is a TypeError; the None test after it is unreachable. *)
  Definition check (p : policy) (s : state) : state * result unit :=
    match p with
    | POff => (mkState (items s) (Some 0) (curr_mem s) (hits s) (misses s) false (pol s), Ok tt)
    | PUnlimited =>
        (mkState (items s) None (curr_mem s) (hits s) (misses s) false (pol s), Ok tt)
    | PLru | PLargest =>
        (s, match max_mem s with
            | None => Raise TypeError
            | Some m => if m <=? 0 then Raise ValueError else Ok tt
            end)
    end.

  (** memcache.py:122-132 [LRUPolicy.reduce]: pop the oldest while
      curr_mem >= target. *)
  Fixpoint lru_reduce (l : list (string * item)) (curr target : Z)
    : list (string * item) * Z :=
    match l with
    | [] => ([], curr)
    | (_, it) :: rest =>
        if curr >=? target then lru_reduce rest (curr - it_size it) target
        else (l, curr)
    end.

  (** memcache.py:156 [max((v.size, k) ...)]: tuples compare lexicographically. *)
  Definition pair_leb (a b : Z * string) : bool :=
    (fst a <? fst b) || ((fst a =? fst b) && str_leb (snd a) (snd b)).

  Fixpoint max_pair (a : Z * string) (l : list (string * item)) : Z * string :=
    match l with
    | [] => a
    | (k, it) :: rest =>
        max_pair (if pair_leb a (it_size it, k) then (it_size it, k) else a) rest
    end.

  Definition largest (l : list (string * item)) : option (Z * string) :=
    match l with
    | [] => None
    | (k, it) :: rest => Some (max_pair (it_size it, k) rest)
    end.

  (** memcache.py:150-163 [LargestPolicy.reduce].  Each round deletes one item,
      so [length l] rounds suffice. *)
  Fixpoint largest_reduce (fuel : nat) (l : list (string * item)) (curr target : Z)
    : list (string * item) * Z :=
    match fuel with
    | O => (l, curr)
    | S n =>
        match largest l with
        | None => (l, curr)
        | Some (sz, k) =>
            if curr >=? target then
              let c := curr - sz in
              let c := if c <? 0 then 0 else c in
              largest_reduce n (aremove k l) c target
            else (l, curr)
        end
    end.

  (** memcache.py:316-326 [_reduce].  [target] is the keyword argument; None means
      max_mem.  Unlimited ignores the target (line 102-104). *)
  Definition reduce_ (target : option Z) (s : state) : state * result unit :=
    match check (pol s) s with
    | (s1, Raise e) => (s1, Raise e)
    | (s1, OutOfFuel) => (s1, OutOfFuel)
    | (s1, Ok _) =>
        if negb (has_cache (pol s1)) then (clear_ s1, Ok tt)
        else
          let t := match target with None => max_mem s1 | Some t => Some t end in
          let c := curr_mem_of (items s1) in
          match pol s1, t with
          | PLru, Some t => let '(l, c') := lru_reduce (items s1) c t in
                            (set_items s1 l c', Ok tt)
          | PLargest, Some t =>
              let '(l, c') := largest_reduce (List.length (items s1)) (items s1) c t in
              (set_items s1 l c', Ok tt)
          | PUnlimited, _ => (set_items s1 (items s1) c, Ok tt)
          | _, _ => (set_items s1 (items s1) c, Raise TypeError)
          end
    end.

  (** memcache.py:258-282 [_create_with_pre_check]; [create_from_entry] is called
      last.  The first component of the result is the state after the possible
      eviction, the second the calls made. *)
  Definition create_with_pre_check (i : inventory) (r : Req) (s : state)
    : state * list call * result (option W) :=
    match i_find i r with
    | Raise e => (s, [CFind r], Raise e)
    | OutOfFuel => (s, [CFind r], OutOfFuel)
    | Ok None => (s, [CFind r], Ok None)
    | Ok (Some e) =>
        match max_mem s with
        | None => (s, [CFind r], Raise TypeError)        (* None - int, line 266 *)
        | Some m =>
            let capacity := m - curr_mem s in
            let est := est_size e in
            let target := m - est in
            let '(s1, rr) :=
              if (est >? capacity) && (est <=? m) then reduce_ (Some target) s
              else (s, Ok tt) in
            match rr with
            | Raise ex => (s1, [CFind r], Raise ex)
            | OutOfFuel => (s1, [CFind r], OutOfFuel)
            | Ok _ =>
                if strict s1 && (m - curr_mem s1 <? est)
                then (s1, [CFind r], Raise WeightsTooLarge)
                else (s1, [CFind r; CLoad e], create_from_entry i (Some e))
            end
        end
    end.

  (** OrderedDict.move_to_end (memcache.py:235). *)
  Definition move_to_end (k : string) (it : item) (l : list (string * item)) :=
    aremove k l ++ [(k, it)].

  (** memcache.py:223-251 [get].  Result: new state, calls made to the inventory,
      outcome. *)
  Definition get (i : inventory) (r : Req) (s : state)
    : state * list call * result (option W) :=
    if negb (has_cache (pol s)) then (s, create_calls i r, create i r)
    else
      let key := key_of r in
      match alookup key (items s) with
      | Some it =>
          (mkState (move_to_end key it (items s)) (max_mem s) (curr_mem s)
                   (hits s + 1) (misses s) (strict s) (pol s),
           [], Ok (Some (it_data it)))
      | None =>
          let '(s1, calls, data) :=
            if has_limit (pol s) then create_with_pre_check i r s
            else (s, create_calls i r, create i r) in
          match data with
          | Raise e => (s1, calls, Raise e)
          | OutOfFuel => (s1, calls, OutOfFuel)
          | Ok None =>
              (mkState (items s1) (max_mem s1) (curr_mem s1) (hits s1) (misses s1 + 1)
                       (strict s1) (pol s1), calls, Ok None)
          | Ok (Some w) =>
              let it := mkItem w (size_of w) in
              let s2 := mkState (aset key it (items s1)) (max_mem s1)
                                (curr_mem s1 + it_size it) (hits s1) (misses s1 + 1)
                                (strict s1) (pol s1) in
              match reduce_ None s2 with
              | (s3, Ok _) => (s3, calls, Ok (Some w))
              | (s3, Raise e) => (s3, calls, Raise e)
              | (s3, OutOfFuel) => (s3, calls, OutOfFuel)
              end
          end
      end.

  (** The three configuration values read by [update] (memcache.py:176-178).
      Simplified: the strict flag is reduced to its truth value. *)
  Record mconf := mkConf { c_max : option Z; c_strict : bool; c_policy : string }.

  Definition optZ_eqb (a b : option Z) : bool :=
    match a, b with
    | None, None => true | Some x, Some y => x =? y | _, _ => false
    end.

  (** memcache.py:284-314 [update].  The three list elements are evaluated in
      order, whatever the earlier ones return. *)
  Definition update (c : mconf) (s : state) : state * result unit :=
    let ch1 := negb (optZ_eqb (max_mem s) (c_max c)) in
    let s1 := mkState (items s) (if ch1 then c_max c else max_mem s) (curr_mem s)
                      (hits s) (misses s) (strict s) (pol s) in
    let ch2 := negb (Bool.eqb (strict s1) (c_strict c)) in
    let s2 := mkState (items s1) (max_mem s1) (curr_mem s1) (hits s1) (misses s1)
                      (if ch2 then c_strict c else strict s1) (pol s1) in
    let '(s3, r3) :=
      if String.eqb (policy_name (pol s2)) (c_policy c) then (s2, Ok false)
      else
        match make_policy (c_policy c) with
        | None => (s2, Raise ValueError)
        | Some p =>
            match check p s2 with        (* MemoryCachePolicy.__init__, line 51-53 *)
            | (s', Ok _) =>
                (mkState (items s') (max_mem s') (curr_mem s') (hits s') (misses s')
                         (strict s') p, Ok true)
            | (s', Raise e) => (s', Raise e)
            | (s', OutOfFuel) => (s', OutOfFuel)
            end
        end in
    match r3 with
    | Raise e => (s3, Raise e)
    | OutOfFuel => (s3, OutOfFuel)
    | Ok ch3 => if ch1 || ch2 || ch3 then reduce_ None s3 else (s3, Ok tt)
    end.

  (** memcache.py:328-331 [clear] *)
  Definition clear (s : state) : state := clear_ s.

  (** memcache.py:25, 344-354 [info] *)
  Record info_t := mkInfo {
    f_hits : Z; f_misses : Z; f_maxsize : option Z; f_currsize : Z; f_count : Z;
    f_policy : string }.
  Definition info (s : state) : info_t :=
    mkInfo (hits s) (misses s) (max_mem s) (curr_mem s)
           (Z.of_nat (List.length (items s))) (policy_name (pol s)).

  (** memcache.py:180-221 [__init__] with its defaults, before [self.update()]. *)
  Definition fresh : state := mkState [] (Some (300 * 1024 * 1024)) 0 0 0 false PLargest.
  (** memcache.py:221: the configuration is read once at the end of [__init__]. *)
  Definition init (c : mconf) : state * result unit := update c fresh.

  (** Operations of the outside world on the cache. *)
  Inductive op := OpGet (i : inventory) (r : Req) | OpUpdate (c : mconf) | OpClear | OpInfo.
  Inductive out :=
  | OutGet (calls : list call) (res : result (option W))
  | OutUpdate (res : result unit)
  | OutUnit
  | OutInfo (f : info_t).

  Definition step (s : state) (o : op) : state * out :=
    match o with
    | OpGet i r => let '(s', cl, d) := get i r s in (s', OutGet cl d)
    | OpUpdate c => let '(s', d) := update c s in (s', OutUpdate d)
    | OpClear => (clear s, OutUnit)
    | OpInfo => (s, OutInfo (info s))
    end.

  (** Run a history; outputs in order. *)
  Fixpoint run (s : state) (ops : list op) : state * list out :=
    match ops with
    | [] => (s, [])
    | o :: r => let '(s1, x) := step s o in let '(s2, xs) := run s1 r in (s2, x :: xs)
    end.
End MemCache.

Arguments mkInv {Req Ent W} _ _.
Arguments i_find {Req Ent W} _ _.
Arguments i_load {Req Ent W} _ _.
Arguments CFind {Req Ent} _.
Arguments CLoad {Req Ent} _.
Arguments create {Req Ent W} _ _.
Arguments create_from_entry {Req Ent W} _ _.
Arguments create_calls {Req Ent W} _ _.
Arguments mkItem {W} _ _.
Arguments it_data {W} _.
Arguments it_size {W} _.
Arguments mkState {W} _ _ _ _ _ _ _.
Arguments items {W} _.
Arguments max_mem {W} _.
Arguments curr_mem {W} _.
Arguments hits {W} _.
Arguments misses {W} _.
Arguments strict {W} _.
Arguments pol {W} _.
Arguments set_items {W} _ _ _.
Arguments curr_mem_of {W} _.
Arguments clear_ {W} _.
Arguments check {W} _ _.
Arguments lru_reduce {W} _ _ _.
Arguments max_pair {W} _ _.
Arguments largest {W} _.
Arguments largest_reduce {W} _ _ _ _.
Arguments reduce_ {W} _ _.
Arguments create_with_pre_check {Req Ent W} _ _ _ _.
Arguments move_to_end {W} _ _ _.
Arguments get {Req Ent W} _ _ _ _ _ _.
Arguments update {W} _ _.
Arguments clear {W} _.
Arguments info {W} _.
Arguments fresh {W}.
Arguments init {W} _.
Arguments OpGet {Req Ent W} _ _.
Arguments OpUpdate {Req Ent W} _.
Arguments OpClear {Req Ent W}.
Arguments OpInfo {Req Ent W}.
Arguments OutGet {Req Ent W} _ _.
Arguments OutUpdate {Req Ent W} _.
Arguments OutUnit {Req Ent W}.
Arguments OutInfo {Req Ent W} _.
Arguments step {Req Ent W} _ _ _ _ _.
Arguments run {Req Ent W} _ _ _ _ _.
