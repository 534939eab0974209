(** Model of the cache policies (src/earthkit/regrid/utils/caching.py:562-748), of the part of
    class Cache that follows the configuration (caching.py:751-813), of the manager's
    [_config_changed] and [connection] (caching.py:119-187) and of temporary directories
    (utils/temporary.py:60-75).

    One thread; the locks are the subject of Locks.v.  Not modelled: logging, repr; a policy
    object kept alive by the caller after the cache has dropped it. *)
From Verif Require Import PyBase Config.

Local Open Scope string_scope.
Local Open Scope list_scope.
Local Open Scope nat_scope.

(** A directory: one with a given name, or the [n]th one made by tempfile.mkdtemp, below a
    given parent ([None]: the system's directory for temporary files). *)
Inductive place := At (s : string) | Temp (parent : option string) (n : nat).

Section Policy.
  Variable Obj : Type.
  (** == between objects that are neither None, booleans, integers nor strings *)
  Variable obj_eqb : Obj -> Obj -> bool.
  (** os.path.expanduser *)
  Variable expand : string -> string.
  (** "if not os.path.exists(p): os.makedirs(p, exist_ok=True)": may raise *)
  Variable mkdir : string -> result unit.
  (** tempfile.mkdtemp(dir=d): may raise *)
  Variable mkdtemp : option string -> result unit.
  Notation value := (value Obj).
  Notation reader := (string -> result value).

  (** v == w *)
  Definition py_eq (v w : value) : bool :=
    match v, w with
    | VNone, VNone => true
    | VBool a, VBool b => Bool.eqb a b
    | VInt a, VInt b => Z.eqb a b
    | VBool a, VInt b | VInt b, VBool a => Z.eqb b (if a then 1 else 0)
    | VStr a, VStr b => String.eqb a b
    | VObj a, VObj b => obj_eqb a b
    | _, _ => false
    end.

  (** The three classes that from_config can choose (caching.py:744-748). *)
  Inductive pkind := POff | PTmp | PUser.

  (** A policy object: class, [_config], [_path] (UserCachePolicy) and [_dir] (TmpCachePolicy,
      and NoCachePolicy once asked for its directory). *)
  Record policy := mkPol {
    pk : pkind; pconf : list (string * value); ppath : option string;
    pdir : option (option string * nat) }.

  (** caching.py:563-569 [CACHE_KEYS] *)
  Definition cache_keys : list string :=
    ["cache-policy"; "user-cache-directory"; "temporary-cache-directory-root";
     "maximum-cache-disk-usage"; "maximum-cache-size"].
  (** caching.py:662, 693, 732 [OUTDATED_CHECK_KEYS] *)
  Definition outdated_keys (k : pkind) : list string :=
    match k with
    | POff => ["cache-policy"; "temporary-directory-root"]
    | PUser => ["cache-policy"; "user-cache-directory"]
    | PTmp => ["cache-policy"; "temporary-cache-directory-root"]
    end.
  (** caching.py:666, 702 [managed] *)
  Definition managed (p : policy) : bool := match pk p with POff => false | _ => true end.
  (** caching.py:663, 694, 733 [name] *)
  Definition pname (p : policy) : string :=
    match pk p with POff => "off" | PUser => "user" | PTmp => "temporary" end.

  (** [self._config.get(k)] *)
  Definition cget (c : list (string * value)) (k : string) : value :=
    match alookup k c with Some v => v | None => VNone end.

  (** caching.py:574-575 [CachePolicy.__init__] *)
  Fixpoint read (g : reader) (ks : list string) : result (list (string * value)) :=
    match ks with
    | [] => Ok []
    | k :: r => v <- g k ;; rest <- read g r ;; Ok ((k, v) :: rest)
    end.

  (** caching.py:590-591 [outdated] *)
  Fixpoint any_differs (g : reader) (c : list (string * value)) (ks : list string) : result bool :=
    match ks with
    | [] => Ok false
    | k :: r => v <- g k ;; if py_eq (cget c k) v then any_differs g c r else Ok true
    end.
  Definition outdated (g : reader) (p : policy) : result bool :=
    any_differs g (pconf p) (outdated_keys (pk p)).

  (** caching.py:593-600 [update]: the new [_config] (also when a read raises) and "changed" *)
  Fixpoint update_keys (g : reader) (out ks : list string) (c : list (string * value)) (changed : bool)
    : list (string * value) * result bool :=
    match ks with
    | [] => (c, Ok changed)
    | k :: r =>
        match g k with
        | Ok v =>
            let changed' := if py_eq (cget c k) v then changed else true in
            let c' := if existsb (String.eqb k) out then c else aset k v c in
            update_keys g out r c' changed'
        | Raise e => (c, Raise e)
        | OutOfFuel => (c, OutOfFuel)
        end
    end.
  Definition update (g : reader) (p : policy) : policy * result bool :=
    let '(c, r) := update_keys g (outdated_keys (pk p)) cache_keys (pconf p) false in
    (mkPol (pk p) c (ppath p) (pdir p), r).

  (** caching.py:679-686, 711-718: the limits *)
  Definition maximum_cache_size (p : policy) : value :=
    if managed p then cget (pconf p) "maximum-cache-size" else VNone.
  Definition maximum_cache_disk_usage (p : policy) : value :=
    if managed p then cget (pconf p) "maximum-cache-disk-usage" else VNone.
  Definition is_none (v : value) : bool := match v with VNone => true | _ => false end.
  Definition is_cache_size_managed (p : policy) : bool :=
    negb (is_none (maximum_cache_size p)) || negb (is_none (maximum_cache_disk_usage p)).

  (** The manager thread: its copy of the policy ([None]: EmptyCachePolicy) and the directory
      of the database it is connected to. *)
  Record manager := mkMgr { mpolicy : option policy; mconn : option place }.

  (** class Cache.  Ghost fields: the number of temporary directories made so far, those that
      still exist, and the directories that had to exist or be made. *)
  Record cache := mkCache {
    cpolicy : option policy; cmanager : option manager;
    made : nat; live : list (option string * nat); needed : list string }.

  (** caching.py:759-766 *)
  Definition fresh : cache := mkCache None None 0 [] [].

  Definition with_policy c p := mkCache p (cmanager c) (made c) (live c) (needed c).
  Definition with_manager c m := mkCache (cpolicy c) m (made c) (live c) (needed c).

  (** os.path.exists and os.makedirs on a value: a TypeError unless a str.  Simplified: an object
      is not a path (set() stores the str of one; a YAML file cannot hold one). *)
  Definition make_path (v : value) (c : cache) : cache * result string :=
    match v with
    | VStr s => let c' := mkCache (cpolicy c) (cmanager c) (made c) (live c) (needed c ++ [expand s]) in
                (c', _ <- mkdir (expand s) ;; Ok (expand s))
    | _ => (c, Raise TypeError)
    end.

  (** temporary.py:60-75 [temp_directory], with [_expand_path] (caching.py:630-633) *)
  Definition temp_directory (v : value) (c : cache) : cache * result (option string * nat) :=
    let go (d : option string) :=
      match (_ <- match d with Some s => mkdir s | None => Ok tt end ;; mkdtemp d) with
      | Ok _ => (mkCache (cpolicy c) (cmanager c) (S (made c)) (live c ++ [(d, made c)]) (needed c),
                 Ok (d, made c))
      | Raise e => (c, Raise e)
      | OutOfFuel => (c, OutOfFuel)
      end in
    match v with
    | VNone => go None
    | VStr s => if String.eqb (expand s) "" then (c, Raise ValueError) else go (Some (expand s))
    | _ => (c, Raise TypeError)
    end.

  (** The three constructors: caching.py:574 (off), 696-700 (user), 735-738 (temporary, which
      calls that of user) *)
  Definition construct (g : reader) (k : pkind) (c : cache) : cache * result policy :=
    match read g cache_keys with
    | Raise e => (c, Raise e)
    | OutOfFuel => (c, OutOfFuel)
    | Ok cf =>
        match k with
        | POff => (c, Ok (mkPol POff cf None None))
        | _ =>
            match make_path (cget cf "user-cache-directory") c with
            | (c1, Raise e) => (c1, Raise e)
            | (c1, OutOfFuel) => (c1, OutOfFuel)
            | (c1, Ok path) =>
                match k with
                | PTmp =>
                    match temp_directory (cget cf "temporary-cache-directory-root") c1 with
                    | (c2, Ok d) => (c2, Ok (mkPol PTmp cf (Some path) (Some d)))
                    | (c2, Raise e) => (c2, Raise e)
                    | (c2, OutOfFuel) => (c2, OutOfFuel)
                    end
                | _ => (c1, Ok (mkPol k cf (Some path) None))
                end
            end
        end
    end.

  (** caching.py:581-588 [from_config].  Simplified: an unhashable object gives
      NotImplementedError too. *)
  Definition from_config (g : reader) (c : cache) : cache * result policy :=
    match g "cache-policy" with
    | Ok (VStr "off") => construct g POff c
    | Ok (VStr "temporary") => construct g PTmp c
    | Ok (VStr "user") => construct g PUser c
    | Ok _ => (c, Raise NotImplementedError)
    | Raise e => (c, Raise e)
    | OutOfFuel => (c, OutOfFuel)
    end.

  (** caching.py:669-674, 705, 740 [directory] *)
  Definition policy_directory (p : policy) (c : cache) : cache * policy * result place :=
    match pk p with
    | PUser => (c, p, match ppath p with Some s => Ok (At s) | None => Raise AttributeError end)
    | PTmp => (c, p, match pdir p with Some (d, n) => Ok (Temp d n) | None => Raise AttributeError end)
    | POff =>
        match pdir p with
        | Some (d, n) => (c, p, Ok (Temp d n))
        | None =>
            match temp_directory (cget (pconf p) "temporary-directory-root") c with
            | (c', Ok (d, n)) => (c', mkPol POff (pconf p) (ppath p) (Some (d, n)), Ok (Temp d n))
            | (c', Raise e) => (c', p, Raise e)
            | (c', OutOfFuel) => (c', p, OutOfFuel)
            end
        end
    end.
  (** Where a managed policy keeps its files. *)
  Definition home_of (p : policy) : option place :=
    match pk p with
    | PUser => option_map At (ppath p)
    | _ => option_map (fun d => Temp (fst d) (snd d)) (pdir p)
    end.

  (** What [_check_cache_size] (caching.py:492-511, modelled in Disk.v) does here: whether it
      opened the database, and its outcome. *)
  Variable check : policy -> bool * result unit.

  (** caching.py:183-187, run by the manager thread on a deep copy of the policy
      (caching.py:811-813) *)
  Definition manager_config_changed (p : policy) : manager * result unit :=
    let '(opened, r) := check p in
    (mkMgr (Some p) (if opened then home_of p else None), r).
  (** caching.py:137-141 [connection] *)
  Definition connection (m : manager) : manager * option place :=
    match mpolicy m, mconn m with
    | Some p, None => if managed p then (mkMgr (mpolicy m) (home_of p), home_of p) else (m, None)
    | _, c => (m, c)
    end.

  (** caching.py:811-813 *)
  Definition call_manager_config_changed (c : cache) : cache * result unit :=
    match cmanager c, cpolicy c with
    | Some _, Some p => let '(m, r) := manager_config_changed p in (with_manager c (Some m), r)
    | _, _ => (c, Raise AttributeError)
    end.

  (** caching.py:776-785 [_make_policy] *)
  Definition make_policy (g : reader) (c : cache) : cache * result unit :=
    match cpolicy c with
    | Some _ => (c, Ok tt)
    | None =>
        match from_config g c with
        | (c1, Raise e) => (c1, Raise e)
        | (c1, OutOfFuel) => (c1, OutOfFuel)
        | (c1, Ok p) =>
            let c2 := with_policy c1 (Some p) in
            if managed p then
              match cmanager c2 with
              | Some _ => call_manager_config_changed c2
              | None =>
                  (* CacheManager(): EmptyCachePolicy() reads the same options *)
                  match read g cache_keys with
                  | Ok _ => call_manager_config_changed (with_manager c2 (Some (mkMgr None None)))
                  | Raise e => (c2, Raise e)
                  | OutOfFuel => (c2, OutOfFuel)
                  end
              end
            else (c2, Ok tt)
        end
    end.

  (** caching.py:768-774 [policy] *)
  Definition get_policy (g : reader) (c : cache) : cache * result policy :=
    match make_policy g c with
    | (c', Ok _) => (c', match cpolicy c' with Some p => Ok p | None => Raise AttributeError end)
    | (c', Raise e) => (c', Raise e)
    | (c', OutOfFuel) => (c', OutOfFuel)
    end.

  (** [self._policy = None]: the last reference to the policy goes, and with it its temporary
      directory (tempfile.TemporaryDirectory's finalizer; the manager's deep copy does not own
      the directory). *)
  Definition drop_policy (c : cache) : cache :=
    match cpolicy c with
    | Some (mkPol _ _ _ (Some (_, n))) =>
        mkCache None (cmanager c) (made c) (filter (fun d => negb (Nat.eqb (snd d) n)) (live c)) (needed c)
    | _ => with_policy c None
    end.

  (** caching.py:787-797 [_config_changed] *)
  Definition config_changed (g : reader) (c : cache) : cache * result unit :=
    match g "cache-policy" with
    | Ok (VStr _) =>
        match get_policy g c with
        | (c1, Raise e) => (c1, Raise e)
        | (c1, OutOfFuel) => (c1, OutOfFuel)
        | (c1, Ok p) =>
            match outdated g p with
            | Raise e => (c1, Raise e)
            | OutOfFuel => (c1, OutOfFuel)
            | Ok true => make_policy g (drop_policy c1)
            | Ok false =>
                match update g p with
                | (p', Ok changed) =>
                    let c2 := with_policy c1 (Some p') in
                    if changed && managed p' then call_manager_config_changed c2 else (c2, Ok tt)
                | (p', Raise e) => (with_policy c1 (Some p'), Raise e)
                | (p', OutOfFuel) => (with_policy c1 (Some p'), OutOfFuel)
                end
            end
        end
    | Ok _ => (c, Raise TypeError)  (* line 788: str + something else *)
    | Raise e => (c, Raise e)
    | OutOfFuel => (c, OutOfFuel)
    end.

  (** caching.py:919-928 [directory] *)
  Definition directory (g : reader) (c : cache) : cache * result place :=
    match get_policy g c with
    | (c1, Ok p) => let '(c2, p', r) := policy_directory p c1 in (with_policy c2 (Some p'), r)
    | (c1, Raise e) => (c1, Raise e)
    | (c1, OutOfFuel) => (c1, OutOfFuel)
    end.

  (** The database a request to the manager goes to, if it goes anywhere (caching.py:799-809
      [_call_manager] and the manager's [connection]). *)
  Definition database (g : reader) (c : cache) : cache * result (option place) :=
    match get_policy g c with
    | (c1, Ok p) =>
        if managed p then
          match cmanager c1 with
          | Some m => let '(m', d) := connection m in (with_manager c1 (Some m'), Ok d)
          | None => (c1, Ok None)
          end
        else (c1, Ok None)
    | (c1, Raise e) => (c1, Raise e)
    | (c1, OutOfFuel) => (c1, OutOfFuel)
    end.
  (** The limits the manager enforces at the next check (caching.py:492-511). *)
  Definition enforced (c : cache) : option (value * value) :=
    match cmanager c with
    | Some (mkMgr (Some p) _) => if managed p then Some (maximum_cache_size p, maximum_cache_disk_usage p) else None
    | _ => None
    end.
End Policy.

Arguments mkPol {Obj}.
Arguments pk {Obj}.
Arguments pconf {Obj}.
Arguments ppath {Obj}.
Arguments pdir {Obj}.
Arguments mkMgr {Obj}.
Arguments mpolicy {Obj}.
Arguments mconn {Obj}.
Arguments mkCache {Obj}.
Arguments cpolicy {Obj}.
Arguments cmanager {Obj}.
Arguments made {Obj}.
Arguments live {Obj}.
Arguments needed {Obj}.
Arguments fresh {Obj}.
Arguments managed {Obj}.
Arguments pname {Obj}.
Arguments enforced {Obj}.
