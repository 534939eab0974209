(** Remote inventories: UrlAccessor (backends/db.py:98-272) on top of download_and_cache and
    cache_file (CacheFile.v), MatrixDb on top of it, and whole calls of [regrid] with an inventory
    given by its URL (the system inventory is one, 295-299).

    Files hold blobs; what reading them gives (json.load, gzip, load_npz, the text of the checksum
    file) are arbitrary functions of them.  The server is an argument of each call and may change
    from call to call.  The cache directory is that of a managed policy and does not change. *)
From Verif Require Import PyBase PyStr Float64 GridSpec Index Db MemCache Inventory Regrid System Disk Key CacheFile.
Local Open Scope string_scope.
Local Open Scope list_scope.
Local Open Scope Z_scope.

(** What the server does with a URL during one call: the body or an error, what a failed download
    leaves, whether it says that a cached copy is out of date, and the headers kept with it. *)
Record server (blob : Type) := mkServer {
  sv_get : string -> result blob; sv_left : string -> option blob; sv_stale : string -> result bool; sv_data : string -> json }.
Arguments mkServer {blob}. Arguments sv_get {blob}. Arguments sv_left {blob}. Arguments sv_stale {blob}. Arguments sv_data {blob}.

Section Remote.
  Context {A rest blob : Type}.
  (** json.load, gzip.open(...).read(), make_sha of the text (db.py:58-66, 178-184), the stripped
      text of the checksum file (227-228), scipy's load_npz. *)
  Variable parse : blob -> result (file rest).
  Variable gunzip : blob -> result blob.
  Variable digest : blob -> result string.
  Variable read_sha : blob -> result string.
  Variable load_npz : blob -> result (csr A).
  (** Size of a file; hash of cache keys; cache directory, limits and the settings about stale files. *)
  Variable weigh : blob -> node.
  Variable sha : string -> string.
  Variable dir : string.
  Variables limit usage : option Z.
  Variables check fetch : bool.
  (** multiurl's extension of the target of a URL *)
  Variable ext_of : string -> string.
  Variables (py_str : val -> string) (key_order : list string) (fuel : nat).
  Notation world := (@world blob).

  (** What one call meets: the server, and times and deletions for each file of the cache. *)
  Record meets := mkMeets { m_server : server blob; m_around : string -> around }.

  (** download.py:43-62, 91-93: multiurl.Downloader for http(s) URLs.  Simplified: a failed
      download leaves nothing or some blob under the temporary name. *)
  Definition downloader_of (x : meets) (url : string) : @downloader blob :=
    mkDownloader (ext_of url) None
      (fun _ _ w => (w, sv_stale (m_server x) url))
      (fun target w =>
         match sv_get (m_server x) url with
         | Ok b => (write weigh target b w, Ok (sv_data (m_server x) url))
         | Raise e => (match sv_left (m_server x) url with Some b => write weigh target b w | None => w end, Raise e)
         | OutOfFuel => (w, OutOfFuel)
         end).
  (** db.py:208-272: the calls of download_and_cache, [parts] is None.  The path is never None as
      the URL is not a local file. *)
  Definition download (x : meets) (url : string) (given : option force) (update : bool) (w : world) : world * result string :=
    andthen (download_and_cache weigh sha dir limit usage (m_around x url) (downloader_of x url) "url" url JNull given check fetch update w)
      (fun p w1 => match p with Some p => (w1, Ok p) | None => (w1, Raise TypeError) end).
  (** Opening a file and reading it. *)
  Definition reading {T} (read : blob -> result T) (p : string) (w : world) : world * result T :=
    match content w p with Some b => (w, read b) | None => (w, Raise FileNotFoundError) end.
  (** db.py:208-229 [_remote_sha] *)
  Definition remote_sha (x : meets) (base : string) (w : world) : world * result string :=
    andthen (download x (join_path base "index.json.sha256") (Some (FFlag true)) true w) (reading read_sha).
  (** db.py:168-187 [_create] with 231-251 [_gzip_file] *)
  Definition create_index (x : meets) (base : string) : creator := fun target _ w =>
    andthen (download x (join_path base "index.json.gz") (Some (FFlag true)) true w) (fun p w1 =>
    andthen (reading gunzip p w1) (fun t w2 =>
    let w3 := write weigh target t w2 in
    match digest t with
    | Ok s => (w3, Ok (JDict [("sha256", JStr s)]))
    | Raise e => (w3, Raise e)
    | OutOfFuel => (w3, OutOfFuel)
    end)).
  (** db.py:130-158 [_compare_sha], 160-166 [_force_download].  owner_data.get("sha256", None) is
      a string, as [_create] writes it, or absent. *)
  Definition stored_sha (owner : option json) : option string :=
    match owner with
    | Some (JDict l) => match alookup "sha256" l with Some (JStr s) => Some s | _ => None end
    | _ => None
    end.
  Definition compare_sha (x : meets) (base : string) (owner : option json) (w : world) : world * result bool :=
    match stored_sha owner with
    | None => (w, Ok true)
    | Some s => andthen (remote_sha x base w) (fun s' w1 => (w1, Ok (negb (String.eqb s s'))))
    end.
  Definition force_download (x : meets) (base : string) (w : world) : world * result bool :=
    andthen (remote_sha x base w) (fun _ w1 => (w1, Ok true)).
  Definition force_of (m : mode) (x : meets) (base : string) : force :=
    match m with
    | Plain => FFlag false
    | Compare => FCall (fun _ _ owner w => compare_sha x base owner w)
    | Force => FCall (fun _ _ _ w => force_download x base w)
    end.
  Definition index_request (base : string) : request := mkRequest "regrid" (JList [JStr (join_path base "index.json")]) JNull ".cache".
  Definition index_file (base : string) : string := path_of sha dir (index_request base).
  (** db.py:125-206 [_get_index] *)
  Definition get_index (m : mode) (x : meets) (base : string) (w : world) : world * result string :=
    cache_file weigh sha dir limit usage (m_around x (join_path base "index.json")) (index_request base) (force_of m x base) (create_index x base) w.
  (** Whether [_checked_remote] is set on the way (141, 164): if the force function is called and
      gets the remote checksum. *)
  Definition sets_checked (m : mode) (x : meets) (base : string) (w : world) : bool :=
    let p := index_file base in
    let w1 := fst (register_file dir (a_time (m_around x (join_path base "index.json"))) p (index_request base) w) in
    there w1 p &&
    match m with
    | Plain => false
    | Compare => match stored_sha (owner_data w1 p) with Some _ => is_ok (snd (remote_sha x base w1)) | None => false end
    | Force => is_ok (snd (remote_sha x base w1))
    end.

  (** MatrixDb with its UrlAccessor: the object of Db.v ([d_kind] is Url).  [_index_path], once
      set, is always [index_file]. *)
  Record rst := mkR { r_world : world; r_db : Db.db rest }.
  Definition set_index (s : rst) (i : option (index rest)) : rst := mkR (r_world s) (mkDb rest Url i (d_path _ (r_db s)) (d_checked _ (r_db s))).
  Definition got_index (m : mode) (x : meets) (base : string) (s : rst) : rst * result string :=
    let '(w1, r) := get_index m x base (r_world s) in
    (mkR w1 (mkDb rest Url (d_index _ (r_db s)) (is_ok r || d_path _ (r_db s)) (sets_checked m x base (r_world s) || d_checked _ (r_db s))), r).
  (** db.py:117-118 [reload] *)
  Definition reload (x : meets) (base : string) (s : rst) : rst * result string := got_index Compare x base s.
  (** db.py:120-123 [index_path] *)
  Definition index_path (x : meets) (base : string) (s : rst) : rst * result string :=
    if d_path _ (r_db s) && there (r_world s) (index_file base) then (s, Ok (index_file base)) else got_index Plain x base s.
  (** db.py:441-444 [_load_index] *)
  Definition load_index (x : meets) (base : string) (s : rst) : rst * result unit :=
    let '(s1, r) := index_path x base (set_index s (Some [])) in
    match (p <- r ;; f <- snd (reading parse p (r_world s1)) ;; load [] f) with
    | Ok i => (set_index s1 (Some i), Ok tt)
    | Raise e => (s1, Raise e)
    | OutOfFuel => (s1, OutOfFuel)
    end.
  Definition get_or_load (x : meets) (base : string) (s : rst) : rst * result unit :=
    match d_index _ (r_db s) with Some _ => (s, Ok tt) | None => load_index x base s end.
  Definition index_find (s : rst) (di do : dict) (m : string) : rst * result (option (entry rest)) :=
    match d_index _ (r_db s) with
    | Some i => let '(i', y) := find py_str key_order fuel i di do m in (set_index s (Some i'), y)
    | None => (s, Raise AttributeError)
    end.
  (** db.py:488-498 [find_entry] *)
  Definition find_entry (x : meets) (base : string) (s : rst) (di do : dict) (m0 : string) : rst * result (option (entry rest)) :=
    let m := method_alias m0 in
    let '(s1, r1) := get_or_load x base s in
    match r1 with
    | Ok _ =>
        let '(s2, r2) := index_find s1 di do m in
        match r2 with
        | Ok None =>
            if negb (d_checked _ (r_db s2)) then
              let '(s3, r3) := reload x base s2 in
              match r3 with
              | Ok _ => let '(s4, r4) := load_index x base s3 in
                        match r4 with
                        | Ok _ => index_find s4 di do m
                        | Raise e => (s4, Raise e)
                        | OutOfFuel => (s4, OutOfFuel)
                        end
              | Raise e => (s3, Raise e)
              | OutOfFuel => (s3, OutOfFuel)
              end
            else (s2, Ok None)
        | y => (s2, y)
        end
    | Raise e => (s1, Raise e)
    | OutOfFuel => (s1, OutOfFuel)
    end.
  (** db.py:253-272 [matrix_path], 500-514 [load_matrix], 482-486 [_create_matrix_from_entry] *)
  Definition load_weights (x : meets) (base : string) (e : entry rest) (w : world) : world * result (weights A) :=
    match matrix_path e with
    | Ok n =>
        andthen (download x (join_path base n) None false w) (fun p w1 =>
        andthen (reading load_npz p w1) (fun z w2 =>
        (w2, sh <- dget "shape" (gd (e_output e)) ;; Ok (z, sh))))
    | Raise e => (w, Raise e)
    | OutOfFuel => (w, OutOfFuel)
    end.

  (** ** Whole calls *)
  Variables (zero : A) (add mul : A -> A -> A).
  Variable memory_of : rest -> Z.
  Variable float_text : f64 -> string.
  Notation key_of := (key_of sha float_text).

  Definition new_db : Db.db rest := fresh_db rest Url.
  Definition lookup (x : meets) (base : string) (s : rst) (r : mreq) : rst * result (option (entry rest)) :=
    let '(gi, go, m) := r in find_entry x base s (gd gi) (gd go) m.
  (** The callables given to the memory cache; a get calls the first at most once, and the second
      at most once and after it. *)
  Definition inventory_of (x : meets) (base : string) (s : rst) (r : mreq) : inventory mreq (entry rest) (weights A) :=
    let s1 := fst (lookup x base s r) in
    mkInv (fun r => snd (lookup x base s r)) (fun e => snd (load_weights x base e (r_world s1))).
  Definition loaded (l : list (call mreq (entry rest))) : option (entry rest) :=
    match l with CFind _ :: CLoad e :: _ => Some e | _ => None end.

  Record rsys := mkRSys { z_mem : MemCache.state (weights A); z_world : world; z_dbs : list (string * Db.db rest) }.
  Definition db_of (base : string) (s : rsys) : Db.db rest := match alookup base (z_dbs s) with Some d => d | None => new_db end.
  (** db.py:452-477 [MatrixDb.find] *)
  Definition db_find (x : meets) (base : string) (di do : dict) (m : string) (s : rsys) : rsys * result (option (weights A)) :=
    match (gi <- from_dict di ;; go <- from_dict do ;; Ok (gi, go)) with
    | Ok (gi, go) =>
        let r := (gi, go, m) in
        let s0 := mkR (z_world s) (db_of base s) in
        let '(mem, calls, y) := MemCache.get key_of (System.est_size memory_of) System.size_of (inventory_of x base s0 r) r (z_mem s) in
        match calls with
        | [] => (mkRSys mem (z_world s) (z_dbs s), y)
        | _ =>
            let s1 := fst (lookup x base s0 r) in
            let w2 := match loaded calls with Some e => fst (load_weights x base e (r_world s1)) | None => r_world s1 end in
            (mkRSys mem w2 (aset base (r_db s1) (z_dbs s)), y)
        end
    | Raise e => (s, Raise e)
    | OutOfFuel => (s, OutOfFuel)
    end.
  Definition rsys_regrid (x : meets) (base : string) (values : array A) (in_grid out_grid : dict) (interpolation : string) (s : rsys)
    : rsys * result (array A * dict) :=
    let '(s', found) := db_find x base in_grid out_grid interpolation s in
    (s', regrid_from zero add mul found values out_grid).

  (** Histories: calls, changes and clearing of the memory cache, a new process with the same
      cache directory, purging the disk cache, a file of it deleted by somebody. *)
  Inductive rop :=
  | RCall (x : meets) (base : string) (values : array A) (di do : dict) (m : string)
  | RConfigure (c : mconf)
  | RClearMemory
  | RRestart (c : mconf)
  | RPurge (e : env) (latest : Z)
  | RDelete (p : string).
  Definition rstep (s : rsys) (o : rop) : rsys :=
    match o with
    | RCall x base values di do m => fst (rsys_regrid x base values di do m s)
    | RConfigure c => mkRSys (fst (MemCache.update c (z_mem s))) (z_world s) (z_dbs s)
    | RClearMemory => mkRSys (MemCache.clear (z_mem s)) (z_world s) (z_dbs s)
    | RRestart c => mkRSys (fst (MemCache.init c)) (z_world s) []
    | RPurge e latest => mkRSys (z_mem s) (fst (manager (purge JNull dir e latest) (z_world s))) (z_dbs s)
    | RDelete p => mkRSys (z_mem s) (erase p (z_world s)) (z_dbs s)
    end.
  Definition rinit (c : mconf) : rsys := mkRSys (fst (MemCache.init c)) (mkWorld (mkDisk [] []) [] []) [].
  Definition rafter (c : mconf) (h : list rop) : rsys := fold_left rstep h (rinit c).
End Remote.
