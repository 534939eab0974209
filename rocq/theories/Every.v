(** The public functions (Api.v) with inventories of all kinds in one process: local ones
    (System.v) and remote ones (Remote.v) share the memory cache.  Unlike in System.v, the local
    files may change from call to call. *)
From Verif Require Import PyBase PyStr Float64 GridSpec Index Db MemCache Inventory Regrid System Disk Key CacheFile Remote Dispatch Api ApiRemote.
Local Open Scope string_scope.
Local Open Scope list_scope.
Local Open Scope Z_scope.

Section Every.
  Context {A rest blob : Type}.
  Variables (zero : A) (add mul : A -> A -> A).
  Variable parse : blob -> result (file rest).
  Variable gunzip : blob -> result blob.
  Variable digest : blob -> result string.
  Variable read_sha : blob -> result string.
  Variable load_npz : blob -> result (csr A).
  Variable weigh : blob -> node.
  Variable sha : string -> string.
  Variable dir : string.
  Variables limit usage : option Z.
  Variables check fetch : bool.
  Variable ext_of : string -> string.
  Variables (py_str : val -> string) (key_order : list string) (fuel : nat).
  Variable memory_of : rest -> Z.
  Variable float_text : f64 -> string.

  (** What one call meets: the local files, and the server with the times and deletions for the
      files of the cache. *)
  Record emeets := mkEMeets { em_files : fs rest (csr A); em_net : @meets blob }.
  (** The process and its disk cache: one memory cache (memcache.py:370 [MEMORY_CACHE]); one MatrixDb
      with a LocalAccessor for each path and one with a UrlAccessor for each URL, kept with their
      backends (backends/__init__.py:66-82); SYS_DB (db.py:567). *)
  Record esys := mkESys {
    e_mem : MemCache.state (weights A); e_local : list (string * mdb rest);
    e_world : @world blob; e_sys : Db.db rest; e_url : list (string * Db.db rest) }.

  (** db.py:452-477 [MatrixDb.find] of the database.  SYS_DB and the database made for the same
      address given as a URL are two objects.  Simplified: a method that is no string is
      refused. *)
  Definition any_find (x : emeets) (db : database) (di do : dict) (m : val) (s : esys) : esys * result (option (weights A)) :=
    match m with
    | VStr t =>
        match db with
        | FromPath p =>
            let '(y, r) := System.db_find memory_of sha float_text py_str key_order fuel (em_files x) p di do t (mkSys (e_mem s) (e_local s)) in
            (mkESys (y_mem y) (y_dbs y) (e_world s) (e_sys s) (e_url s), r)
        | FromUrl u =>
            let '(z, r) := Remote.db_find parse gunzip digest read_sha load_npz weigh sha dir limit usage check fetch ext_of py_str key_order fuel memory_of float_text
                             (em_net x) u di do t (mkRSys (e_mem s) (e_world s) (e_url s)) in
            (mkESys (z_mem z) (e_local s) (z_world z) (e_sys s) (z_dbs z), r)
        | SysDb =>
            let '(z, r) := Remote.db_find parse gunzip digest read_sha load_npz weigh sha dir limit usage check fetch ext_of py_str key_order fuel memory_of float_text
                             (em_net x) SYSTEM_URL di do t (mkRSys (e_mem s) (e_world s) [(SYSTEM_URL, e_sys s)]) in
            (mkESys (z_mem z) (e_local s) (z_world z) (Remote.db_of SYSTEM_URL z) (e_url s), r)
        end
    | _ => (s, Raise NotImplementedError)
    end.

  (** Histories: requests, changes and clearing of the memory cache (memcache.py:284-314, 328-331), a
      new process with the same cache directory, purging the disk cache, a file of it deleted by
      somebody. *)
  Inductive eop :=
  | ECall (x : emeets) (db : database) (values : array A) (di do : dict) (m : string)
  | EConfigure (c : mconf)
  | EClearMemory
  | ERestart (c : mconf)
  | EPurge (e : env) (latest : Z)
  | EDelete (p : string).
  Definition estep (s : esys) (o : eop) : esys :=
    match o with
    | ECall x db _ di do m => fst (any_find x db di do (VStr m) s)
    | EConfigure c => mkESys (fst (MemCache.update c (e_mem s))) (e_local s) (e_world s) (e_sys s) (e_url s)
    | EClearMemory => mkESys (MemCache.clear (e_mem s)) (e_local s) (e_world s) (e_sys s) (e_url s)
    | ERestart c => mkESys (fst (MemCache.init c)) [] (e_world s) Remote.new_db []
    | EPurge e latest => mkESys (e_mem s) (e_local s) (fst (manager (purge JNull dir e latest) (e_world s))) (e_sys s) (e_url s)
    | EDelete p => mkESys (e_mem s) (e_local s) (erase p (e_world s)) (e_sys s) (e_url s)
    end.
  Definition einit (c : mconf) : esys := mkESys (fst (MemCache.init c)) [] (mkWorld (mkDisk [] []) [] []) Remote.new_db [].
  Definition eafter (c : mconf) (h : list eop) : esys := fold_left estep h (einit c).
End Every.
