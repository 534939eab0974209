(** Remote inventories with the cache policy "off": UrlAccessor (backends/db.py:98-272) on top of
    the last branch of cache_file (utils/caching.py:1038-1062), MatrixDb on top of it, and whole
    calls of [regrid].  That branch ignores [force] and keeps no table: every call makes a new file
    whose name is made of the time and a random number, so [_remote_sha] is never called and
    [_checked_remote] never set.

    Files, servers and what reading files gives are those of Remote.v.  Times and random numbers
    are arguments of each call.  The directory is the temporary one of the policy; a new process
    finds its own one, which is empty (simplified: under the same name). *)
From Verif Require Import PyBase PyStr Float64 GridSpec Index Db MemCache Inventory Regrid System Disk Key CacheFile Remote.
Local Open Scope string_scope.
Local Open Scope list_scope.
Local Open Scope Z_scope.

Section Off.
  Context {A rest blob : Type}.
  Variable parse : blob -> result (file rest).
  Variable gunzip : blob -> result blob.
  Variable digest : blob -> result string.
  Variable load_npz : blob -> result (csr A).
  Variable weigh : blob -> node.
  Variable sha : string -> string.
  Variable dir : string.
  Variable ext_of : string -> string.
  Variables (py_str : val -> string) (key_order : list string) (fuel : nat).
  Notation world := (@world blob).

  (** The time and the random number of one call of cache_file (caching.py:1040-1042). *)
  Definition draw : Type := moment * Z.
  (** What one call of regrid meets: the server, and the draws for the files it may make: index
      and compressed index when the index is loaded first, the same when it is reloaded, and the
      matrix. *)
  Record draws := mkDraws { d_index1 : draw; d_gz1 : draw; d_index2 : draw; d_gz2 : draw; d_matrix : draw }.
  Record omeets := mkOff { o_server : server blob; o_draws : draws }.

  (** download.py:43-106 with this policy *)
  Definition off_download (x : omeets) (t : draw) (url : string) (w : world) : world * result string :=
    cache_file_off weigh sha dir (url_request "url" url JNull (ext_of url)) (fst t) (snd t)
      (fun target _ => dl_download (downloader_of weigh ext_of (mkMeets (o_server x) (fun _ => mkAround 0 (mkEnv 0 (fun _ => false) (fun _ => false) 0 0) 0 (mkEnv 0 (fun _ => false) (fun _ => false) 0 0))) url) target) w.
  (** db.py:168-187 [_create] with 231-251 [_gzip_file] *)
  Definition off_create (x : omeets) (t : draw) (base : string) : creator := fun target _ w =>
    andthen (off_download x t (join_path base "index.json.gz") w) (fun p w1 =>
    andthen (reading gunzip p w1) (fun b w2 =>
    let w3 := write weigh target b w2 in
    match digest b with
    | Ok s => (w3, Ok (JDict [("sha256", JStr s)]))
    | Raise e => (w3, Raise e)
    | OutOfFuel => (w3, OutOfFuel)
    end)).
  (** db.py:125-206 [_get_index]; the force functions are made and not called *)
  Definition off_get (x : omeets) (t tz : draw) (base : string) (w : world) : world * result string :=
    cache_file_off weigh sha dir (index_request base) (fst t) (snd t) (off_create x tz base) w.

  (** MatrixDb with its UrlAccessor: [_index] and [_index_path]. *)
  Record odb := mkODb { o_index : option (index rest); o_path : option string }.
  Record ost := mkO { os_world : world; os_db : odb }.
  Definition off_set (s : ost) (i : option (index rest)) : ost := mkO (os_world s) (mkODb i (o_path (os_db s))).
  (** db.py:117-118 [reload], 122 *)
  Definition off_got (x : omeets) (t tz : draw) (base : string) (s : ost) : ost * result string :=
    let '(w1, r) := off_get x t tz base (os_world s) in
    (mkO w1 (mkODb (o_index (os_db s)) (match r with Ok p => Some p | _ => o_path (os_db s) end)), r).
  (** db.py:120-123 [index_path] *)
  Definition off_index_path (x : omeets) (t tz : draw) (base : string) (s : ost) : ost * result string :=
    match o_path (os_db s) with
    | Some p => if there (os_world s) p then (s, Ok p) else off_got x t tz base s
    | None => off_got x t tz base s
    end.
  (** db.py:441-444 [_load_index] *)
  Definition off_load (x : omeets) (base : string) (s : ost) : ost * result unit :=
    let '(s1, r) := off_index_path x (d_index1 (o_draws x)) (d_gz1 (o_draws x)) base (off_set s (Some [])) in
    match (p <- r ;; f <- snd (reading parse p (os_world s1)) ;; load [] f) with
    | Ok i => (off_set s1 (Some i), Ok tt)
    | Raise e => (s1, Raise e)
    | OutOfFuel => (s1, OutOfFuel)
    end.
  (** db.py:435-439 [index] *)
  Definition off_get_or_load (x : omeets) (base : string) (s : ost) : ost * result unit :=
    match o_index (os_db s) with Some _ => (s, Ok tt) | None => off_load x base s end.
  Definition off_index_find (s : ost) (di do : dict) (m : string) : ost * result (option (entry rest)) :=
    match o_index (os_db s) with
    | Some i => let '(i', y) := find py_str key_order fuel i di do m in (off_set s (Some i'), y)
    | None => (s, Raise AttributeError)
    end.
  (** db.py:488-498 [find_entry]; [is_local] returns None (104-105) and [checked_remote] False *)
  Definition off_find_entry (x : omeets) (base : string) (s : ost) (di do : dict) (m0 : string) : ost * result (option (entry rest)) :=
    let m := method_alias m0 in
    let '(s1, r1) := off_get_or_load x base s in
    match r1 with
    | Ok _ =>
        let '(s2, r2) := off_index_find s1 di do m in
        match r2 with
        | Ok None =>
            let '(s3, r3) := off_got x (d_index2 (o_draws x)) (d_gz2 (o_draws x)) base s2 in
            match r3 with
            | Ok _ => let '(s4, r4) := off_load x base s3 in
                      match r4 with
                      | Ok _ => off_index_find s4 di do m
                      | Raise e => (s4, Raise e)
                      | OutOfFuel => (s4, OutOfFuel)
                      end
            | Raise e => (s3, Raise e)
            | OutOfFuel => (s3, OutOfFuel)
            end
        | y => (s2, y)
        end
    | Raise e => (s1, Raise e)
    | OutOfFuel => (s1, OutOfFuel)
    end.
  (** db.py:253-272 [matrix_path], 500-514 [load_matrix], 482-486 [_create_matrix_from_entry] *)
  Definition off_weights (x : omeets) (base : string) (e : entry rest) (w : world) : world * result (weights A) :=
    match matrix_path e with
    | Ok n =>
        andthen (off_download x (d_matrix (o_draws x)) (join_path base n) w) (fun p w1 =>
        andthen (reading load_npz p w1) (fun z w2 =>
        (w2, sh <- dget "shape" (gd (e_output e)) ;; Ok (z, sh))))
    | Raise e => (w, Raise e)
    | OutOfFuel => (w, OutOfFuel)
    end.

  (** ** Whole calls, as in Remote.v *)
  Variables (zero : A) (add mul : A -> A -> A).
  Variable memory_of : rest -> Z.
  Variable float_text : f64 -> string.
  Notation key_of := (key_of sha float_text).
  Definition off_lookup (x : omeets) (base : string) (s : ost) (r : mreq) : ost * result (option (entry rest)) :=
    let '(gi, go, m) := r in off_find_entry x base s (gd gi) (gd go) m.
  Definition off_inventory (x : omeets) (base : string) (s : ost) (r : mreq) : inventory mreq (entry rest) (weights A) :=
    let s1 := fst (off_lookup x base s r) in
    mkInv (fun r => snd (off_lookup x base s r)) (fun e => snd (off_weights x base e (os_world s1))).
  Record osys := mkOSys { u_mem : MemCache.state (weights A); u_world : world; u_dbs : list (string * odb) }.
  Definition odb_of (base : string) (s : osys) : odb := match alookup base (u_dbs s) with Some d => d | None => mkODb None None end.
  (** db.py:452-477 [MatrixDb.find] *)
  Definition off_find (x : omeets) (base : string) (di do : dict) (m : string) (s : osys) : osys * result (option (weights A)) :=
    match (gi <- from_dict di ;; go <- from_dict do ;; Ok (gi, go)) with
    | Ok (gi, go) =>
        let r := (gi, go, m) in
        let s0 := mkO (u_world s) (odb_of base s) in
        let '(mem, calls, y) := MemCache.get key_of (System.est_size memory_of) System.size_of (off_inventory x base s0 r) r (u_mem s) in
        match calls with
        | [] => (mkOSys mem (u_world s) (u_dbs s), y)
        | _ =>
            let s1 := fst (off_lookup x base s0 r) in
            let w2 := match loaded calls with Some e => fst (off_weights x base e (os_world s1)) | None => os_world s1 end in
            (mkOSys mem w2 (aset base (os_db s1) (u_dbs s)), y)
        end
    | Raise e => (s, Raise e)
    | OutOfFuel => (s, OutOfFuel)
    end.
  Definition off_regrid (x : omeets) (base : string) (values : array A) (in_grid out_grid : dict) (interpolation : string) (s : osys)
    : osys * result (array A * dict) :=
    let '(s', found) := off_find x base in_grid out_grid interpolation s in
    (s', regrid_from zero add mul found values out_grid).

  (** Histories: calls, changes and clearing of the memory cache, a new process, a file of the
      temporary directory deleted by somebody between two calls. *)
  Inductive oop :=
  | OCall (x : omeets) (base : string) (values : array A) (di do : dict) (m : string)
  | OConfigure (c : mconf)
  | OClearMemory
  | ORestart (c : mconf)
  | ODelete (p : string).
  Definition oempty : world := mkWorld (mkDisk [] []) [] [].
  Definition ostep (s : osys) (o : oop) : osys :=
    match o with
    | OCall x base values di do m => fst (off_regrid x base values di do m s)
    | OConfigure c => mkOSys (fst (MemCache.update c (u_mem s))) (u_world s) (u_dbs s)
    | OClearMemory => mkOSys (MemCache.clear (u_mem s)) (u_world s) (u_dbs s)
    | ORestart c => mkOSys (fst (MemCache.init c)) oempty []
    | ODelete p => mkOSys (u_mem s) (erase p (u_world s)) (u_dbs s)
    end.
  Definition oinit (c : mconf) : osys := mkOSys (fst (MemCache.init c)) oempty [].
  Definition oafter (c : mconf) (h : list oop) : osys := fold_left ostep h (oinit c).
End Off.
