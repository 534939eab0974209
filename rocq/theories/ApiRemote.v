(** The public functions (Api.v) with remote inventories (Remote.v). *)
From Verif Require Import PyBase PyStr Float64 GridSpec Index Regrid MemCache System Disk CacheFile Remote Dispatch Api.
Local Open Scope string_scope.
Local Open Scope list_scope.
Local Open Scope Z_scope.

(** db.py:26 *)
Definition SYSTEM_URL : string := "https://sites.ecmwf.int/repository/earthkit/regrid/db/1/".
(** The address of a database: db.py:295-299 [SystemAccessor], 554-556 [from_url].  SYS_DB (567) is
    one object, and a backend (with its database) is kept for each URL.  Simplified: the address of
    the system inventory given as URL, which makes another object for the same address, is left
    out. *)
Definition base_of (db : database) : option string :=
  match db with
  | SysDb => Some SYSTEM_URL
  | FromUrl u => if String.eqb u SYSTEM_URL then None else Some u
  | FromPath _ => None
  end.
(** db.py:452-477 [find] of these databases.  Simplified: nothing is done for other databases and for
    methods that are no strings. *)
Definition remote_find {A rest blob} (parse : blob -> result (file rest)) gunzip digest read_sha load_npz weigh sha dir limit usage check fetch ext_of py_str key_order fuel memory_of float_text
  (x : @meets blob) (db : database) (di do : dict) (m : val) (s : @rsys A rest blob) : @rsys A rest blob * result (option (weights A)) :=
  match base_of db, m with
  | Some base, VStr t => Remote.db_find parse gunzip digest read_sha load_npz weigh sha dir limit usage check fetch ext_of py_str key_order fuel memory_of float_text x base di do t s
  | _, _ => (s, Raise NotImplementedError)
  end.
