(** The whole way of a call of [regrid] with precomputed weights of a local inventory:
    precomputed.py:22-35, MatrixDb.find (db.py:452-486), the memory cache, the index and the
    weights files, put together from their models (GridSpec.v, Index.v, Db.v, MemCache.v, Key.v,
    Inventory.v, Regrid.v).  The files do not change during a history. *)
From Verif Require Import PyBase PyStr Float64 GridSpec Index Db MemCache Key Inventory Regrid.
Local Open Scope string_scope.
Local Open Scope list_scope.
Local Open Scope Z_scope.

(** json.dumps of a value of a grid specification: tuples are lists; the text of a float is
    given. *)
Section Json.
  Variable float_text : f64 -> string.
  Fixpoint json_of (v : val) : json :=
    match v with
    | VNone => JNull
    | VBool b => JBool b
    | VInt z => JNum (show_Z z)
    | VFloat f => JNum (float_text f)
    | VStr s => JStr s
    | VList l | VTup l => JList (map json_of l)
    end.
  Definition json_of_dict (d : dict) : json := JDict (map (fun p => (fst p, json_of (snd p))) d).
End Json.

Section System.
  Variable A : Type.
  Variables (zero : A) (add mul : A -> A -> A).
  Variable rest : Type.
  (** entry["_raw"]["memory"], 0 if absent (memcache.py:39-45) *)
  Variable memory_of : rest -> Z.
  Variable sha : string -> string.
  Variable float_text : f64 -> string.
  Variables (py_str : val -> string) (key_order : list string) (fuel : nat).
  (** The files: indexes and matrices. *)
  Variable files : fs rest (csr A).

  Definition mreq := (gspec * gspec * string)%type.
  (** memcache.py:231 [make_sha(args)]: GridSpec is a subclass of dict, the tuple of the arguments
      is printed as a list. *)
  Definition key_of (r : mreq) : string :=
    let '(gi, go, m) := r in
    make_sha sha (JList [json_of_dict float_text (gd gi); json_of_dict float_text (gd go); JStr m]).
  Definition est_size (e : entry rest) : Z := memory_of (r_rest (e_raw e)).
  (** utils/matrix.py:11-20 [matrix_memory_size].  Simplified: elements of 8 bytes, indices of 4 (as
      scipy has below 2^31 elements). *)
  Definition matrix_memory_size (z : csr A) : Z :=
    8 * Z.of_nat (List.length (data z)) + 4 * Z.of_nat (List.length (indptr z)) + 4 * Z.of_nat (List.length (col z)).
  Definition weights := (csr A * val)%type.
  Definition size_of (w : weights) : Z := matrix_memory_size (fst w).

  (** db.py:482-486 [_create_matrix_from_entry] on an entry *)
  Definition load_weights (path : string) (e : entry rest) : result weights :=
    z <- local_matrix path e files ;; sh <- dget "shape" (gd (e_output e)) ;; Ok (z, sh).

  (** One MatrixDb per inventory (backends/__init__.py:66-82); it starts without an index. *)
  Definition mdb := Db.st rest (file rest).
  Definition new_db : mdb := mkSt rest (file rest) None (fresh_db rest Local) [].
  Definition outside_of (path : string) : outside (file rest) :=
    mkOut (file rest) (Raise NotImplementedError) (Raise NotImplementedError) (read_index (join_path path "index.json") files).
  (** db.py:488-498 [find_entry] of that object *)
  Definition lookup (path : string) (d : mdb) (r : mreq) : mdb * result (option (entry rest)) :=
    let '(gi, go, m) := r in
    Db.find_entry rest (file rest) Ok (fun _ => "") py_str key_order fuel (outside_of path) d (gd gi) (gd go) m.
  (** The callables given to the memory cache (db.py:469-477); find_entry is called at most once
      in a get. *)
  Definition inventory_of (path : string) (d : mdb) : inventory mreq (entry rest) weights :=
    mkInv (fun r => snd (lookup path d r)) (load_weights path).

  Record sys := mkSys { y_mem : MemCache.state weights; y_dbs : list (string * mdb) }.
  Definition db_of (path : string) (s : sys) : mdb :=
    match alookup path (y_dbs s) with Some d => d | None => new_db end.

  (** db.py:452-477 [MatrixDb.find] *)
  Definition db_find (path : string) (di do : dict) (m : string) (s : sys) : sys * result (option weights) :=
    match (gi <- from_dict di ;; go <- from_dict do ;; Ok (gi, go)) with
    | Ok (gi, go) =>
        let d := db_of path s in
        let '(mem, calls, r) := MemCache.get key_of est_size size_of (inventory_of path d) (gi, go, m) (y_mem s) in
        (mkSys mem (match calls with [] => y_dbs s | _ => aset path (fst (lookup path d (gi, go, m))) (y_dbs s) end), r)
    | Raise x => (s, Raise x)
    | OutOfFuel => (s, OutOfFuel)
    end.

  (** The argument of numpy's reshape: a number or a list of numbers.  Simplified: -1 (one
      dimension to be found by numpy) and other number-like values are refused. *)
  Definition nat_of (v : val) : result nat :=
    match v with VInt z => if z <? 0 then Raise ValueError else Ok (Z.to_nat z) | _ => Raise TypeError end.
  Fixpoint nats_of (l : list val) : result (list nat) :=
    match l with [] => Ok [] | v :: r => n <- nat_of v ;; ns <- nats_of r ;; Ok (n :: ns) end.
  Definition as_shape (v : val) : result (list nat) :=
    match v with
    | VList l | VTup l => nats_of l
    | v => n <- nat_of v ;; Ok [n]
    end.

  (** precomputed.py:22-35 [regrid] *)
  Definition regrid_from (found : result (option weights)) (values : array A) (out_grid : dict) : result (array A * dict) :=
    zs <- found ;;
    match zs with
    | None => Raise ValueError
    | Some (z, v) =>
        x <- matmul zero add mul z (reshape_column zero values) ;;
        sh <- as_shape v ;;
        r <- reshape zero x sh ;;
        Ok (r, out_grid)
    end.
  Definition sys_regrid (path : string) (values : array A) (in_grid out_grid : dict) (interpolation : string) (s : sys)
    : sys * result (array A * dict) :=
    let '(s', found) := db_find path in_grid out_grid interpolation s in
    (s', regrid_from found values out_grid).

  (** Histories: calls, changes of the configuration of the memory cache (memcache.py:284-314) and
      clearing it (328-331). *)
  Inductive sop :=
  | Call (path : string) (values : array A) (di do : dict) (m : string)
  | Configure (c : mconf)
  | ClearMemory.
  Definition sys_step (s : sys) (o : sop) : sys :=
    match o with
    | Call path values di do m => fst (sys_regrid path values di do m s)
    | Configure c => mkSys (fst (MemCache.update c (y_mem s))) (y_dbs s)
    | ClearMemory => mkSys (MemCache.clear (y_mem s)) (y_dbs s)
    end.
  Definition sys_init (c : mconf) : sys := mkSys (fst (MemCache.init c)) [].
  Definition sys_after (c : mconf) (h : list sop) : sys := fold_left sys_step h (sys_init c).
End System.
Arguments mkSys {A rest}. Arguments y_mem {A rest}. Arguments y_dbs {A rest}.
Arguments Call {A}. Arguments Configure {A}. Arguments ClearMemory {A}.
Arguments new_db {rest}. Arguments outside_of {A rest}. Arguments lookup {A rest}. Arguments load_weights {A rest}.
Arguments inventory_of {A rest}. Arguments db_of {A rest}. Arguments db_find {A rest}. Arguments regrid_from {A}.
Arguments sys_regrid {A} zero add mul {rest}. Arguments sys_step {A} zero add mul {rest}. Arguments sys_after {A} zero add mul {rest}.
Arguments sys_init {A rest}. Arguments est_size {rest}. Arguments size_of {A}. Arguments matrix_memory_size {A}.
