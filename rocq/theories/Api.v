(** The public functions [earthkit.regrid.regrid] (regrid.py), [earthkit.regrid.array.regrid]
    (array/regrid.py) and the deprecated [earthkit.regrid.interpolate] (interpolate.py,
    data_interpolate.py), with the handlers of arrays, fields and messages (data/numpy.py,
    data/fieldlist.py, data/grib.py), the objects of the backends (backends/__init__.py) and the
    methods of backends/precomputed.py.

    xarray objects are in Xarray.v.  What a database finds is given, with the state of the databases
    and of the memory cache; it is instantiated in Props_Api.v. *)
From Verif Require Import PyBase PyStr Float64 GridSpec Regrid System Dispatch.
Local Open Scope string_scope.
Local Open Scope list_scope.
Local Open Scope Z_scope.

(** Code with a state that may raise. *)
Section Monad.
  Context {St : Type}.
  Definition act (X : Type) := St -> St * result X.
  Definition lift {X} (r : result X) : act X := fun s => (s, r).
  Definition seq_act {X Y} (x : act X) (k : X -> act Y) : act Y := fun s =>
    match x s with (s', Ok a) => k a s' | (s', Raise e) => (s', Raise e) | (s', OutOfFuel) => (s', OutOfFuel) end.
End Monad.
Arguments act St X : clear implicits.
Notation "x <~ r ~; k" := (seq_act r (fun x => k)) (at level 61, r at next level, right associativity).

Section Api.
  Context {A S E field : Type}.
  Variables (zero : A) (add mul : A -> A -> A).
  (** db.py:452-477 [find] on the database, [E] is what the call meets outside (a server). *)
  Variable find : E -> database -> dict -> dict -> val -> S -> S * result (option (weights A)).
  (** backends/mir.py:43-117 [regrid] and [regrid_grib], with their keyword arguments. *)
  Variable mir_array : array A -> option dict -> option dict -> dict -> result (array A * dict).
  Variable mir_grib : string -> option dict -> dict -> result string.
  (** Fields: values (flattened), grid of the metadata, the field with new values and grid; its
      GRIB message, the field of a message (earthkit.data). *)
  Variable field_values : field -> result (array A).
  Variable field_grid : field -> result (option dict).
  Variable field_with : field -> array A -> dict -> result field.
  Variable field_message : field -> result string.
  Variable message_field : string -> result field.

  (** The state: databases and memory cache, and the objects of the backends. *)
  Record api := mkApi { p_sys : S; p_maker : maker }.

  (** precomputed.py:18-20 and backends/__init__.py:28-30 [__init__] *)
  Definition construct (name : string) (kwargs : dict) : result unit :=
    if String.eqb name "precomputed" then
      if forallb (fun p => String.eqb (fst p) "inventory") kwargs
      then _ <- get_db (match alookup "inventory" kwargs with Some v => v | None => VNone end) ;; Ok tt
      else Raise TypeError
    else Ok tt.
  (** backends/__init__.py:113-115 [get_backend].  A name that is no string is in no dictionary of
      names. *)
  Definition named_backend (name : val) (kwargs : dict) : act api obj := fun s =>
    match name with
    | VStr n => let '(m, r) := get_backend BACKENDS construct (p_maker s) n kwargs in (mkApi (p_sys s) m, r)
    | v => (s, Raise (if hashable v && forallb (fun p => hashable (snd p)) kwargs then ValueError else TypeError))
    end.
  (** The database of an object (precomputed.py:20). *)
  Definition db_of_obj (o : obj) : result database := get_db (match alookup "inventory" (o_kwargs o) with Some v => v | None => VNone end).

  (** A grid may be None: [gs.update(None)] is a TypeError (gridspec.py:64). *)
  Definition finding (x : E) (o : obj) (in_grid out_grid : option dict) (method : val) : act api (option (weights A)) := fun s =>
    match db_of_obj o with
    | Ok db =>
        match in_grid, out_grid with
        | Some di, Some do => let '(y, r) := find x db di do method (p_sys s) in (mkApi y (p_maker s), r)
        | Some di, None => (s, _ <- from_dict di ;; Raise TypeError)
        | None, _ => (s, Raise TypeError)
        end
    | Raise e => (s, Raise e)
    | OutOfFuel => (s, OutOfFuel)
    end.
  (** precomputed.py:22-34 [regrid]: the keyword arguments must be [interpolation]. *)
  Definition precomputed_regrid (x : E) (o : obj) (values : array A) (in_grid out_grid : option dict) (kwargs : dict) : act api (array A * dict) :=
    interpolation <~ lift (if forallb (fun p => String.eqb (fst p) "interpolation") kwargs
                           then match alookup "interpolation" kwargs with Some v => Ok v | None => Raise TypeError end else Raise TypeError) ~;
    zs <~ finding x o in_grid out_grid interpolation ~;
    lift (match zs with
          | None => Raise ValueError
          | Some (z, v) =>
              y <- matmul zero add mul z (reshape_column zero values) ;;
              sh <- as_shape v ;;
              r <- reshape zero y sh ;;
              match out_grid with Some do => Ok (r, do) | None => Raise TypeError end
          end).
  (** precomputed.py:37-48 [interpolate]: other keyword arguments go to MatrixDb.find (db.py:452-458)
      and from there to MemoryCache.get (memcache.py:223), which has no such arguments.  Names of
      arguments of [find] are refused at once. *)
  Definition precomputed_interpolate (x : E) (o : obj) (values : array A) (in_grid out_grid : option dict) (kwargs : dict) : act api (array A) :=
    method <~ lift (match alookup "method" kwargs with Some v => Ok v | None => Raise TypeError end) ~;
    let others := aremove "method" kwargs in
    zs <~ (if existsb (fun p => existsb (String.eqb (fst p)) ["self"; "gridspec_in"; "gridspec_out"]) others then lift (Raise TypeError)
           else match others with
                | [] => finding x o in_grid out_grid method
                | _ => lift (match in_grid with
                             | Some di => _ <- from_dict di ;; match out_grid with Some do => _ <- from_dict do ;; Raise TypeError | None => Raise TypeError end
                             | None => Raise TypeError
                             end)
                end) ~;
    lift (match zs with
          | None => Raise ValueError
          | Some (z, v) =>
              y <- matmul zero add mul z (reshape_column zero values) ;;
              sh <- as_shape v ;;
              reshape zero y sh
          end).
  Definition is_mir (o : obj) : bool := String.eqb (o_name o) "mir".
  (** The method [regrid] of the object. *)
  Definition backend_regrid (x : E) (o : obj) (values : array A) (in_grid out_grid : option dict) (kwargs : dict) : act api (array A * dict) :=
    if is_mir o then lift (mir_array values in_grid out_grid kwargs) else precomputed_regrid x o values in_grid out_grid kwargs.

  (** data/handler.py:25-44 [backend_from_kwargs] and [get_backend] *)
  Definition backend_of (kwargs : dict) : act api (obj * dict) :=
    nbk <~ lift (backend_from_kwargs kwargs) ~;
    let '(name, b_kw, kw) := nbk in
    o <~ named_backend name b_kw ~;
    lift (Ok (o, kw)).

  (** array/regrid.py:11-23 [regrid], data/numpy.py:24-28 [regrid] *)
  Definition array_regrid (x : E) (values : array A) (in_grid out_grid : option dict) (interpolation backend : val) (kwargs : dict) : act api (array A * dict) :=
    ok <~ backend_of (("interpolation", interpolation) :: ("backend", backend) :: kwargs) ~;
    backend_regrid x (fst ok) values in_grid out_grid (snd ok).

  (** data/fieldlist.py:32-42 [input_gridspec] *)
  Definition input_gridspec (f : field) : result dict :=
    g <- field_grid f ;; match g with Some d => Ok d | None => Raise ValueError end.
  (** data/fieldlist.py:73-87, the loop of [_regrid_array] *)
  Fixpoint array_fields (x : E) (o : obj) (kwargs : dict) (fs : list field) (out_grid : dict) (done : list field) : act api (list field) :=
    match fs with
    | [] => lift (Ok done)
    | f :: rest =>
        vv <~ lift (field_values f) ~;
        in_grid <~ lift (input_gridspec f) ~;
        vg <~ backend_regrid x o vv (Some in_grid) (Some out_grid) kwargs ~;
        r <~ lift (field_with f (fst vg) (snd vg)) ~;
        array_fields x o kwargs rest (snd vg) (done ++ [r])
    end.
  (** data/fieldlist.py:89-114, the loop of [_regrid_grib] *)
  Fixpoint grib_fields (kwargs : dict) (grid : dict) (fs : list field) (done : list field) : result (list field) :=
    match fs with
    | [] => Ok done
    | f :: rest => m <- field_message f ;; b <- mir_grib m (Some grid) kwargs ;; r <- message_field b ;; grib_fields kwargs grid rest (done ++ [r])
    end.
  (** data/fieldlist.py:44-55 [regrid] *)
  Definition fields_regrid (x : E) (fs : list field) (grid : option dict) (kwargs : dict) : act api (list field) :=
    ok <~ backend_of kwargs ~;
    match grid with
    | None => lift (Raise ValueError)
    | Some grid =>
        if is_mir (fst ok) then lift (grib_fields (snd ok) grid fs [])
        else g <~ lift (from_dict grid) ~;
             if is_regular_ll g then array_fields x (fst ok) (snd ok) fs (gd g) [] else lift (Raise ValueError)
    end.
  (** What is given to regrid() and interpolate(), and returned.  Modules are imported if objects of
      their classes exist (C40 is about the choice of the handler). *)
  Inductive data := DArray (v : array A) | DFields (fs : list field) | DField (f : field) | DMessage (b : string) | DOther.
  (** regrid.py:17-31 [regrid]; data/fieldlist.py:132-136 for one field; data/grib.py:30-41 for messages *)
  Definition regrid_call (x : E) (d : data) (grid : option dict) (interpolation backend : val) (kwargs : dict) : act api data :=
    let kw := ("interpolation", interpolation) :: ("backend", backend) :: kwargs in
    match d with
    | DFields fs => r <~ fields_regrid x fs grid kw ~; lift (Ok (DFields r))
    | DField f => r <~ fields_regrid x [f] grid kw ~; lift (match r with y :: _ => Ok (DField y) | [] => Raise IndexError end)
    | DMessage b => ok <~ backend_of kw ~;
                    if is_mir (fst ok) then lift (r <- mir_grib b grid (snd ok) ;; Ok (DMessage r)) else lift (Raise ValueError)
    | DArray _ | DOther => lift (Raise ValueError)
    end.

  (** data_interpolate.py:26-42 [backend_from_kwargs] *)
  Definition precomputed_of (kwargs : dict) : act api (obj * dict) :=
    if amem "backend" kwargs then lift (Raise ValueError)
    else let '(source, kw) := pop "matrix_source" kwargs in
         o <~ named_backend (VStr "precomputed") (match source with None | Some VNone => [] | Some v => [("inventory", v)] end) ~;
         lift (Ok (o, kw)).
  (** data_interpolate.py:75-88 [input_gridspec] *)
  Definition given_gridspec (user_grid : option dict) (f : field) : result dict :=
    match user_grid with Some d => Ok d | None => g <- field_grid f ;; match g with Some d => Ok d | None => Raise ValueError end end.
  (** data_interpolate.py:109-121, the loop *)
  Fixpoint interpolated_fields (x : E) (o : obj) (kwargs : dict) (in_grid : option dict) (out_grid : dict) (fs : list field) (done : list field) : act api (list field) :=
    match fs with
    | [] => lift (Ok done)
    | f :: rest =>
        vv <~ lift (field_values f) ~;
        in_grid_f <~ lift (given_gridspec in_grid f) ~;
        v <~ precomputed_interpolate x o vv (Some in_grid_f) (Some out_grid) kwargs ~;
        r <~ lift (field_with f v out_grid) ~;
        interpolated_fields x o kwargs in_grid out_grid rest (done ++ [r])
    end.
  (** interpolate.py:13-22 [interpolate] with data_interpolate.py:51-56 for arrays and 89-123 for
      lists of fields *)
  Definition interpolate_call (x : E) (d : data) (in_grid out_grid : option dict) (method : val) (kwargs : dict) : act api data :=
    let kw := ("method", method) :: kwargs in
    match d with
    | DArray v => ok <~ precomputed_of kw ~;
                  r <~ precomputed_interpolate x (fst ok) v in_grid out_grid (snd ok) ~;
                  lift (Ok (DArray r))
    | DFields fs => ok <~ precomputed_of kw ~;
                    match out_grid with
                    | None => lift (Raise TypeError)
                    | Some out_grid =>
                        g <~ lift (from_dict out_grid) ~;
                        if is_regular_ll g
                        then r <~ interpolated_fields x (fst ok) (snd ok) in_grid (gd g) fs [] ~; lift (Ok (DFields r))
                        else lift (Raise ValueError)
                    end
    | _ => lift (Raise ValueError)
    end.

  (** Histories: public calls, and anything else that happens to databases and memory cache (a change
      of the configuration, clearing the memory cache). *)
  Inductive pop_call :=
  | PArray (x : E) (values : array A) (in_grid out_grid : option dict) (interpolation backend : val) (kwargs : dict)
  | PRegrid (x : E) (d : data) (grid : option dict) (interpolation backend : val) (kwargs : dict)
  | PInterpolate (x : E) (d : data) (in_grid out_grid : option dict) (method : val) (kwargs : dict)
  | PElse (f : S -> S).
  Definition pstep (s : api) (c : pop_call) : api :=
    match c with
    | PArray x v i o m b kw => fst (array_regrid x v i o m b kw s)
    | PRegrid x d g m b kw => fst (regrid_call x d g m b kw s)
    | PInterpolate x d i o m kw => fst (interpolate_call x d i o m kw s)
    | PElse f => mkApi (f (p_sys s)) (p_maker s)
    end.
  Definition pafter (s0 : S) (h : list pop_call) : api := fold_left pstep h (mkApi s0 (mkMaker [] 0)).
End Api.
Arguments api : clear implicits. Arguments mkApi {S}. Arguments p_sys {S}. Arguments p_maker {S}.

(** The databases of local inventories (System.v).  Simplified: nothing is done for other databases
    and for methods that are no strings. *)
Definition local_find {A rest} (memory_of : rest -> Z) (sha : string -> string) (float_text : f64 -> string) (py_str : val -> string) (key_order : list string) (fuel : nat)
  files (x : unit) (db : database) (di do : dict) (m : val) (s : sys A rest) : sys A rest * result (option (weights A)) :=
  match db, m with
  | FromPath p, VStr t => System.db_find memory_of sha float_text py_str key_order fuel files p di do t s
  | _, _ => (s, Raise NotImplementedError)
  end.
