(** Model of the way a call of regrid() reaches a backend: src/earthkit/regrid/regrid.py,
    array/regrid.py, data/__init__.py, data/handler.py, data/numpy.py, data/fieldlist.py,
    data/grib.py, backends/__init__.py, backends/mir.py and [get_db] of backends/precomputed.py. *)
From Verif Require Import PyBase PyStr Float64 GridSpec.
Local Open Scope string_scope.
Local Open Scope list_scope.
Local Open Scope Z_scope.

(** ** Input kinds *)
(** What the isinstance tests of the handlers answer for a value; arbitrary, because classes can
    be derived from one another. *)
Record kinds := mkKinds { k_fieldlist : bool; k_field : bool; k_bytes : bool; k_bytesio : bool; k_dataarray : bool; k_dataset : bool }.
(** Modules imported so far (utils/__init__.py [is_module_loaded]). *)
Record modules := mkModules { earthkit_data : bool; xarray : bool }.
Inductive handler := HFieldList | HField | HGrib | HXarray.
(** data/fieldlist.py:18-30 and 118-130, data/grib.py:18-28, data/xarray.py:203-215 [match] *)
Definition matches (ms : modules) (v : kinds) (h : handler) : bool :=
  match h with
  | HFieldList => earthkit_data ms && k_fieldlist v
  | HField => earthkit_data ms && k_field v
  | HGrib => k_bytes v || k_bytesio v
  | HXarray => xarray ms && (k_dataarray v || k_dataset v)
  end.
(** data/__init__.py:13-34 *)
Definition DATA_HANDLERS : list handler := [HFieldList; HField; HGrib; HXarray].
Definition get_data_handler (ms : modules) (v : kinds) : option handler := find (matches ms v) DATA_HANDLERS.
(** regrid.py:17-31: the handler's [regrid] is called, or ValueError. *)
Definition dispatch (ms : modules) (v : kinds) : result handler :=
  match get_data_handler ms v with Some h => Ok h | None => Raise ValueError end.

(** ** Keyword arguments *)
Definition pop (k : string) (d : dict) : option val * dict := (alookup k d, aremove k d).
(** data/handler.py:17 *)
Definition OPTIONAL_BACKENDS_KWARGS : list string := ["inventory"].
(** data/handler.py:25-34 [backend_from_kwargs]: the name, the arguments of the backend and the
    remaining keyword arguments. *)
Definition backend_from_kwargs (kwargs : dict) : result (val * dict * dict) :=
  let '(b, kw) := pop "backend" kwargs in
  match b with
  | None | Some VNone => Raise ValueError
  | Some name =>
      let '(b_kw, kw') := fold_left (fun p k => let '(bk, kw) := p in
        match alookup k kw with Some v => (bk ++ [(k, v)], aremove k kw) | None => p end) OPTIONAL_BACKENDS_KWARGS ([], kw) in
      Ok (name, b_kw, kw')
  end.

(** ** Backends: one object per key *)
Section Maker.
  (** backends/__init__.py:59-64 [_make_key] for calls with keyword arguments only, which is how
      handler.py calls it.  A tuple never equals a string; items are compared in order. *)
  Inductive bkey := KName (name : string) | KTuple (name : string) (items : dict).
  Definition make_key (name : string) (kwargs : dict) : bkey :=
    match kwargs with [] => KName name | _ => KTuple name kwargs end.
  Fixpoint items_eq (a b : dict) : bool :=
    match a, b with
    | [], [] => true
    | (k, v) :: a', (k', v') :: b' => String.eqb k k' && py_eq v v' && items_eq a' b'
    | _, _ => false
    end.
  Definition key_eq (a b : bkey) : bool :=
    match a, b with
    | KName n, KName m => String.eqb n m
    | KTuple n l, KTuple m l' => String.eqb n m && items_eq l l'
    | _, _ => false
    end.
  Definition key_hashable (k : bkey) : bool :=
    match k with KName _ => true | KTuple _ l => forallb (fun p => hashable (snd p)) l end.

  (** An object: its identity (the number of objects made before) and what it was made with. *)
  Record obj := mkObj { o_id : nat; o_name : string; o_kwargs : dict }.
  Record maker := mkMaker { m_objects : list (bkey * obj); m_count : nat }.
  (** Names of the backend classes found in the directory (backends/__init__.py:84-107; db.py has no attribute [backend]). *)
  Definition BACKENDS : list string := ["mir"; "precomputed"].
  Variable backends : list string.
  (** The constructor of the class: may raise. *)
  Variable construct : string -> dict -> result unit.
  (** backends/__init__.py:66-82 [__call__] *)
  Definition get_backend (m : maker) (name : string) (kwargs : dict) : maker * result obj :=
    let key := make_key name kwargs in
    if negb (key_hashable key) then (m, Raise TypeError)
    else match find (fun p => key_eq (fst p) key) (m_objects m) with
         | Some (_, o) => (m, Ok o)
         | None =>
             if existsb (String.eqb name) backends then
               match construct name kwargs with
               | Ok _ => let o := mkObj (m_count m) name kwargs in
                         (mkMaker (m_objects m ++ [(key, o)]) (S (m_count m)), Ok o)
               | Raise e => (m, Raise e)
               | OutOfFuel => (m, OutOfFuel)
               end
             else (m, Raise ValueError)
         end.
  Fixpoint calls (m : maker) (l : list (string * dict)) : maker * list (result obj) :=
    match l with
    | [] => (m, [])
    | (n, kw) :: r => let '(m1, x) := get_backend m n kw in let '(m2, xs) := calls m1 r in (m2, x :: xs)
    end.
End Maker.

(** precomputed.py:52-66 [get_db] *)
Inductive database := SysDb | FromUrl (url : string) | FromPath (path : string).
Definition prefix (p s : string) : bool := starts_with (chars p) (chars s).
Definition get_db (path_or_url : val) : result database :=
  match path_or_url with
  | VNone => Ok SysDb
  | VStr s => if String.eqb s "ecmwf" then Ok SysDb
              else if prefix "http://" s || prefix "https://" s then Ok (FromUrl s)
              else if negb (String.eqb s "") then Ok (FromPath s)
              else Raise ValueError
  | _ => Raise AttributeError
  end.

(** ** MIR jobs *)
Section Mir.
  Variable py_str : val -> string.
  Inductive jval := JGrid (g : dict) | JVal (v : val).
  (** mir.Job: the options that were set; external, taken to be a dictionary. *)
  Definition job := list (string * jval).
  Definition join_slash (l : list string) : string := String.concat "/" l.
  (** backends/mir.py:18-26 [normalise_area] *)
  Definition normalise_area (area : val) : result val :=
    match area with
    | VStr s => Ok (VStr s)
    | VList l | VTup l => if (List.length l =? 4)%nat then Ok (VStr (join_slash (map py_str l))) else Raise ValueError
    | _ => Raise ValueError
    end.
  (** backends/mir.py:28-41 [adjust_options] *)
  Definition adjust_options (grid kwargs : dict) : result (dict * dict) :=
    match alookup "area" grid with
    | Some a => n <- normalise_area a ;; Ok (aremove "area" grid, aset "area" n kwargs)
    | None => Ok (grid, kwargs)
    end.
  (** The signature of backends/mir.py:43-53 and 80-89. *)
  Definition signature : dict :=
    [("interpolation", VStr "linear"); ("nearest_method", VStr "automatic"); ("distance", VInt 1);
     ("distance_tolerance", VInt 1); ("nclosest", VInt 4)].
  Definition bind_options (kwargs : dict) : result dict :=
    if forallb (fun p => amem (fst p) signature) kwargs
    then Ok (map (fun p => (fst p, match alookup (fst p) kwargs with Some v => v | None => snd p end)) signature)
    else Raise TypeError.
  Definition set_all (j : job) (d : dict) : job := fold_left (fun j p => aset (fst p) (JVal (snd p)) j) d j.
  (** backends/mir.py:43-77 [regrid]: the job that is executed.  The dictionary of options made
      first is not used. *)
  Definition array_job (out_grid kwargs : dict) : result job :=
    opts <- bind_options kwargs ;;
    gk <- adjust_options out_grid [] ;;
    interpolation <- dget "interpolation" opts ;;
    Ok (set_all (aset "interpolation" (JVal interpolation) (aset "grid" (JGrid (fst gk)) [])) (snd gk)).
  (** backends/mir.py:80-117 [regrid_grib] *)
  Definition grib_job (grid kwargs : dict) : result job :=
    opts <- bind_options kwargs ;;
    gk <- adjust_options grid opts ;;
    Ok (set_all (aset "grid" (JGrid (fst gk)) []) (snd gk)).
End Mir.

(** ** Field lists *)
Section Fields.
  Variables (field message values meta : Type).
  (** data/fieldlist.py:72-87 and 100-114, the two loops.  What they do with one field is given:
      reading its values and grid, the backend, the metadata of the result; each may raise. *)
  Variable regrid_one : field -> dict -> result (values * dict).
  Variable out_field : field -> values -> dict -> result field.
  (** data/fieldlist.py:57-87 [_regrid_array]: the grid returned by the backend is used for the
      fields that follow. *)
  Fixpoint array_loop (fs : list field) (out_grid : dict) (r : list field) : result (list field) :=
    match fs with
    | [] => Ok r
    | f :: fs' => vg <- regrid_one f out_grid ;;
                  o <- out_field f (fst vg) (snd vg) ;;
                  array_loop fs' (snd vg) (r ++ [o])
    end.
  Definition is_regular_ll (g : gspec) : bool := match cls g with LL => true | _ => false end.
  Definition regrid_array (fs : list field) (grid : dict) : result (list field) :=
    g <- from_dict grid ;;
    if is_regular_ll g then array_loop fs (gd g) [] else Raise ValueError.
  (** data/fieldlist.py:89-114 [_regrid_grib] *)
  Variable to_message : field -> result message.
  Variable grib_one : message -> dict -> result field.
  Fixpoint grib_loop (fs : list field) (grid : dict) (r : list field) : result (list field) :=
    match fs with
    | [] => Ok r
    | f :: fs' => m <- to_message f ;; o <- grib_one m grid ;; grib_loop fs' grid (r ++ [o])
    end.
  Definition regrid_grib (fs : list field) (grid : dict) : result (list field) := grib_loop fs grid [].
  (** data/fieldlist.py:132-136: a single field is a list of one, and the first of the result. *)
  Definition single (regrid : list field -> dict -> result (list field)) (f : field) (grid : dict) : result field :=
    l <- regrid [f] grid ;; match l with x :: _ => Ok x | [] => Raise IndexError end.
End Fields.

(** ** xarray *)
(** data/xarray.py:187-199 [xr_geo_dims]: the geographical dimensions, from the names of all. *)
Definition xr_geo_dims (dims : list string) : result (list string) :=
  match rev dims with
  | last :: before =>
      if String.eqb last "values" then Ok ["values"]
      else match before with
           | last2 :: _ => if String.eqb last2 "latitude" && String.eqb last "longitude"
                           then Ok ["latitude"; "longitude"] else Raise ValueError
           | [] => Raise ValueError
           end
  | [] => Raise ValueError
  end.
Section Xr.
  Variable grid : Type.
  (** data/xarray.py:217-236 [get_in_grid]: the attribute of the data, else the keyword argument
      grid_spec, else the accessor [ds.earthkit] (absent: AttributeError, caught).  The grid and
      whether the keyword argument is still among the arguments. *)
  Definition get_in_grid (attr kwarg : option grid) (accessor : option (option grid)) : result (grid * option grid) :=
    match attr with
    | Some g => Ok (g, kwarg)
    | None => match kwarg with
              | Some g => Ok (g, None)
              | None => match accessor with
                        | Some (Some g) => Ok (g, None)
                        | _ => Raise ValueError
                        end
              end
    end.
End Xr.

(** data/xarray.py:57-92 [_distinct_lats] and [_distinct_lons]: numpy.diff and numpy.allclose
    (defaults rtol 1e-5, atol 1e-8; equal infinities are close, NaN is not). *)
Definition feqb (a b : f64) : bool := match SpecFloat.SFcompare a b with Some Eq => true | _ => false end.
Definition fleb (a b : f64) : bool := match SpecFloat.SFcompare a b with Some (Eq | Lt) => true | _ => false end.
Definition isclose (a b : f64) : bool :=
  if finite b then fleb (fabs (fsub a b)) (fadd (lit 1 100000000) (fmul (lit 1 100000) (fabs b))) else feqb a b.
Fixpoint diff (l : list f64) : list f64 :=
  match l with a :: (b :: _) as r => fsub b a :: diff r | _ => [] end.
(** One row: its first value if it is accepted, None if not; a row of one value has no
    differences, and [delta[0]] is an IndexError. *)
Definition distinct_row (vals : list f64) : result (option f64) :=
  match diff vals with
  | [] => Raise IndexError
  | (d :: _) as delta => match vals with
                       | v :: _ => Ok (if forallb (fun x => isclose x d) delta then Some v else None)
                       | [] => Raise IndexError
                       end
  end.
Fixpoint distinct_loop (rows : list (list f64)) (r : list f64) : result (option (list f64)) :=
  match rows with
  | [] => Ok (Some r)
  | vals :: rows' => x <- distinct_row vals ;;
                     match x with Some v => distinct_loop rows' (r ++ [v]) | None => Ok None end
  end.
Definition distinct (rows : list (list f64)) : result (option (list f64)) :=
  match rows with [] => Ok None | _ => distinct_loop rows [] end.
