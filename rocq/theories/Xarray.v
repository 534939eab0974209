(** Model of src/earthkit/regrid/data/xarray.py: regridding DataArrays and Datasets.

    xarray and numpy are read as follows.  A DataArray has names for its dimensions, an array, a
    type of numbers, coordinates, and attributes of which only "gridspec" matters.  Arrays are in
    memory (dask arrays are not modelled).  [mir.Grid] and the backend are arbitrary. *)
From Verif Require Import PyBase PyStr Float64 GridSpec Regrid Dispatch.
Local Open Scope string_scope.
Local Open Scope list_scope.
Local Open Scope nat_scope.

Definition mem (d : string) (l : list string) : bool := existsb (String.eqb d) l.
Definition disjoint (a b : list string) : bool := forallb (fun d => negb (mem d b)) a.
Fixpoint nodup (l : list string) : bool := match l with [] => true | d :: r => negb (mem d r) && nodup r end.

Section Xarray.
  (** Numbers, types of numbers (dtype) and numbers as stored in an array of that type; grid
      specifications; what a coordinate may hold apart from floats. *)
  Context {A dtype spec other : Type}.
  Variable cast : dtype -> A -> A.

  Inductive cval := CFloat (f : f64) | COther (o : other).
  Record coord := mkCoord { c_dims : list string; c_data : array cval }.
  Record dataarray := mkDA { da_dims : list string; da_data : array A; da_type : dtype; da_coords : list (string * coord); da_grid : option spec }.
  (** A Dataset: [ds_sizes] are the names of its dimensions in the order of [ds.sizes]; variables
      (with the coordinates that fit them); attributes; the coordinates of all. *)
  Record dataset := mkDS { ds_sizes : list string; ds_vars : list (string * dataarray); ds_coords : list (string * coord); ds_grid : option spec }.
  Inductive xobj := XArray (a : dataarray) | XSet (s : dataset).

  (** mir.Grid: shape, latitudes and longitudes of all points (may fail), specification. *)
  Record geometry := mkGeo { g_shape : list nat; g_latlons : result (list f64 * list f64); g_spec : spec }.
  Variable mir_grid : spec -> result geometry.

  (** utils/__init__.py:69-76 [ensure_list] on what in_dims and out_dims may be *)
  Inductive dimarg := DStr (s : string) | DList (l : list string) | DTuple (l : list string).
  Definition ensure_list (d : dimarg) : list string := match d with DStr s => [s] | DList l => l | DTuple l => l end.

  (** xarray.py:43-54 [to_distinct_latlons], called with the shape of the grid.  [distinct] is
      57-92 (Dispatch.v), on the rows of the latitudes and the columns of the longitudes. *)
  Definition rows_of (r c : nat) (l : list f64) : list (list f64) := map (fun i => map (fun j => nth (i * c + j) l (of_Z 0)) (seq 0 c)) (seq 0 r).
  Definition cols_of (r c : nat) (l : list f64) : list (list f64) := map (fun j => map (fun i => nth (i * c + j) l (of_Z 0)) (seq 0 r)) (seq 0 c).
  Definition to_distinct_latlons (g : geometry) : result (option (list f64 * list f64)) :=
    match g_shape g with
    | [r; c] =>
        ll <- g_latlons g ;;
        if (List.length (fst ll) =? r * c) && (List.length (snd ll) =? r * c) then
          dlat <- distinct (rows_of r c (fst ll)) ;;
          match dlat with
          | None => Ok None
          | Some lat =>
              dlon <- distinct (cols_of r c (snd ll)) ;;
              match dlon with
              | Some lon => if (List.length lat =? r) && (List.length lon =? c) then Ok (Some (lat, lon)) else Ok None
              | None => Ok None
              end
          end
        else Raise ValueError
    | _ => Ok None
    end.
  (** xarray.py:106-117 [geo_dims] *)
  Definition geo_dims (g : geometry) : result (list string) :=
    match List.length (g_shape g) with
    | 0 => Raise ValueError
    | 1 => Ok ["values"]
    | _ => Ok ["latitude"; "longitude"]
    end.
  (** A numpy array of floats as data of a coordinate. *)
  Definition floats (l : list f64) (sh : list nat) : array cval := mkArr sh (fun idx => CFloat (nth (offset sh idx) l (of_Z 0))).
  Definition both (ds : list string) (sh : list nat) (lat lon : list f64) : list (string * coord) :=
    [("latitude", mkCoord ds (floats lat sh)); ("longitude", mkCoord ds (floats lon sh))].
  (** xarray.py:119-184 [coords]: the dimensions and the coordinates.  is_spectral is False
      (40-41). *)
  Definition coords (g : geometry) : result (list (string * nat) * list (string * coord)) :=
    match g_shape g with
    | [n] =>
        match g_latlons g with
        | Ok (lat, lon) => if (List.length lat =? n) && (List.length lon =? n) then Ok ([("values", n)], both ["values"] [n] lat lon) else Raise AssertionError
        | Raise _ => Ok ([("values", n)], [])
        | OutOfFuel => OutOfFuel
        end
    | [r; c] =>
        match to_distinct_latlons g with
        | Ok (Some (lat, lon)) =>
            Ok ([("latitude", r); ("longitude", c)], [("latitude", mkCoord ["latitude"] (floats lat [r])); ("longitude", mkCoord ["longitude"] (floats lon [c]))])
        | OutOfFuel => OutOfFuel
        | _ =>
            ll <- g_latlons g ;;
            if (List.length (fst ll) =? r * c) && (List.length (snd ll) =? r * c)
            then Ok ([("y", r); ("x", c)], both ["y"; "x"] [r; c] (fst ll) (snd ll))
            else Raise ValueError
        end
    | _ => Raise ValueError
    end.

  (** ** xr.apply_ufunc with vectorize=True *)
  (** The size of a dimension; the point with the given indices along the named dimensions, as an
      index of an array with dimensions [ds]. *)
  Definition size (a : dataarray) (d : string) : nat := match alookup d (combine (da_dims a) (shape (da_data a))) with Some n => n | None => 0 end.
  Definition reorder (ds names : list string) (idx : list nat) : list nat :=
    map (fun d => match alookup d (combine names idx) with Some i => i | None => 0 end) ds.
  (** numpy: [r] assigned to a part of shape [n] of an array: leading dimensions of size one are
      dropped, dimensions of size one and missing ones are repeated. *)
  Fixpoint drop_ones (k : nat) (sh : list nat) : option (list nat) :=
    match k, sh with 0, _ => Some sh | S k', 1 :: sh' => drop_ones k' sh' | _, _ => None end.
  Definition assign (n : list nat) (r : array A) : result (list nat -> A) :=
    let extra := List.length (shape r) - List.length n in
    match drop_ones extra (shape r) with
    | None => Raise ValueError
    | Some sh =>
        let k := List.length n - List.length sh in
        if forallb (fun p => (snd p =? fst p) || (snd p =? 1)) (combine (skipn k n) sh)
        then Ok (fun idx => item r (repeat 0 extra ++ map (fun p => if snd p =? 1 then 0 else fst p) (combine (skipn k idx) sh)))
        else Raise ValueError
    end.

  (** The function that is applied keeps a state. *)
  Context {St : Type}.
  Variable method : St -> array A -> St * result (array A).

  (** numpy.vectorize with a signature: calls for each index of the leading dimensions, in order. *)
  Fixpoint loop (slice : list nat -> array A) (known : list (string * nat)) (out_dims : list string)
    (idxs : list (list nat)) (n : option (list nat)) (done : list (list nat -> A)) (st : St) : St * result (option (list nat) * list (list nat -> A)) :=
    match idxs with
    | [] => (st, Ok (n, done))
    | b :: rest =>
        let '(st1, r) := method st (slice b) in
        match r with
        | Ok v =>
            let k := List.length out_dims in
            let core := match n with Some sh => Ok sh | None =>
              if List.length (shape v) <? k then Raise ValueError
              else let sh := skipn (List.length (shape v) - k) (shape v) in
                   if forallb (fun p => match alookup (fst p) known with Some m => snd p =? m | None => true end) (combine out_dims sh) then Ok sh else Raise ValueError end in
            match (sh <- core ;; f <- assign sh v ;; Ok (sh, f)) with
            | Ok (sh, f) => loop slice known out_dims rest (Some sh) (done ++ [f]) st1
            | Raise e => (st1, Raise e)
            | OutOfFuel => (st1, OutOfFuel)
            end
        | Raise e => (st1, Raise e)
        | OutOfFuel => (st1, OutOfFuel)
        end
    end.

  (** xarray's apply_variable_ufunc and apply_dataarray_vfunc for one argument.  A dimension of
      [exclude] may change its size.  Coordinates along dimensions of the input that the output
      does not have, or that are excluded, are dropped; attributes are dropped (keep_attrs is
      False by default); numbers are stored with the type of [output_dtypes], that of the
      argument.  Simplified: out_dims has no repetitions. *)
  Definition apply_ufunc (in_dims out_dims exclude : list string) (a : dataarray) (st : St) : St * result dataarray :=
    let dims := da_dims a in
    let bdims := filter (fun d => negb (mem d in_dims || mem d out_dims)) dims in
    if negb (nodup dims) || negb (nodup in_dims) || negb (forallb (fun d => mem d dims) in_dims) || negb (forallb (fun d => mem d (bdims ++ in_dims)) dims)
    then (st, Raise ValueError)
    else
      let bshape := map (size a) bdims in
      let core := map (size a) in_dims in
      let slice b := mkArr core (fun c => item (da_data a) (reorder dims (bdims ++ in_dims) (b ++ c))) in
      let known := filter (fun p => negb (mem (fst p) exclude)) (combine in_dims core) in
      let '(st1, r) := loop slice known out_dims (indices bshape) None [] st in
      (st1, nd <- r ;;
            sh <- match fst nd with
                  | Some sh => Ok sh
                  | None => if forallb (fun d => amem d known) out_dims then Ok (map (fun d => match alookup d known with Some m => m | None => 0 end) out_dims) else Raise ValueError
                  end ;;
            let k := List.length bshape in
            let data := mkArr (bshape ++ sh) (fun idx => cast (da_type a) (nth (offset bshape (firstn k idx)) (snd nd) (fun _ => item (da_data a) []) (skipn k idx))) in
            let dropped := filter (fun d => negb (mem d out_dims)) in_dims ++ exclude in
            Ok (mkDA (bdims ++ out_dims) data (da_type a) (filter (fun p => disjoint (c_dims (snd p)) dropped) (da_coords a)) None)).

  (** [ds.coords[k] = Variable(...)]: in a DataArray the dimensions must be dimensions of it, of
      the same sizes; in a Dataset they must not have another size. *)
  Definition fits (have : list (string * nat)) (need : bool) (c : coord) : bool :=
    forallb (fun p => match alookup (fst p) have with Some m => snd p =? m | None => negb need end) (combine (c_dims c) (shape (c_data c))).
  Definition sizes_of (a : dataarray) : list (string * nat) := combine (da_dims a) (shape (da_data a)).
  Definition set_coords_array (a : dataarray) (cs : list (string * coord)) : result dataarray :=
    fold_left (fun r p => a <- r ;; if fits (sizes_of a) true (snd p) then Ok (mkDA (da_dims a) (da_data a) (da_type a) (aset (fst p) (snd p) (da_coords a)) (da_grid a)) else Raise ValueError)
      cs (Ok a).
  Definition sizes_ds (s : dataset) : list (string * nat) :=
    flat_map (fun p => sizes_of (snd p)) (ds_vars s) ++ flat_map (fun p => combine (c_dims (snd p)) (shape (c_data (snd p)))) (ds_coords s).
  Definition add_names (l more : list string) : list string := fold_left (fun l d => if mem d l then l else l ++ [d]) more l.
  Definition set_coords_ds (s : dataset) (cs : list (string * coord)) : result dataset :=
    fold_left (fun r p => s <- r ;; if fits (sizes_ds s) false (snd p)
                                   then Ok (mkDS (add_names (ds_sizes s) (c_dims (snd p))) (ds_vars s) (aset (fst p) (snd p) (ds_coords s)) (ds_grid s)) else Raise ValueError)
      cs (Ok s).
  (** [ds_out[name] = var]: dimensions must agree with those there.  Simplified: coordinates of
      the same name are the same, as all come from one Dataset. *)
  Definition add_var (s : dataset) (name : string) (a : dataarray) : result dataset :=
    if forallb (fun p => match alookup (fst p) (sizes_ds s) with Some m => snd p =? m | None => true end) (sizes_of a)
    then Ok (mkDS (add_names (ds_sizes s) (da_dims a)) (aset name a (ds_vars s))
                  (fold_left (fun l p => if amem (fst p) l then l else l ++ [p]) (da_coords a) (ds_coords s)) (ds_grid s))
    else Raise ValueError.
End Xarray.
Arguments coord : clear implicits. Arguments dataarray : clear implicits. Arguments dataset : clear implicits. Arguments xobj : clear implicits. Arguments geometry : clear implicits.

Section Regrid.
  Context {A dtype spec other : Type}.
  Variable cast : dtype -> A -> A.
  Variable mir_grid : spec -> result (geometry spec).
  (** The accessor [ds.earthkit.grid_spec], if it is there. *)
  Variable accessor : xobj A dtype spec other -> option (option spec).
  (** NumpyDataHandler().regrid (data/numpy.py:24-28) with the remaining options; if the caller
      gave grid_spec and it was not used, it is among them.  It may change the state of the process
      (databases, caches). *)
  Context {St : Type}.
  Variable backend : dict -> option spec -> spec -> spec -> array A -> St -> St * result (array A * spec).

  Record args := mkArgs { x_grid : option spec; x_grid_spec : option spec; x_in_dims : option dimarg; x_out_dims : option dimarg; x_rest : dict }.
  Notation dataarray := (dataarray A dtype spec other).
  Notation dataset := (dataset A dtype spec other).
  Notation xobj := (xobj A dtype spec other).

  Definition attr_of (v : xobj) : option spec := match v with XArray a => da_grid a | XSet s => ds_grid s end.
  Definition dims_of (v : xobj) : list string := match v with XArray a => da_dims a | XSet s => ds_sizes s end.
  (** xarray.py:298-312 [_RegridMethod]: the grid returned last is kept, but each call is made
      with the grid asked for.  A call that raises keeps the grid. *)
  Definition regrid_method (kw : dict) (left : option spec) (in_grid out_grid : spec) (st : spec * St) (v : array A) : (spec * St) * result (array A) :=
    let '(s, r) := backend kw left in_grid out_grid v (snd st) in
    match r with
    | Ok (r, out) => ((out, s), Ok r)
    | Raise e => ((fst st, s), Raise e)
    | OutOfFuel => ((fst st, s), OutOfFuel)
    end.
  (** xarray.py:316-330 [_regrid]: output_sizes is made first. *)
  Definition one {T} (m : T -> array A -> T * result (array A)) (shape : list nat) (in_dims out_dims exclude : list string) (a : dataarray) (st : T) : T * result dataarray :=
    if List.length shape <? List.length out_dims then (st, Raise IndexError)
    else apply_ufunc cast m in_dims out_dims exclude a st.
  Fixpoint all_vars {T} (m : T -> array A -> T * result (array A)) (shape : list nat) (in_dims out_dims exclude : list string)
    (vars : list (string * dataarray)) (s : dataset) (st : T) : T * result dataset :=
    match vars with
    | [] => (st, Ok s)
    | (n, a) :: rest =>
        let '(st1, r) := one m shape in_dims out_dims exclude a st in
        match (o <- r ;; add_var s n o) with
        | Ok s1 => all_vars m shape in_dims out_dims exclude rest s1 st1
        | Raise e => (st1, Raise e)
        | OutOfFuel => (st1, OutOfFuel)
        end
    end.
  (** xarray.py:268-313: the grids and the dimensions; the remaining options must not have the name of an
      argument of [_RegridMethod] (299). *)
  Record plan := mkPlan { n_left : option spec; n_in : geometry spec; n_grid : spec; n_out : geometry spec; n_in_dims : list string; n_out_dims : list string }.
  Definition prepare (x : args) (v : xobj) : result plan :=
    ig <- get_in_grid spec (attr_of v) (x_grid_spec x) (accessor v) ;;
    gin <- mir_grid (fst ig) ;;
    grid <- match x_grid x with Some g => Ok g | None => Raise ValueError end ;;
    gout <- mir_grid grid ;;
    in_dims <- match x_in_dims x with Some d => Ok (ensure_list d) | None => xr_geo_dims (dims_of v) end ;;
    out_dims <- match x_out_dims x with Some d => Ok (ensure_list d) | None => geo_dims gout end ;;
    if amem "in_grid" (x_rest x) || amem "out_grid" (x_rest x) || amem "self" (x_rest x) then Raise TypeError
    else Ok (mkPlan (snd ig) gin grid gout in_dims out_dims).
  (** xarray.py:292-294, 331-337: the object or each variable, with the state of [_RegridMethod] *)
  Definition regrid_all {T} (m : T -> array A -> T * result (array A)) (n : plan) (v : xobj) (st : T) : T * result xobj :=
    let exclude := if forallb (fun d => mem d (n_out_dims n)) (n_in_dims n) && forallb (fun d => mem d (n_in_dims n)) (n_out_dims n) then n_in_dims n else [] in
    match v with
    | XArray a => let '(st, r) := one m (g_shape (n_out n)) (n_in_dims n) (n_out_dims n) exclude a st in (st, o <- r ;; Ok (XArray o))
    | XSet s => let '(st, r) := all_vars m (g_shape (n_out n)) (n_in_dims n) (n_out_dims n) exclude (ds_vars s) (mkDS [] [] [] None) st in (st, o <- r ;; Ok (XSet o))
    end.
  (** xarray.py:341-345, with the grid kept *)
  Definition finish (grid : spec) (o : xobj) : result xobj :=
    gnew <- mir_grid grid ;;
    dc <- coords gnew ;;
    match o with
    | XArray a => r <- set_coords_array a (snd dc) ;; Ok (XArray r)
    | XSet s => r <- set_coords_ds s (snd dc) ;; Ok (XSet r)
    end.
  (** xarray.py:265-345 [regrid] *)
  Definition regrid_object (x : args) (v : xobj) (s : St) : St * result xobj :=
    match prepare x v with
    | Ok n =>
        let '(st, r) := regrid_all (regrid_method (x_rest x) (n_left n) (g_spec (n_in n)) (n_grid n)) n v (n_grid n, s) in
        (snd st, o <- r ;; finish (fst st) o)
    | Raise e => (s, Raise e)
    | OutOfFuel => (s, OutOfFuel)
    end.
End Regrid.
(** The same with a backend that has no state. *)
Definition no_state {A spec} (backend : dict -> option spec -> spec -> spec -> array A -> result (array A * spec)) kw left src grid v (s : unit) : unit * result (array A * spec) :=
  (s, backend kw left src grid v).
Definition xr_regrid {A dtype spec other} cast mir_grid (accessor : xobj A dtype spec other -> option (option spec)) backend x v : result (xobj A dtype spec other) :=
  snd (regrid_object cast mir_grid accessor (no_state backend) x v tt).
