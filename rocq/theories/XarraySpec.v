(** Vocabulary for the statements about xarray objects. *)
From Verif Require Import PyBase PyStr Float64 GridSpec Regrid RegridSpec Dispatch Xarray.
Local Open Scope string_scope.
Local Open Scope list_scope.
Local Open Scope nat_scope.

(** A point is given by an index for each name of a dimension. *)
Definition point := string -> nat.
(** The point that has the indices [c] along [ds] and otherwise those of [p]. *)
Fixpoint place (p : point) (ds : list string) (c : list nat) : point :=
  match ds, c with d :: ds', i :: c' => fun x => if String.eqb x d then i else place p ds' c' x | _, _ => p end.

Section Spec.
  Context {A dtype spec other : Type}.
  Notation dataarray := (dataarray A dtype spec other).
  Notation coord := (coord other).

  Definition value_at (a : dataarray) (p : point) : A := item (da_data a) (map p (da_dims a)).
  Definition coord_at (c : coord) (p : point) : cval (other := other) := item (c_data c) (map p (c_dims c)).
  Definition sized (a : dataarray) (d : string) (k : nat) : Prop := In (d, k) (combine (da_dims a) (shape (da_data a))).
  Definition well_formed (a : dataarray) : Prop := NoDup (da_dims a) /\ List.length (da_dims a) = List.length (shape (da_data a)).
  (** The dimensions of [a] that are not in [ds], in order. *)
  Definition others (a : dataarray) (ds : list string) : list string := filter (fun d => if in_dec string_dec d ds then false else true) (da_dims a).
  (** The part of [a] at the point [p], along the dimensions [ds] of sizes [sh]. *)
  Definition part (a : dataarray) (p : point) (ds : list string) (sh : list nat) : array A := mkArr sh (fun c => value_at a (place p ds c)).

  (** [l] lists the parts along [in_dims] at all points of the other dimensions, in row-major order. *)
  Definition listing (a : dataarray) (in_dims : list string) (l : list (array A)) : Prop :=
    exists sh core, Forall2 (sized a) (others a in_dims) sh /\ Forall2 (sized a) in_dims core /\ List.length l = prod sh /\
      forall p, (forall d k, In d (others a in_dims) -> sized a d k -> p d < k) ->
        exists v, nth_error l (offset sh (map p (others a in_dims))) = Some v /\ same_array v (part a p in_dims core).

  Variable cast : dtype -> A -> A.
  (** [r] is [a] with each part along [in_dims] replaced by what [call] makes of it, an array of
      shape [n] along [out_dims]. *)
  Definition sliced (call : array A -> array A -> Prop) (in_dims out_dims : list string) (n : list nat) (a r : dataarray) : Prop :=
    da_dims r = others a in_dims ++ out_dims /\ da_type r = da_type a /\ well_formed r /\
    (forall d k, In d (others a in_dims) -> (sized r d k <-> sized a d k)) /\
    Forall2 (sized r) out_dims n /\
    exists sh, Forall2 (sized a) in_dims sh /\
      forall p, (forall d k, In d (others a in_dims) -> sized a d k -> p d < k) ->
        exists v vals, same_array v (part a p in_dims sh) /\ call v vals /\ shape vals = n /\
          forall c, valid n c -> value_at r (place p out_dims c) = cast (da_type a) (item vals c).

  (** The dimensions of the input and of the output that a call is about: as given, or by name and
      by the shape of the target grid. *)
  Definition input_dims (given : option dimarg) (dims ds : list string) : Prop :=
    match given with
    | Some (DStr s) => ds = [s]
    | Some (DList l) | Some (DTuple l) => ds = l
    | None => (exists pre, dims = pre ++ ds) /\ (ds = ["values"] \/ ds = ["latitude"; "longitude"])
    end.
  Definition output_dims (given : option dimarg) (shape : list nat) (ds : list string) : Prop :=
    match given with
    | Some (DStr s) => ds = [s]
    | Some (DList l) | Some (DTuple l) => ds = l
    | None => (exists n, shape = [n]) /\ ds = ["values"] \/ (exists r c more, shape = r :: c :: more) /\ ds = ["latitude"; "longitude"]
    end.

  (** Latitude and longitude of a point of a grid, points in row-major order. *)
  Definition lat_of (g : geometry spec) (idx : list nat) (x : f64) : Prop := exists lat lon, g_latlons g = Ok (lat, lon) /\ nth_error lat (offset (g_shape g) idx) = Some x.
  Definition lon_of (g : geometry spec) (idx : list nat) (x : f64) : Prop := exists lat lon, g_latlons g = Ok (lat, lon) /\ nth_error lon (offset (g_shape g) idx) = Some x.
  (** The points are listed: as many latitudes and longitudes as points. *)
  Definition listed (g : geometry spec) : Prop := exists lat lon, g_latlons g = Ok (lat, lon) /\ List.length lat = prod (g_shape g) /\ List.length lon = prod (g_shape g).
  (** A regular grid: at least two rows and two columns of finite numbers, the latitude is the same
      along each row and the longitude along each column. *)
  Definition regular (g : geometry spec) (r c : nat) : Prop :=
    g_shape g = [r; c] /\ 2 <= r /\ 2 <= c /\ listed g /\
    (forall i j j' x y, i < r -> j < c -> j' < c -> lat_of g [i; j] x -> lat_of g [i; j'] y -> x = y /\ finite x = true) /\
    (forall i i' j x y, i < r -> i' < r -> j < c -> lon_of g [i; j] x -> lon_of g [i'; j] y -> x = y /\ finite x = true).
  (** Grids whose coordinates can be given: one-dimensional or regular. *)
  Definition describable (g : geometry spec) : Prop := (exists n, g_shape g = [n]) /\ listed g \/ exists r c, regular g r c.
  (** The coordinates [cs] give, on dimensions of [dims], latitude and longitude of each point. *)
  Definition located (g : geometry spec) (dims : list string) (cs : list (string * coord)) : Prop :=
    exists lat lon, alookup "latitude" cs = Some lat /\ alookup "longitude" cs = Some lon /\
      incl (c_dims lat) dims /\ incl (c_dims lon) dims /\
      forall p idx, valid (g_shape g) idx ->
        (exists x, lat_of g idx x /\ coord_at lat (place p dims idx) = CFloat x) /\
        (exists x, lon_of g idx x /\ coord_at lon (place p dims idx) = CFloat x).
End Spec.

(** The input grid: the attribute of the data, else the one given, else that of the accessor; what
    is given and not used is [left]. *)
Definition source {spec} (attr given : option spec) (acc : option (option spec)) (src : spec) (left : option spec) : Prop :=
  (attr = Some src /\ left = given) \/ (attr = None /\ given = Some src /\ left = None) \/
  (attr = None /\ given = None /\ acc = Some (Some src) /\ left = None).

Section Calls.
  Context {A dtype spec other : Type}.
  Variable mir_grid : spec -> result (geometry spec).
  Variable backend : dict -> option spec -> spec -> spec -> array A -> result (array A * spec).
  (** The backend delivers arrays of the shape of the target grid, which has a dimension for each
      of those of the output. *)
  Definition delivers (x : args (spec := spec)) : Prop :=
    forall grid gout out_dims, x_grid x = Some grid -> mir_grid grid = Ok gout -> output_dims (x_out_dims x) (g_shape gout) out_dims ->
      NoDup out_dims /\ List.length out_dims = List.length (g_shape gout) /\
      forall left src v o out, backend (x_rest x) left src grid v = Ok (o, out) -> shape o = g_shape gout.
  (** The grid that it returns is [g]. *)
  Definition returns (x : args (spec := spec)) (g : geometry spec) : Prop :=
    forall grid left src v o out, x_grid x = Some grid -> backend (x_rest x) left src grid v = Ok (o, out) -> mir_grid out = Ok g.
  (** No dimension other than [ds] has size zero. *)
  Definition nonempty (a : dataarray A dtype spec other) (ds : list string) : Prop := forall d, In d (others a ds) -> ~ sized a d 0.
End Calls.
