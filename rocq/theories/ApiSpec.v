(** Vocabulary for the statements about the public functions. *)
From Verif Require Import PyBase PyStr Float64 GridSpec GridVocab Index IndexSpec Regrid RegridSpec System SystemSpec Dispatch Api.
Local Open Scope string_scope.
Local Open Scope list_scope.
Local Open Scope Z_scope.

(** The database that an inventory names. *)
Inductive names_db : val -> database -> Prop :=
| n_default : names_db VNone SysDb
| n_system : names_db (VStr "ecmwf") SysDb
| n_url s r : s = ("http://" ++ r)%string \/ s = ("https://" ++ r)%string -> names_db (VStr s) (FromUrl s)
| n_path s : s <> "" -> s <> "ecmwf" -> (forall r, s <> ("http://" ++ r)%string /\ s <> ("https://" ++ r)%string) -> names_db (VStr s) (FromPath s).
(** Keyword arguments that give the inventory, under the name [k], and nothing else. *)
Inductive only_inventory (k : string) : dict -> database -> Prop :=
| oi_none : only_inventory k [] SysDb
| oi_some v db : names_db v db -> only_inventory k [(k, v)] db.

(** What must come out, given the weights found: the array of the stored shape with the weights
    applied; an exception if nothing was found or the sizes do not fit. *)
Inductive outcome {A} (zero : A) (add mul : A -> A -> A) (values : array A) (out_grid : dict)
  : result (option (csr A * val)) -> result (array A * dict) -> Prop :=
| oc_failed e : outcome zero add mul values out_grid (Raise e) (Raise e)
| oc_fuel : outcome zero add mul values out_grid OutOfFuel OutOfFuel
| oc_nothing : outcome zero add mul values out_grid (Ok None) (Raise ValueError)
| oc_applied z v n r : is_shape v n -> applies zero add mul z n values r -> outcome zero add mul values out_grid (Ok (Some (z, v))) (Ok (r, out_grid))
| oc_unfit z v e : (forall n, is_shape v n -> prod (shape values) = n_cols z -> prod n = n_rows z -> False) -> outcome zero add mul values out_grid (Ok (Some (z, v))) (Raise e).

(** The arguments of regrid() for the deprecated ones of interpolate(). *)
Inductive same_source : dict -> dict -> Prop :=
| ss_none : same_source [] []
| ss_default : same_source [("matrix_source", VNone)] []
| ss_some v : v <> VNone -> same_source [("matrix_source", v)] [("inventory", v)].

(** ** Requests to inventories *)
Section Asks.
  Context {A S E field : Type}.
  Variable field_values : field -> result (array A).
  Variable field_grid : field -> result (option dict).
  Definition gives (k : string) (kw : dict) (db : database) : Prop := exists v, alookup k kw = Some v /\ names_db v db.
  (** The values and the input grid of a field, unless the grid is given. *)
  Definition of_field (f : field) (given : option dict) (v : array A) (di : dict) : Prop :=
    field_values f = Ok v /\ match given with Some d => di = d | None => field_grid f = Ok (Some di) end.
  (** The call asks the inventory at a path for weights from one grid to another. *)
  Inductive asks : @pop_call A S E field -> sop A -> Prop :=
  | a_array x v di do m kw p : gives "inventory" kw (FromPath p) ->
      asks (PArray x v (Some di) (Some do) (VStr m) (VStr "precomputed") kw) (Call p v di do m)
  | a_fields x fs f v di g gs m kw p : In f fs -> of_field f None v di -> from_dict g = Ok gs -> gives "inventory" kw (FromPath p) ->
      asks (PRegrid x (DFields fs) (Some g) (VStr m) (VStr "precomputed") kw) (Call p v di (gd gs) m)
  | a_field x f v di g gs m kw p : of_field f None v di -> from_dict g = Ok gs -> gives "inventory" kw (FromPath p) ->
      asks (PRegrid x (DField f) (Some g) (VStr m) (VStr "precomputed") kw) (Call p v di (gd gs) m)
  | a_old_array x v di do m kw p : gives "matrix_source" kw (FromPath p) ->
      asks (PInterpolate x (DArray v) (Some di) (Some do) (VStr m) kw) (Call p v di do m)
  | a_old_fields x fs f v d di g gs m kw p : In f fs -> of_field f d v di -> from_dict g = Ok gs -> gives "matrix_source" kw (FromPath p) ->
      asks (PInterpolate x (DFields fs) d (Some g) (VStr m) kw) (Call p v di (gd gs) m).
  (** An earlier call asked for something else whose text has the same hash. *)
  Definition call_collides (sha : string -> string) (float_text : f64 -> string) (h : list (@pop_call A S E field)) (gi go : gspec) (m : string) : Prop :=
    exists c path values di do m' gi' go', In c h /\ asks c (Call path values di do m') /\ IndexSpec.request di do gi' go' /\
      text_of float_text gi go m <> text_of float_text gi' go' m' /\ sha (text_of float_text gi go m) = sha (text_of float_text gi' go' m').
  (** The same request was made to no other inventory. *)
  Definition call_asked_only (path : string) (h : list (@pop_call A S E field)) (gi go : gspec) (m : string) : Prop :=
    forall c path' values di do gi' go', In c h -> asks c (Call path' values di do m) -> IndexSpec.request di do gi' go' ->
      same_spec gi gi' -> same_spec go go' -> path' = path.
End Asks.

(** What public calls may ask the databases for. *)
Record demand (A E : Type) := mkDemand { dm_meets : E; dm_db : database; dm_values : array A; dm_in : dict; dm_out : dict; dm_method : val }.
Arguments mkDemand {A E}. Arguments dm_meets {A E}. Arguments dm_db {A E}. Arguments dm_values {A E}. Arguments dm_in {A E}. Arguments dm_out {A E}. Arguments dm_method {A E}.
Section Demands.
  Context {A S E field : Type}.
  Variable field_values : field -> result (array A).
  Variable field_grid : field -> result (option dict).
  (** The inventory given under the name [k]; the system inventory if there is none. *)
  Definition picks (k : string) (kw : dict) (db : database) : Prop := match alookup k kw with Some v => names_db v db | None => db = SysDb end.
  Inductive demands : @pop_call A S E field -> demand A E -> Prop :=
  | d_array x v di do m kw db : picks "inventory" kw db ->
      demands (PArray x v (Some di) (Some do) m (VStr "precomputed") kw) (mkDemand x db v di do m)
  | d_fields x fs f v di g gs m kw db : In f fs -> of_field field_values field_grid f None v di -> from_dict g = Ok gs -> picks "inventory" kw db ->
      demands (PRegrid x (DFields fs) (Some g) m (VStr "precomputed") kw) (mkDemand x db v di (gd gs) m)
  | d_field x f v di g gs m kw db : of_field field_values field_grid f None v di -> from_dict g = Ok gs -> picks "inventory" kw db ->
      demands (PRegrid x (DField f) (Some g) m (VStr "precomputed") kw) (mkDemand x db v di (gd gs) m)
  | d_old_array x v di do m kw db : picks "matrix_source" kw db ->
      demands (PInterpolate x (DArray v) (Some di) (Some do) m kw) (mkDemand x db v di do m)
  | d_old_fields x fs f v d di g gs m kw db : In f fs -> of_field field_values field_grid f d v di -> from_dict g = Ok gs -> picks "matrix_source" kw db ->
      demands (PInterpolate x (DFields fs) d (Some g) m kw) (mkDemand x db v di (gd gs) m).
End Demands.
