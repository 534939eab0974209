(** [earthkit.regrid.regrid] (regrid.py:17-31) for xarray objects (Xarray.v) with the backends and the
    databases (Api.v).  Simplified: a grid specification is a dictionary, also the one that MIR gives
    for a grid. *)
From Verif Require Import PyBase PyStr Float64 GridSpec Regrid System Dispatch Xarray Api.
Local Open Scope string_scope.
Local Open Scope list_scope.
Local Open Scope Z_scope.

Section XarrayApi.
  Context {A dtype other S E : Type}.
  Variable cast : dtype -> A -> A.
  Variable mir_grid : dict -> result (geometry dict).
  Variable accessor : xobj A dtype dict other -> option (option dict).
  Variables (zero : A) (add mul : A -> A -> A).
  Variable find : E -> database -> dict -> dict -> val -> S -> S * result (option (weights A)).
  Variable mir_array : array A -> option dict -> option dict -> dict -> result (array A * dict).
  (** A grid specification as value of a keyword argument. *)
  Variable grid_val : dict -> val.

  (** The keyword arguments that each call gets: those that regrid() got without grid_spec (if it is
      used, xarray.py:227), in_dims and out_dims (273, 280). *)
  Definition remaining (kwargs : dict) (left : option dict) : dict := kwargs ++ match left with Some g => [("grid_spec", grid_val g)] | None => [] end.
  (** data/numpy.py:24-28 [regrid] as called by xarray.py:301-310; it is what array/regrid.py:11-23 does *)
  Definition slice_regrid (x : E) (interpolation backend : val) (kwargs : dict) (left : option dict) (in_grid out_grid : dict) (v : array A) : act (api S) (array A * dict) :=
    array_regrid zero add mul find mir_array x v (Some in_grid) (Some out_grid) interpolation backend (remaining kwargs left).
  (** regrid.py:17-31 [regrid] with data/xarray.py:265-345.  [w] has the grid and the other keyword
      arguments. *)
  Definition xarray_regrid (x : E) (interpolation backend : val) (w : args) (v : xobj A dtype dict other) : act (api S) (xobj A dtype dict other) :=
    regrid_object cast mir_grid accessor (slice_regrid x interpolation backend) w v.
End XarrayApi.
