(** Vocabulary for the statements about public calls with an inventory on a server, in terms of the
    geometry of grids. *)
From Coq Require Import Reals.
From Verif Require Import PyBase PyStr Float64 GridSpec GridVocab FloatReal GridMatchSpec GridReal GridMatch3 GridDecide
  Index Inventory MemCache Regrid RegridSpec System SystemSpec Key CacheFile Remote RemoteSpec Dispatch Api ApiSpec ApiRemoteSpec EndSpec EndRemoteSpec.
Local Open Scope string_scope.
Local Open Scope list_scope.
Local Open Scope Z_scope.

Section Spec.
  Context {A rest blob field : Type}.
  Variable field_values : field -> result (array A).
  Variable field_grid : field -> result (option dict).
  Variable fuel : nat.
  Variable G : string -> result blob.
  Notation pcall := (@pop_call A (@rsys A rest blob) (@meets blob) field).

  (** A dictionary that describes a grid. *)
  Definition for_grid (d : dict) (a : grid) : Prop := plain_dict d /\ reads_as d a /\ bounded fuel a.
  (** Such a dictionary, or what the package makes of it: for fields, the output grid is
      completed before it is used. *)
  Definition means (d : dict) (a : grid) : Prop := exists e, for_grid e a /\ (d = e \/ exists g, from_dict e = Ok g /\ d = gd g).
  (** All that a call asks for is in the inventory at [base], between grids that are described, while
      the server has what it has. *)
  Definition asks_publicly (base : string) (d : pcall) : Prop :=
    forall x base' v di do m, asks_at field_values field_grid d x base' v di do m ->
      base' = base /\ (forall u, sv_get (m_server x) u = G u) /\ exists a b, means di a /\ means do b.
End Spec.
