(** Vocabulary for the statements about public calls with a local inventory, in terms of the geometry of
    grids. *)
From Coq Require Import Reals.
From Verif Require Import PyBase PyStr Float64 GridSpec GridVocab FloatReal GridMatchSpec GridReal GridMatch3 GridDecide
  Index Inventory MemCache Regrid RegridSpec System SystemSpec Key CacheFile Remote RemoteSpec Dispatch Api ApiSpec ApiRemoteSpec EndSpec EndRemoteSpec EndApiSpec.
Local Open Scope string_scope.
Local Open Scope list_scope.
Local Open Scope Z_scope.

Section Spec.
  Context {A rest field : Type}.
  Variable field_values : field -> result (array A).
  Variable field_grid : field -> result (option dict).
  Variable fuel : nat.
  Variable files : fs rest (csr A).
  Notation pcall := (@pop_call A (sys A rest) unit field).
  (** All that a call asks for is in an inventory, between grids that are described. *)
  Definition asks_inventories (d : pcall) : Prop :=
    forall path v di do m, ApiSpec.asks field_values field_grid d (Call path v di do m) ->
      (exists l, is_inventory fuel files path l) /\ exists a b, means fuel di a /\ means fuel do b.
  (** Only the inventory at [path] was asked for what may be this request. *)
  Definition asked_only_here (path : string) (H : list pcall) (a0 b0 : grid) (m : string) : Prop :=
    forall d path' v di do a b, In d H -> ApiSpec.asks field_values field_grid d (Call path' v di do m) -> means fuel di a -> means fuel do b ->
      near_grid a a0 -> near_grid b b0 -> path' = path.
End Spec.
