(** Vocabulary for the statements about public calls with inventories of all kinds in one process, in
    terms of the geometry of grids. *)
From Coq Require Import Reals.
From Verif Require Import PyBase PyStr Float64 GridSpec GridVocab FloatReal GridMatchSpec GridReal GridMatch3 GridDecide
  Index Inventory MemCache Regrid RegridSpec System SystemSpec Key CacheFile Remote RemoteSpec Dispatch Api ApiSpec ApiRemoteSpec Every EverySpec EndSpec EndRemoteSpec EndApiSpec.
Local Open Scope string_scope.
Local Open Scope list_scope.
Local Open Scope Z_scope.

Section Spec.
  Context {A rest blob field : Type}.
  Variable parse : blob -> result (file rest).
  Variable gunzip : blob -> result blob.
  Variable digest : blob -> result string.
  Variable read_sha : blob -> result string.
  Variable load_npz : blob -> result (csr A).
  Variable sha : string -> string.
  Variable ext_of : string -> string.
  Variable field_values : field -> result (array A).
  Variable field_grid : field -> result (option dict).
  Variable fuel : nat.
  (** What the directories and the servers have. *)
  Variable files : fs rest (csr A).
  Variable G : string -> result blob.
  Notation emeets := (@emeets A rest blob).
  Notation pcall := (@pop_call A (@esys A rest blob) emeets field).
  Notation serves := (serves parse gunzip digest read_sha fuel G).

  (** There is an inventory with these entries; of one on a server, the names in the cache are its
      own. *)
  Inductive inventory_at : place -> list (string * raw rest) -> Prop :=
  | in_directory path l : is_inventory fuel files path l -> inventory_at (Here path) l
  | on_server base l : serves base l -> own_names sha ext_of fuel G base l ->
      (forall base' l', serves base' l' -> ~ RemoteSpec.clash sha (unpacked base) (unpacked base')) -> inventory_at (There base) l.
  (** The weights of an entry and the shape of its output. *)
  Definition has_weights (q : place) (e : string * raw rest) (z : csr A) (n : list nat) : Prop :=
    match q with Here path => provides fuel files path e z n | There base => offers load_npz fuel G base e z n end.
  (** A call that asks there meets what is there. *)
  Definition unchanged (x : emeets) (q : place) : Prop :=
    match q with
    | Here _ => forall p, alookup p (em_files x) = alookup p files
    | There _ => forall u, sv_get (m_server (em_net x)) u = G u
    end.
  Definition asks_known (d : pcall) : Prop :=
    forall x q v di do m, requests field_values field_grid d x q v di do m ->
      unchanged x q /\ (exists l, inventory_at q l) /\ exists a b, means fuel di a /\ means fuel do b.
  (** What may be this request was made to the inventory at [q] only. *)
  Definition asked_only_at (q : place) (H : list pcall) (a0 b0 : grid) (m : string) : Prop :=
    forall x q' v di do a b, requested field_values field_grid H x q' v di do m -> means fuel di a -> means fuel do b ->
      near_grid a a0 -> near_grid b b0 -> q' = q.
  Definition proper_everywhere : Prop :=
    (forall p z, alookup p files = Some (Weights z) -> proper_csr z) /\ proper_there load_npz G.
End Spec.
