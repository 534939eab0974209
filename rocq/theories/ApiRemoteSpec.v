(** Vocabulary for the statements about public calls with remote inventories. *)
From Verif Require Import PyBase PyStr Float64 GridSpec GridVocab Index IndexSpec MemCache Regrid RegridSpec System SystemSpec Disk CacheFile Remote RemoteSpec Dispatch Api ApiSpec.
Local Open Scope string_scope.
Local Open Scope list_scope.
Local Open Scope Z_scope.

(** Where an inventory is. *)
Inductive located : database -> string -> Prop :=
| l_system : located SysDb "https://sites.ecmwf.int/repository/earthkit/regrid/db/1/"
| l_url u : u <> "https://sites.ecmwf.int/repository/earthkit/regrid/db/1/" -> located (FromUrl u) u.

Section Spec.
  Context {A rest blob field : Type}.
  Variable field_values : field -> result (array A).
  Variable field_grid : field -> result (option dict).
  Notation pcall := (@pop_call A (@rsys A rest blob) (@meets blob) field).
  Implicit Types (H : list pcall) (x : @meets blob).
  (** A call asks the inventory at [base] for weights from one grid to another. *)
  Definition asks_at (d : pcall) x (base : string) (v : array A) (di do : dict) (m : string) : Prop :=
    exists db, located db base /\ demands field_values field_grid d (mkDemand x db v di do (VStr m)).
  Definition asked_at H x base v di do m : Prop := exists d, In d H /\ asks_at d x base v di do m.
  (** What was served under an address during these calls, and the inventories asked. *)
  Definition served_to H (url : string) (b : blob) : Prop := exists x base v di do m, asked_at H x base v di do m /\ sv_get (m_server x) url = Ok b.
  Definition asked_from H (base : string) : Prop := exists x v di do m, asked_at H x base v di do m.
  (** Another request has a text with the same hash. *)
  Definition collides_at (sha : string -> string) (float_text : f64 -> string) H (gi go : gspec) (m : string) : Prop :=
    exists x base v di do m' gi' go', asked_at H x base v di do m' /\ IndexSpec.request di do gi' go' /\
      text_of float_text gi go m <> text_of float_text gi' go' m' /\ sha (text_of float_text gi go m) = sha (text_of float_text gi' go' m').
  (** The same request was made to no other inventory. *)
  Definition only_at base H (gi go : gspec) (m : string) : Prop :=
    forall x base' v di do gi' go', asked_at H x base' v di do m -> IndexSpec.request di do gi' go' -> same_spec gi gi' -> same_spec go go' -> base' = base.
  (** The server serves the same during all calls. *)
  Definition steady_at (G : string -> result blob) H : Prop := forall x base v di do m, asked_at H x base v di do m -> forall u, sv_get (m_server x) u = G u.
  (** The keys of the files of the inventory differ from those of all other files served, the key
      of its unpacked index from those of the other inventories asked. *)
  Definition apart_at (parse : blob -> result (file rest)) gunzip (sha : string -> string) ext_of (G : string -> result blob) H (base : string) : Prop :=
    (forall u v b, its_file parse gunzip G base u -> G v = Ok b -> ~ clash sha (file_request ext_of u) (file_request ext_of v)) /\
    (forall base', asked_from H base' -> ~ clash sha (unpacked base) (unpacked base')).
End Spec.
