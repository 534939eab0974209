(** Vocabulary for the statements about inventories of all kinds in one process. *)
From Verif Require Import PyBase PyStr Float64 GridSpec GridVocab Index IndexSpec Inventory MemCache Regrid RegridSpec System SystemSpec
  Disk DiskSpec Key Props_Key CacheFile Remote RemoteSpec Dispatch Api ApiSpec Every.
Local Open Scope string_scope.
Local Open Scope list_scope.
Local Open Scope Z_scope.

(** Where an inventory is: in a directory, or at an address. *)
Inductive place := Here (path : string) | There (base : string).
Inductive placed : database -> place -> Prop :=
| pl_system : placed SysDb (There "https://sites.ecmwf.int/repository/earthkit/regrid/db/1/")
| pl_url u : placed (FromUrl u) (There u)
| pl_path p : placed (FromPath p) (Here p).

Section Spec.
  Context {A rest blob : Type}.
  Variable parse : blob -> result (file rest).
  Variable gunzip : blob -> result blob.
  Variable load_npz : blob -> result (csr A).
  Variable sha : string -> string.
  Variable ext_of : string -> string.
  Variables (py_str : val -> string) (key_order : list string) (fuel : nat).
  Notation emeets := (@emeets A rest blob).
  Implicit Types (x : emeets) (gi go : gspec) (q : place).
  (** [C x q]: a call that met [x] asked the inventory at [q]. *)
  Variable C : emeets -> place -> Prop.
  (** What was served during such calls, and the remote inventories asked. *)
  Definition served_in (url : string) (b : blob) : Prop := exists x base, C x (There base) /\ sv_get (m_server (em_net x)) url = Ok b.
  Definition asked_in (base : string) : Prop := exists x, C x (There base).
  (** The index of the directory at [path] during such a call. *)
  Definition seen_in (path : string) (i : index rest) : Prop := exists x, C x (Here path) /\ local_index path (em_files x) = Ok i.

  (** The weights of a directory for a request: the first answering entry of an index read there;
      the matrix as it was during the call [x]. *)
  Definition weights_here x (path : string) gi go (m : string) (z : csr A) (shape : val) : Prop :=
    exists i pre n e post p,
      seen_in path i /\ i = pre ++ (n, e) :: post /\
      answers py_str key_order fuel e gi go (method_alias m) /\
      Forall (fun ne => does_not_answer py_str key_order fuel (snd ne) gi go (method_alias m)) pre /\
      matrix_path e = Ok p /\ alookup (join_path path p) (em_files x) = Some (Weights z) /\
      alookup "shape" (gd (e_output e)) = Some shape.
  (** The weights that the inventory at [q] had: in a directory during [x], at an address at any
      time (files are kept by the disk cache). *)
  Definition had x q gi go (m : string) (z : csr A) (shape : val) : Prop :=
    match q with
    | Here path => weights_here x path gi go m z shape
    | There base => weights_from parse gunzip load_npz sha ext_of py_str key_order fuel served_in asked_in base gi go m z shape
    end.
  (** No comparison with an entry of an index read there raises. *)
  Definition comparable_with q gi go (m : string) : Prop :=
    match q with
    | Here path => forall i n e, seen_in path i -> In (n, e) i ->
        answers py_str key_order fuel e gi go (method_alias m) \/ does_not_answer py_str key_order fuel e gi go (method_alias m)
    | There base => comparable_at (rest := rest) parse gunzip sha ext_of py_str key_order fuel served_in asked_in base gi go m
    end.
  Definition sound_request q (di do : dict) (m : string) : Prop :=
    plain_dict di /\ plain_dict do /\ forall gi go, IndexSpec.request di do gi go -> comparable_with q gi go m.
  (** All matrices are proper. *)
  Definition proper_all : Prop :=
    (forall x path p z, C x (Here path) -> alookup p (em_files x) = Some (Weights z) -> proper_csr z) /\ proper_matrices load_npz served_in.
End Spec.

(** ** Public calls *)
Section Calls.
  Context {A rest blob field : Type}.
  Variable field_values : field -> result (array A).
  Variable field_grid : field -> result (option dict).
  Notation emeets := (@emeets A rest blob).
  Notation pcall := (@pop_call A (@esys A rest blob) emeets field).
  Implicit Types (H : list pcall) (x : emeets) (q : place).
  (** A call asks the inventory at [q] for weights from one grid to another. *)
  Definition requests (d : pcall) x q (v : array A) (di do : dict) (m : string) : Prop :=
    exists db, placed db q /\ demands field_values field_grid d (mkDemand x db v di do (VStr m)).
  Definition requested H x q v di do m : Prop := exists d, In d H /\ requests d x q v di do m.
  Definition called H x q : Prop := exists v di do m, requested H x q v di do m.
  (** Another request has a text with the same hash. *)
  Definition collides_with (sha : string -> string) (float_text : f64 -> string) H (gi go : gspec) (m : string) : Prop :=
    exists x q v di do m' gi' go', requested H x q v di do m' /\ IndexSpec.request di do gi' go' /\
      text_of float_text gi go m <> text_of float_text gi' go' m' /\ sha (text_of float_text gi go m) = sha (text_of float_text gi' go' m').
  (** The same request was made to no other inventory. *)
  Definition only_to q H (gi go : gspec) (m : string) : Prop :=
    forall x q' v di do gi' go', requested H x q' v di do m -> IndexSpec.request di do gi' go' -> same_spec gi gi' -> same_spec go go' -> q' = q.
End Calls.
