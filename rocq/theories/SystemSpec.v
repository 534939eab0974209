(** Vocabulary for the statements about whole calls. *)
From Verif Require Import PyBase PyStr Float64 GridSpec GridVocab Index IndexSpec Inventory MemCache Regrid RegridSpec Key KeySpec System.
Local Open Scope string_scope.
Local Open Scope list_scope.
Local Open Scope Z_scope.

(** The text of a float: what json.dumps writes.  Different doubles have different texts, and
    none looks like an integer. *)
Record float_texts (float_text : f64 -> string) : Prop := {
  ft_number : forall f, num_text (float_text f);
  ft_inj : forall a b, is_float64 a = true -> is_float64 b = true -> float_text a = float_text b -> a = b;
  ft_int : forall f z, float_text f <> show_Z z }.

(** Values that json.dumps keeps apart: no tuple inside a list (a tuple itself is made a list
    before), floats are doubles. *)
Fixpoint no_tuple (v : val) : bool :=
  match v with VTup _ => false | VList l => forallb no_tuple l | VFloat f => is_float64 f | _ => true end.
Definition plain_dict (d : dict) : Prop := NoDup (akeys d) /\ forall k v, alookup k d = Some v -> no_tuple (untuple v) = true.

(** The text of a request that is hashed to its key. *)
Definition text_of (float_text : f64 -> string) (gi go : gspec) (m : string) : string :=
  dumps (JList [json_of_dict float_text (gd gi); json_of_dict float_text (gd go); JStr m]).

(** The weights [z] applied to [values]: an array of the given shape; each point is the sum of the
    weights of its row times the points of the input that they name. *)
Definition applies {A} (zero : A) (add mul : A -> A -> A) (z : csr A) (n : list nat) (values r : array A) : Prop :=
  prod (shape values) = n_cols z /\ prod n = n_rows z /\ shape r = n /\
  forall idx, valid n idx -> item r idx =
    fold_left (fun s p => add s (mul (snd p) (item values (nth (fst p) (indices (shape values)) [])))) (row z (offset n idx)) zero.

(** The stored shape [v] is a number or a list of numbers. *)
Definition is_shape (v : val) (n : list nat) : Prop :=
  (exists k, v = VInt (Z.of_nat k) /\ n = [k]) \/ v = VList (map (fun k => VInt (Z.of_nat k)) n) \/ v = VTup (map (fun k => VInt (Z.of_nat k)) n).
(** Nothing happened before, or the memory cache was cleared last. *)
Definition forgotten {A} (h : list (sop A)) : Prop := h = [] \/ exists h', h = h' ++ [ClearMemory].

(** An earlier call asked for something else whose text has the same hash. *)
Definition collides {A} (sha : string -> string) (float_text : f64 -> string) (h : list (sop A)) (gi go : gspec) (m : string) : Prop :=
  exists path values di do m' gi' go', In (Call path values di do m') h /\ IndexSpec.request di do gi' go' /\
    text_of float_text gi go m <> text_of float_text gi' go' m' /\ sha (text_of float_text gi go m) = sha (text_of float_text gi' go' m').
(** The same request was made to no other inventory. *)
Definition asked_only {A} (path : string) (h : list (sop A)) (gi go : gspec) (m : string) : Prop :=
  forall path' values di do gi' go', In (Call path' values di do m) h -> IndexSpec.request di do gi' go' ->
    same_spec gi gi' -> same_spec go go' -> path' = path.

Section Spec.
  Context {A rest : Type}.
  Variables (py_str : val -> string) (key_order : list string) (fuel : nat).
  Variable files : fs rest (csr A).

  (** The weights of the inventory at [path] for a request: the first entry of its index that
      answers, the matrix in its file, the shape of its output grid. *)
  Definition weights_for (path : string) (gi go : gspec) (m : string) (z : csr A) (shape : val) : Prop :=
    exists i pre n e post p,
      local_index path files = Ok i /\ i = pre ++ (n, e) :: post /\
      answers py_str key_order fuel e gi go (method_alias m) /\
      Forall (fun q => does_not_answer py_str key_order fuel (snd q) gi go (method_alias m)) pre /\
      matrix_path e = Ok p /\ alookup (join_path path p) files = Some (Weights z) /\
      alookup "shape" (gd (e_output e)) = Some shape.
  (** No entry answers. *)
  Definition no_weights_for (path : string) (gi go : gspec) (m : string) : Prop :=
    exists i, local_index path files = Ok i /\
      Forall (fun q => does_not_answer py_str key_order fuel (snd q) gi go (method_alias m)) i.
  (** No comparison of the request with an entry raises. *)
  Definition comparable (path : string) (gi go : gspec) (m : string) : Prop :=
    forall i n e, local_index path files = Ok i -> In (n, e) i ->
      answers py_str key_order fuel e gi go (method_alias m) \/ does_not_answer py_str key_order fuel e gi go (method_alias m).
  Definition sound_call (path : string) (di do : dict) (m : string) : Prop :=
    plain_dict di /\ plain_dict do /\ forall gi go, IndexSpec.request di do gi go -> comparable path gi go m.
  Definition sound (o : sop A) : Prop :=
    match o with Call path _ di do m => sound_call path di do m | _ => True end.
  (** Every matrix file holds a proper matrix. *)
  Definition proper_files : Prop := forall p z, alookup p files = Some (Weights z) -> proper_csr z.
  (** The configuration of the memory cache was accepted, at first and at every change. *)
  Definition configured (zero : A) (add mul : A -> A -> A) (memory_of : rest -> Z) (sha : string -> string) (float_text : f64 -> string)
    (c : mconf) (h : list (sop A)) : Prop :=
    snd (@MemCache.init (weights A) c) = Ok tt /\
    forall pre c' post, h = pre ++ Configure c' :: post ->
      snd (MemCache.update c' (y_mem (sys_after zero add mul memory_of sha float_text py_str key_order fuel files c pre))) = Ok tt.
  (** Strict mode: the stored size of the answering entry is above the limit. *)
  Definition too_large (memory_of : rest -> Z) (path : string) (gi go : gspec) (m : string) (mem : MemCache.state (weights A)) : Prop :=
    strict mem = true /\ exists i n e limit, local_index path files = Ok i /\ In (n, e) i /\
      answers py_str key_order fuel e gi go (method_alias m) /\ max_mem mem = Some limit /\ memory_of (r_rest (e_raw e)) > limit.
End Spec.
