(** Vocabulary for the statements about remote inventories with the cache policy "off". *)
From Verif Require Import PyBase PyStr Float64 GridSpec GridVocab Index IndexSpec Db MemCache Inventory Regrid RegridSpec System SystemSpec
  Disk Key CacheFile Remote RemoteSpec RemoteOff.
Local Open Scope string_scope.
Local Open Scope list_scope.
Local Open Scope Z_scope.

(** What the name of a file is made of; the names drawn in the last process of a history. *)
Definition drawn (sha : string -> string) (t : draw) : string := sha (isoformat (fst t) ++ show_Z (snd t))%string.
Definition names_of (sha : string -> string) (d : draws) : list string :=
  map (drawn sha) [d_index1 d; d_gz1 d; d_index2 d; d_gz2 d; d_matrix d].
Definition names_drawn {A blob} (sha : string -> string) (h : list (@oop A blob)) : list string :=
  fold_left (fun l o => match o with OCall x _ _ _ _ _ => l ++ names_of sha (o_draws x) | ORestart _ => [] | _ => l end) h [].
(** No name is drawn twice in one process. *)
Definition drawn_once {A blob} (sha : string -> string) (h : list (@oop A blob)) : Prop :=
  forall pre post, h = pre ++ post -> NoDup (names_drawn sha pre).

(** ** A process without any files: everything is read from the server when it is needed, and only
    the index of each inventory and the memory cache are kept. *)
Section Direct.
  Context {A rest blob : Type}.
  Variable parse : blob -> result (file rest).
  Variable gunzip : blob -> result blob.
  Variable digest : blob -> result string.
  Variable load_npz : blob -> result (csr A).
  Variables (py_str : val -> string) (key_order : list string) (fuel : nat).
  Variables (zero : A) (add mul : A -> A -> A).
  Variable memory_of : rest -> Z.
  Variable key_of : mreq -> string.
  Notation oop := (@oop A blob).
  Implicit Types (get : string -> result blob).

  Definition direct_index get (base : string) : result (index rest) :=
    z <- get (join_path base "index.json.gz") ;; t <- gunzip z ;; _ <- digest t ;; f <- parse t ;; load [] f.
  (** The index kept is empty after a failure. *)
  Definition direct_load get (base : string) : option (index rest) * result unit :=
    match direct_index get base with Ok i => (Some i, Ok tt) | Raise e => (Some [], Raise e) | OutOfFuel => (Some [], OutOfFuel) end.
  Definition direct_search (i : option (index rest)) (di do : dict) (m : string) : option (index rest) * result (option (entry rest)) :=
    match i with Some i => let '(i', y) := find py_str key_order fuel i di do m in (Some i', y) | None => (None, Raise AttributeError) end.
  (** The index kept is searched; if it has no answer, that of the server. *)
  Definition direct_entry get (base : string) (i : option (index rest)) (di do : dict) (m0 : string) : option (index rest) * result (option (entry rest)) :=
    let m := method_alias m0 in
    let '(i1, r1) := match i with Some _ => (i, Ok tt) | None => direct_load get base end in
    match r1 with
    | Ok _ =>
        let '(i2, r2) := direct_search i1 di do m in
        match r2 with
        | Ok None =>
            match (z <- get (join_path base "index.json.gz") ;; t <- gunzip z ;; _ <- digest t ;; Ok t) with
            | Ok t => match (f <- parse t ;; load [] f) with
                      | Ok i => direct_search (Some i) di do m
                      | Raise e => (Some [], Raise e)
                      | OutOfFuel => (Some [], OutOfFuel)
                      end
            | Raise e => (i2, Raise e)
            | OutOfFuel => (i2, OutOfFuel)
            end
        | y => (i2, y)
        end
    | Raise e => (i1, Raise e)
    | OutOfFuel => (i1, OutOfFuel)
    end.
  Definition direct_weights get (base : string) (e : entry rest) : result (weights A) :=
    p <- matrix_path e ;; b <- get (join_path base p) ;; z <- load_npz b ;; sh <- dget "shape" (gd (e_output e)) ;; Ok (z, sh).
  Definition direct_inventory get (base : string) (i : option (index rest)) : inventory mreq (entry rest) (weights A) :=
    mkInv (fun r => let '(gi, go, m) := r in snd (direct_entry get base i (gd gi) (gd go) m)) (direct_weights get base).

  Record direct := mkDirect { t_mem : MemCache.state (weights A); t_index : string -> option (index rest) }.
  Definition direct_find get (base : string) (di do : dict) (m : string) (s : direct) : direct * result (option (weights A)) :=
    match (gi <- from_dict di ;; go <- from_dict do ;; Ok (gi, go)) with
    | Ok (gi, go) =>
        let '(mem, calls, y) := MemCache.get key_of (System.est_size memory_of) System.size_of (direct_inventory get base (t_index s base)) (gi, go, m) (t_mem s) in
        let i := match calls with [] => t_index s base | _ => fst (direct_entry get base (t_index s base) (gd gi) (gd go) m) end in
        (mkDirect mem (fun b => if String.eqb b base then i else t_index s b), y)
    | Raise e => (s, Raise e)
    | OutOfFuel => (s, OutOfFuel)
    end.
  Definition direct_step (s : direct) (o : oop) : direct :=
    match o with
    | OCall x base values di do m => fst (direct_find (sv_get (o_server x)) base di do m s)
    | OConfigure c => mkDirect (fst (MemCache.update c (t_mem s))) (t_index s)
    | OClearMemory => mkDirect (MemCache.clear (t_mem s)) (t_index s)
    | ORestart c => mkDirect (fst (MemCache.init c)) (fun _ => None)
    | ODelete p => s
    end.
  Definition direct_after (c : mconf) (h : list oop) : direct := fold_left direct_step h (mkDirect (fst (MemCache.init c)) (fun _ => None)).
End Direct.

(** ** Where weights come from *)
Section Origin.
  Context {A rest blob : Type}.
  Variable parse : blob -> result (file rest).
  Variable gunzip : blob -> result blob.
  Variable load_npz : blob -> result (csr A).
  Variables (py_str : val -> string) (key_order : list string) (fuel : nat).
  Variables (sha : string -> string) (float_text : f64 -> string).
  Notation oop := (@oop A blob).
  Implicit Types (h : list oop).

  (** [i] is the index that the server had for the inventory at [base] during a call of [h] for it. *)
  Definition seen_in h (base : string) (i : index rest) : Prop :=
    exists x values di do m, In (OCall x base values di do m) h /\ current parse gunzip (sv_get (o_server x)) base i.
  (** The weights that the first answering entry of [i] names, as the server has them. *)
  Definition named_by (get : string -> result blob) (base : string) (i : index rest) (gi go : gspec) (m : string) (z : csr A) (sh : val) : Prop :=
    exists pre n e post p b, i = pre ++ (n, e) :: post /\
      answers py_str key_order fuel e gi go (method_alias m) /\
      Forall (fun q => does_not_answer py_str key_order fuel (snd q) gi go (method_alias m)) pre /\
      matrix_path e = Ok p /\ get (join_path base p) = Ok b /\ load_npz b = Ok z /\ alookup "shape" (gd (e_output e)) = Some sh.
  Definition silent (i : index rest) (gi go : gspec) (m : string) : Prop :=
    Forall (fun q => does_not_answer py_str key_order fuel (snd q) gi go (method_alias m)) i.
  (** No comparison of requests with entries of indexes raises. *)
  Definition comparable_in h (base : string) (gi go : gspec) (m : string) : Prop :=
    forall i n e, seen_in h base i -> In (n, e) i ->
      answers py_str key_order fuel e gi go (method_alias m) \/ does_not_answer py_str key_order fuel e gi go (method_alias m).
  Definition sound_off h (o : oop) : Prop :=
    match o with
    | OCall _ base _ di do m => plain_dict di /\ plain_dict do /\ forall gi go, IndexSpec.request di do gi go -> comparable_in h base gi go m
    | _ => True
    end.
  Definition proper_served h : Prop :=
    forall x base values di do m u b z, In (OCall x base values di do m) h -> sv_get (o_server x) u = Ok b -> load_npz b = Ok z -> proper_csr z.
  (** The process is new; the memory cache is empty. *)
  Definition new_process h : Prop := h = [] \/ exists h' c, h = h' ++ [ORestart c].
  Definition forgotten_off h : Prop := h = [] \/ exists h', h = h' ++ [OClearMemory].
  Definition one_process h : Prop := forall c, ~ In (ORestart c) h.
  Definition collides_off h (gi go : gspec) (m : string) : Prop :=
    exists x base values di do m' gi' go', In (OCall x base values di do m') h /\ IndexSpec.request di do gi' go' /\
      text_of float_text gi go m <> text_of float_text gi' go' m' /\ sha (text_of float_text gi go m) = sha (text_of float_text gi' go' m').
  Definition asked_only_off (base : string) h (gi go : gspec) (m : string) : Prop :=
    forall x base' values di do gi' go', In (OCall x base' values di do m) h -> IndexSpec.request di do gi' go' ->
      same_spec gi gi' -> same_spec go go' -> base' = base.
End Origin.
