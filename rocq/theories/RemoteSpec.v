(** Vocabulary for the statements about whole calls with remote inventories. *)
From Verif Require Import PyBase PyStr Float64 GridSpec GridVocab Index IndexSpec MemCache Regrid RegridSpec System SystemSpec Disk DiskSpec Key Props_Key CacheFile Remote.
Local Open Scope string_scope.
Local Open Scope list_scope.
Local Open Scope Z_scope.

Section Spec.
  Context {A rest blob : Type}.
  Variable parse : blob -> result (file rest).
  Variable gunzip : blob -> result blob.
  Variable load_npz : blob -> result (csr A).
  Variable sha : string -> string.
  Variable ext_of : string -> string.
  Variables (py_str : val -> string) (key_order : list string) (fuel : nat).
  Notation rop := (@rop A blob).

  (** What was served under an address during the calls of a history. *)
  Definition served (h : list rop) (url : string) (b : blob) : Prop :=
    exists x base values di do m, In (RCall x base values di do m) h /\ sv_get (m_server x) url = Ok b.

  (** The inventories asked during the calls of a history. *)
  Definition asked (h : list rop) (base : string) : Prop := exists x values di do m, In (RCall x base values di do m) h.

  (** The requests to the cache for a remote file and for an unpacked index. *)
  Definition file_request (url : string) : request := mkRequest "url" (JDict [("url", JStr url); ("parts", JNull)]) JNull (ext_of url).
  Definition unpacked (base : string) : request := mkRequest "regrid" (JList [JStr (join_path base "index.json")]) JNull ".cache".
  Definition clash (q r : request) : Prop := key_text q <> key_text r /\ sha (key_text q) = sha (key_text r).
  (** [S] tells what was served, [B] which inventories were asked.  A file taken for that at [url]: served there, or at an address
      with the same key. *)
  Variable S : string -> blob -> Prop.
  Variable B : string -> Prop.
  Definition file_at (url : string) (b : blob) : Prop :=
    exists url', (url' = url \/ clash (file_request url) (file_request url')) /\ S url' b.
  (** The same for the index of the inventory at [base]: its compressed text was served. *)
  Definition index_at (base : string) (i : index rest) : Prop :=
    exists base' z t f, (base' = base \/ B base' /\ clash (unpacked base) (unpacked base')) /\
      file_at (join_path base' "index.json.gz") z /\ gunzip z = Ok t /\ parse t = Ok f /\ load [] f = Ok i.

  (** The addresses that are asked for: the files of the inventories asked. *)
  Definition address (u : string) : Prop :=
    exists base, B base /\ (u = join_path base "index.json.gz" \/ u = join_path base "index.json.sha256" \/
      exists i n e p, index_at base i /\ In (n, e) i /\ matrix_path e = Ok p /\ u = join_path base p).
  Definition our_request (q : request) : Prop := (exists u, address u /\ q = file_request u) \/ exists b, B b /\ q = unpacked b.
  (** Names of cache files are names: without slash, and none looks like a temporary one. *)
  Definition names : Prop := forall q, our_request q ->
    has_slash (key_name sha q) = false /\ forall s, key_name sha q <> (s ++ ".tmp")%string.

  (** The weights of the inventory at [base] for a request: the first answering entry of an index
      served for it, the matrix served for that entry, the shape of its output grid. *)
  Definition weights_from (base : string) (gi go : gspec) (m : string) (z : csr A) (shape : val) : Prop :=
    exists i pre n e post p b,
      index_at base i /\ i = pre ++ (n, e) :: post /\
      answers py_str key_order fuel e gi go (method_alias m) /\
      Forall (fun q => does_not_answer py_str key_order fuel (snd q) gi go (method_alias m)) pre /\
      matrix_path e = Ok p /\ file_at (join_path base p) b /\ load_npz b = Ok z /\
      alookup "shape" (gd (e_output e)) = Some shape.
  (** No comparison with an entry of an index served for it raises. *)
  Definition comparable_at (base : string) (gi go : gspec) (m : string) : Prop :=
    forall i n e, index_at base i -> In (n, e) i ->
      answers py_str key_order fuel e gi go (method_alias m) \/ does_not_answer py_str key_order fuel e gi go (method_alias m).
  Definition sound_remote (o : rop) : Prop :=
    match o with
    | RCall _ base _ di do m => plain_dict di /\ plain_dict do /\ forall gi go, IndexSpec.request di do gi go -> comparable_at base gi go m
    | _ => True
    end.
  (** The weights of the current matrix: the first answering entry of an index served for the
      inventory, and the matrix that the server of this call has for it. *)
  Definition weights_fresh (x : @meets blob) (base : string) (gi go : gspec) (m : string) (z : csr A) (shape : val) : Prop :=
    exists i pre n e post p b,
      index_at base i /\ i = pre ++ (n, e) :: post /\
      answers py_str key_order fuel e gi go (method_alias m) /\
      Forall (fun q => does_not_answer py_str key_order fuel (snd q) gi go (method_alias m)) pre /\
      matrix_path e = Ok p /\ sv_get (m_server x) (join_path base p) = Ok b /\ load_npz b = Ok z /\
      alookup "shape" (gd (e_output e)) = Some shape.
  (** The server of this call tells which of the files served earlier changed, and they can be
      deleted. *)
  Definition tells (dir : string) (x : @meets blob) : Prop :=
    forall u, (forall b, file_at u b -> sv_get (m_server x) u = Ok b \/ sv_stale (m_server x) u = Ok true) /\
      locked (a_delete (m_around x u)) (path_of sha dir (file_request u)) = false.
  Definition proper_matrices : Prop := forall u b z, S u b -> load_npz b = Ok z -> proper_csr z.
End Spec.

Section Histories.
  Context {A blob : Type}.
  Notation rop := (@rop A blob).
  Variables (sha : string -> string) (float_text : f64 -> string).
  (** Nothing happened before, the memory cache was cleared last, or the process is new. *)
  Definition forgotten_remote (h : list rop) : Prop := h = [] \/ (exists h', h = h' ++ [RClearMemory]) \/ exists h' c, h = h' ++ [RRestart c].
  Definition collides_remote (h : list rop) (gi go : gspec) (m : string) : Prop :=
    exists x base values di do m' gi' go', In (RCall x base values di do m') h /\ IndexSpec.request di do gi' go' /\
      text_of float_text gi go m <> text_of float_text gi' go' m' /\ sha (text_of float_text gi go m) = sha (text_of float_text gi' go' m').
  Definition asked_only_remote (base : string) (h : list rop) (gi go : gspec) (m : string) : Prop :=
    forall x base' values di do gi' go', In (RCall x base' values di do m) h -> IndexSpec.request di do gi' go' ->
      same_spec gi gi' -> same_spec go go' -> base' = base.
End Histories.

(** A server that serves the same all the time. *)
Section Steady.
  Context {A rest blob : Type}.
  Variable parse : blob -> result (file rest).
  Variable gunzip : blob -> result blob.
  Variable digest : blob -> result string.
  Variable read_sha : blob -> result string.
  Variable load_npz : blob -> result (csr A).
  Variable sha : string -> string.
  Variable ext_of : string -> string.
  Variables (py_str : val -> string) (key_order : list string) (fuel : nat).
  Notation rop := (@rop A blob).
  (** What it serves. *)
  Variable G : string -> result blob.
  Definition steady (h : list rop) : Prop :=
    forall x base values di do m, In (RCall x base values di do m) h -> forall u, sv_get (m_server x) u = G u.

  (** The index of the inventory at [base] and the addresses of its files. *)
  Definition current (base : string) (i : index rest) : Prop :=
    exists z t f, G (join_path base "index.json.gz") = Ok z /\ gunzip z = Ok t /\ parse t = Ok f /\ load [] f = Ok i.
  Definition its_file (base u : string) : Prop :=
    u = join_path base "index.json.gz" \/ u = join_path base "index.json.sha256" \/
    exists i n e p, current base i /\ In (n, e) i /\ matrix_path e = Ok p /\ u = join_path base p.
  (** The keys of these files differ from those of all other files served,
      the key of its unpacked index from those of the other inventories asked. *)
  Definition apart (h : list rop) (base : string) : Prop :=
    (forall u v b, its_file base u -> G v = Ok b -> ~ clash sha (file_request ext_of u) (file_request ext_of v)) /\
    (forall base', asked h base' -> ~ clash sha (unpacked base) (unpacked base')).
  (** The first answering entry, its matrix and its shape. *)
  Definition weights_now (base : string) (gi go : gspec) (m : string) (z : csr A) (shape : val) : Prop :=
    exists i pre n e post p b,
      current base i /\ i = pre ++ (n, e) :: post /\
      answers py_str key_order fuel e gi go (method_alias m) /\
      Forall (fun q => does_not_answer py_str key_order fuel (snd q) gi go (method_alias m)) pre /\
      matrix_path e = Ok p /\ G (join_path base p) = Ok b /\ load_npz b = Ok z /\
      alookup "shape" (gd (e_output e)) = Some shape.
  Definition nothing_now (base : string) (gi go : gspec) (m : string) : Prop :=
    exists i, current base i /\ Forall (fun q => does_not_answer py_str key_order fuel (snd q) gi go (method_alias m)) i.
  (** The index can be unpacked, decoded and read; the checksum file too. *)
  Definition healthy (base : string) : Prop :=
    (exists i, current base i) /\ forall z t, G (join_path base "index.json.gz") = Ok z -> gunzip z = Ok t -> exists s, digest t = Ok s.
  Definition summed (base : string) : Prop := exists b s, G (join_path base "index.json.sha256") = Ok b /\ read_sha b = Ok s.
  (** Strict mode: the stored size of the answering entry is above the limit. *)
  Definition too_large_now (memory_of : rest -> Z) (base : string) (gi go : gspec) (m : string) (mem : MemCache.state (weights A)) : Prop :=
    strict mem = true /\ exists i n e limit, current base i /\ In (n, e) i /\
      answers py_str key_order fuel e gi go (method_alias m) /\ max_mem mem = Some limit /\ memory_of (r_rest (e_raw e)) > limit.
  (** The address can be asked whether it changed, if that is asked. *)
  Definition askable (check : bool) (x : @meets blob) (base : string) : Prop :=
    check = false \/ forall u, its_file base u -> exists old, sv_stale (m_server x) u = Ok old.
End Steady.

(** The configurations of the memory cache were accepted, at first, at every change and in every
    new process; [mem] gives the memory cache after a history. *)
Definition accepted {A blob : Type} (mem : list (@rop A blob) -> MemCache.state (weights A)) (c : mconf) (h : list (@rop A blob)) : Prop :=
  snd (@MemCache.init (weights A) c) = Ok tt /\
  (forall pre c' post, h = pre ++ RConfigure c' :: post -> snd (MemCache.update c' (mem pre)) = Ok tt) /\
  (forall c', In (RRestart c') h -> snd (@MemCache.init (weights A) c') = Ok tt).

(** An index that is up to date. *)
Section Current.
  Context {A rest blob : Type}.
  Variable gunzip : blob -> result blob.
  Variable digest : blob -> result string.
  Variable read_sha : blob -> result string.
  Variable sha : string -> string.
  Variable ext_of : string -> string.
  Variable dir : string.
  Variable S : string -> blob -> Prop.
  (** The text of an index is the one that the server of this call has, or it was served and its
      checksum is the one that the server has. *)
  Definition up_to_date (x : @meets blob) (base : string) (t : blob) : Prop :=
    (exists z, sv_get (m_server x) (join_path base "index.json.gz") = Ok z /\ gunzip z = Ok t) \/
    (exists u z c d, S u z /\ gunzip z = Ok t /\ sv_get (m_server x) (join_path base "index.json.sha256") = Ok c /\ read_sha c = Ok d /\ digest t = Ok d).
  (** The files of the index can be deleted during this call. *)
  Definition free (x : @meets blob) (u : string) : Prop := locked (a_delete (m_around x u)) (path_of sha dir (file_request ext_of u)) = false.
  Definition deletable (x : @meets blob) (base : string) : Prop :=
    free x (join_path base "index.json.sha256") /\ free x (join_path base "index.json.gz") /\
    locked (a_delete (m_around x (join_path base "index.json"))) (path_of sha dir (unpacked base)) = false.
  (** No call for the inventory at [base] since the process started. *)
  Definition first_time (base : string) (h : list (@rop A blob)) : Prop :=
    exists h1 h2, h = h1 ++ h2 /\ (h1 = [] \/ exists h' c, h1 = h' ++ [RRestart c]) /\ forall x values di do m, ~ In (RCall x base values di do m) h2.
End Current.
