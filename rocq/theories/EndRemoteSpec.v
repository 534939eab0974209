(** Vocabulary for the statements about whole calls with an inventory on a server, from what it
    serves and the dictionaries of the caller to the numbers of the result. *)
From Coq Require Import Reals.
From Verif Require Import PyBase PyStr Float64 GridSpec GridVocab FloatReal GridMatchSpec GridReal GridMatch3 GridDecide
  Index Inventory MemCache Regrid RegridSpec System SystemSpec Key CacheFile Remote RemoteSpec EndSpec.
Local Open Scope string_scope.
Local Open Scope list_scope.
Local Open Scope Z_scope.

(** The address of the file [p] of the inventory at [base]. *)
Definition address_of (base p u : string) : Prop :=
  (plain_end base /\ u = (base ++ "/" ++ p)%string) \/ ((exists t, base = (t ++ "/")%string) /\ u = (base ++ p)%string).
(** Names that files in the cache directory can have: no slash, and not the name of an unfinished
    file. *)
Definition cache_name (s : string) : Prop := (forall a b, s <> (a ++ "/" ++ b)%string) /\ forall a, s <> (a ++ ".tmp")%string.

Section Spec.
  Context {A rest blob : Type}.
  Variable parse : blob -> result (file rest).
  Variable gunzip : blob -> result blob.
  Variable digest : blob -> result string.
  Variable read_sha : blob -> result string.
  Variable load_npz : blob -> result (csr A).
  Variable sha : string -> string.
  Variable ext_of : string -> string.
  Variable fuel : nat.
  (** What the server has. *)
  Variable G : string -> result blob.

  (** An inventory: a compressed index of version 1, each entry once, each entry readable, and a
      file with a checksum. *)
  Record serves (base : string) (l : list (string * raw rest)) : Prop := {
    v_base : plain_end base \/ exists t, base = (t ++ "/")%string;
    v_index : exists u z t d, address_of base "index.json.gz" u /\ G u = Ok z /\ gunzip z = Ok t /\ parse t = Ok (mkFile (Some 1) (Some l)) /\ digest t = Ok d;
    v_sum : exists u b d, address_of base "index.json.sha256" u /\ G u = Ok b /\ read_sha b = Ok d;
    v_names : NoDup (map fst l);
    v_entries : forall n r, In (n, r) l -> exists a b m p, lists fuel n r a b m p }.
  (** The addresses of its files. *)
  Definition file_of (base : string) (l : list (string * raw rest)) (u : string) : Prop :=
    address_of base "index.json.gz" u \/ address_of base "index.json.sha256" u \/
    exists n r a b m p, In (n, r) l /\ lists fuel n r a b m p /\ address_of base p u.
  (** In the cache no other file of the server has the name of one of its files: a collision of SHA-256. *)
  Definition own_names (base : string) (l : list (string * raw rest)) : Prop :=
    forall u v b, file_of base l u -> G v = Ok b -> ~ clash sha (file_request ext_of u) (file_request ext_of v).
  (** The weights of an entry and the shape of its output. *)
  Definition offers (base : string) (q : string * raw rest) (z : csr A) (n : list nat) : Prop :=
    exists a b m p u w, lists fuel (fst q) (snd q) a b m p /\ address_of base p u /\ G u = Ok w /\ load_npz w = Ok z /\ sizes b = Some (map Z.of_nat n).
  (** A call that says which grids it is about, for the inventory at [base], while the server has
      what it has. *)
  Definition asks_there (base : string) (o : @rop A blob) : Prop :=
    match o with
    | RCall x base' _ di do _ => base' = base /\ (forall u, sv_get (m_server x) u = G u) /\ plain_dict di /\ plain_dict do /\
        exists a b, reads_as di a /\ reads_as do b /\ bounded fuel a /\ bounded fuel b
    | _ => True
    end.
  Definition proper_there : Prop := forall u b z, G u = Ok b -> load_npz b = Ok z -> proper_csr z.
  (** Asking whether a cached file is out of date has an answer, or is not done. *)
  Definition tells_age (check : bool) (x : @meets blob) : Prop := check = false \/ forall u, exists old, sv_stale (m_server x) u = Ok old.
End Spec.
