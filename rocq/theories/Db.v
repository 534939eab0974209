(** Model of MatrixDb.find_entry and of its accessors (backends/db.py:98-299, 430-498).
    The index file in the disk cache is a field of the world: its contents and the checksum in
    the owner data of its row.  What the remote answers is given with each call.  The effects of
    cache_file on that one file are inlined (utils/caching.py:1003-1026); the protocol of
    cache_file itself (locks, temporary names, other processes) is modelled elsewhere. *)
From Verif Require Import PyBase PyStr Float64 GridSpec Index.

Local Open Scope string_scope.
Local Open Scope list_scope.
Local Open Scope Z_scope.

Section Db.
  Variable rest : Type.
  (** The text of an index file, json.load of it, and make_sha (db.py:58-66). *)
  Variable text : Type.
  Variable parse : text -> result (file rest).
  Variable sha : text -> string.
  Variables (py_str : val -> string) (key_order : list string) (fuel : nat).

  Inductive kind := Local | Url.

  (** What the outside answers during one call: the remote checksum file (db.py:208-229), the
      remote index (231-251), and the local index file of a LocalAccessor (284-285, 304). *)
  Record outside := mkOut { o_sha : result string; o_gz : result text; o_file : result text }.

  (** The MatrixDb object with its accessor: [_index], [_index_path is not None],
      [_checked_remote]. *)
  Record db := mkDb { d_kind : kind; d_index : option (index rest); d_path : bool; d_checked : bool }.
  (** The cached index file, with the checksum in its row ([None]: no owner data). *)
  Definition disk := option (text * option string).

  (** Remote requests made, in order. *)
  Inductive remote := AskSha | AskIndex.

  (** State of the calls below: disk, object, remote requests so far (latest first). *)
  Record st := mkSt { s_disk : disk; s_db : db; s_log : list remote }.
  Definition set_disk (s : st) (d : disk) := mkSt d (s_db s) (s_log s).
  Definition set_db (s : st) (d : db) := mkSt (s_disk s) d (s_log s).
  Definition ask (s : st) (r : remote) := mkSt (s_disk s) (s_db s) (r :: s_log s).
  Definition set_index (s : st) (i : option (index rest)) := set_db s (mkDb (d_kind (s_db s)) i (d_path (s_db s)) (d_checked (s_db s))).
  Definition set_path (s : st) := set_db s (mkDb (d_kind (s_db s)) (d_index (s_db s)) true (d_checked (s_db s))).
  Definition set_checked (s : st) := set_db s (mkDb (d_kind (s_db s)) (d_index (s_db s)) (d_path (s_db s)) true).

  (** db.py:168-187 [_create], run when the file is missing (caching.py:1016-1026). *)
  Definition create_index (o : outside) (s : st) : st * result unit :=
    let s := ask s AskIndex in
    match o_gz o with
    | Ok t => (set_disk s (Some (t, Some (sha t))), Ok tt)
    | Raise e => (s, Raise e)
    | OutOfFuel => (s, OutOfFuel)
    end.
  Definition ensure_index (o : outside) (s : st) : st * result unit :=
    match s_disk s with Some _ => (s, Ok tt) | None => create_index o s end.

  (** db.py:130-166 [_compare_sha] and [_force_download]: is the cached file to be replaced? *)
  Definition compare_sha (o : outside) (s : st) (owner : option string) : st * result bool :=
    match owner with
    | None => (s, Ok true)
    | Some local_sha =>
        let s := ask s AskSha in
        match o_sha o with
        | Ok remote_sha => (set_checked s, Ok (negb (String.eqb local_sha remote_sha)))
        | Raise e => (s, Raise e)
        | OutOfFuel => (s, OutOfFuel)
        end
    end.
  Definition force_download (o : outside) (s : st) : st * result bool :=
    let s := ask s AskSha in
    match o_sha o with
    | Ok _ => (set_checked s, Ok true)
    | Raise e => (s, Raise e)
    | OutOfFuel => (s, OutOfFuel)
    end.

  (** db.py:125-206 [_get_index]; the three values of [force] of lines 189-195. *)
  Inductive mode := Plain | Compare | Force.
  Definition get_index (m : mode) (o : outside) (s : st) : st * result unit :=
    match s_disk s, m with
    | Some (t, owner), Compare | Some (t, owner), Force =>
        let '(s1, r) := match m with Force => force_download o s | _ => compare_sha o s owner end in
        match r with
        | Ok true => create_index o (set_disk s1 None)     (* caching.py:1011-1014: decached first *)
        | Ok false => (s1, Ok tt)
        | Raise e => (s1, Raise e)
        | OutOfFuel => (s1, OutOfFuel)
        end
    | _, _ => ensure_index o s
    end.

  (** db.py:117-118 and 290-291 [reload] *)
  Definition reload (force : bool) (o : outside) (s : st) : st * result unit :=
    match d_kind (s_db s) with
    | Local => (s, Ok tt)
    | Url => let '(s1, r) := get_index (if force then Force else Compare) o s in
             match r with Ok _ => (set_path s1, Ok tt) | x => (s1, x) end
    end.
  (** db.py:120-123 and 284-285 [index_path], then opening the file (304): its text. *)
  Definition index_text (o : outside) (s : st) : st * result text :=
    match d_kind (s_db s) with
    | Local => (s, o_file o)
    | Url =>
        let '(s1, r) :=
          if d_path (s_db s) && match s_disk s with Some _ => true | None => false end then (s, Ok tt)
          else let '(s1, r) := get_index Plain o s in
               match r with Ok _ => (set_path s1, Ok tt) | x => (s1, x) end in
        match r with
        | Ok _ => match s_disk s1 with Some (t, _) => (s1, Ok t) | None => (s1, Raise FileNotFoundError) end
        | Raise e => (s1, Raise e)
        | OutOfFuel => (s1, OutOfFuel)
        end
    end.
  (** db.py:441-444 [_load_index]: the index is emptied first. *)
  Definition load_index (o : outside) (s : st) : st * result unit :=
    let '(s1, r) := index_text o (set_index s (Some [])) in
    match (t <- r ;; f <- parse t ;; load [] f) with
    | Ok i => (set_index s1 (Some i), Ok tt)
    | Raise e => (s1, Raise e)
    | OutOfFuel => (s1, OutOfFuel)
    end.
  (** db.py:435-439 [index] *)
  Definition get_or_load (o : outside) (s : st) : st * result unit :=
    match d_index (s_db s) with Some _ => (s, Ok tt) | None => load_index o s end.
  (** self.index.find(...) on a loaded index *)
  Definition index_find (s : st) (di do : dict) (m : string) : st * result (option (entry rest)) :=
    match d_index (s_db s) with
    | Some i => let '(i', x) := find py_str key_order fuel i di do m in (set_index s (Some i'), x)
    | None => (s, Raise AttributeError)
    end.

  (** db.py:107-108 and 281-282: [is_local] returns None in both accessors, hence
      [not self._accessor.is_local()] is True.  db.py:90-91, 110-111 [checked_remote]. *)
  Definition is_local (d : db) : bool := false.
  Definition checked_remote (d : db) : bool := match d_kind d with Url => d_checked d | Local => false end.

  (** db.py:488-498 [find_entry] *)
  Definition find_entry (o : outside) (s : st) (di do : dict) (m0 : string) : st * result (option (entry rest)) :=
    let m := method_alias m0 in
    let '(s1, r1) := get_or_load o s in
    match r1 with
    | Ok _ =>
        let '(s2, r2) := index_find s1 di do m in
        match r2 with
        | Ok None =>
            if negb (is_local (s_db s2)) && negb (checked_remote (s_db s2)) then
              let '(s3, r3) := reload false o s2 in
              match r3 with
              | Ok _ => let '(s4, r4) := load_index o s3 in
                        match r4 with
                        | Ok _ => index_find s4 di do m
                        | Raise e => (s4, Raise e)
                        | OutOfFuel => (s4, OutOfFuel)
                        end
              | Raise e => (s3, Raise e)
              | OutOfFuel => (s3, OutOfFuel)
              end
            else (s2, Ok None)
        | x => (s2, x)
        end
    | Raise e => (s1, Raise e)
    | OutOfFuel => (s1, OutOfFuel)
    end.

  (** A fresh object (db.py:98-102, 431-433); also what [_reset] leaves (559-562). *)
  Definition fresh_db (k : kind) : db := mkDb k None false false.

  (** Histories: lookups with what the outside answers; the cached index file or its owner data
      disappearing (trimming, purging, another process); a new process. *)
  Inductive op :=
  | Lookup (o : outside) (di do : dict) (m : string)
  | Evict | DropOwner | Restart.
  Definition step (s : st) (a : op) : st * option (result (option (entry rest))) :=
    match a with
    | Lookup o di do m => let '(s', x) := find_entry o s di do m in (s', Some x)
    | Evict => (set_disk s None, None)
    | DropOwner => (set_disk s (option_map (fun p => (fst p, None)) (s_disk s)), None)
    | Restart => (set_db s (fresh_db (d_kind (s_db s))), None)
    end.
  Definition run_db (s : st) (l : list op) : st := fold_left (fun s a => fst (step s a)) l s.
End Db.
