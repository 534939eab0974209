(** Model of MatrixIndex and of the matrix paths (backends/db.py:30-427).
    A JSON index file is given already parsed.  Of an entry only what the code looks at is
    kept: input, output, interpolation and, for the rest, an uninterpreted value. *)
From Verif Require Import PyBase PyStr Float64 GridSpec.

Local Open Scope string_scope.
Local Open Scope list_scope.
Local Open Scope Z_scope.

(** The value of entry["interpolation"]["method"]: a string, an object with or without a string
    under "type", or anything else. *)
Inductive method :=
| MName (s : string) | MObject (type : option string) | MOther.
(** entry["interpolation"]; [None]: the key is missing. *)
Record interpolation := mkInter { i_engine : option string; i_version : option string; i_method : option method }.

Section Index.
  Variable rest : Type.

  (** An entry of the JSON file. *)
  Record raw := mkRaw { r_input : option dict; r_output : option dict; r_inter : option interpolation; r_rest : rest }.
  (** A loaded entry (db.py:314-325): the grids as objects, the name and the JSON entry. *)
  Record entry := mkEntry { e_input : gspec; e_output : gspec; e_name : string; e_raw : raw }.
  (** class MatrixIndex(dict): names to entries, in insertion order. *)
  Definition index := list (string * entry).

  (** A parsed index file: index.get("version") and index.get("matrix"). *)
  Record file := mkFile { f_version : option Z; f_matrix : option (list (string * raw)) }.

  Definition VERSION : Z := 1.

  (** db.py:314-327: the body of the loop, [except Exception: pass] included. *)
  Definition load_entry (name : string) (r : raw) : result entry :=
    match r_input r, r_output r with
    | Some i, Some o => gi <- from_dict i ;; go <- from_dict o ;; Ok (mkEntry gi go name r)
    | _, _ => Raise KeyError
    end.
  Definition load_item (idx : index) (p : string * raw) : index :=
    match load_entry (fst p) (snd p) with
    | Ok e => aset (fst p) e idx
    | _ => idx
    end.
  (** db.py:303-327 [MatrixIndex.load] *)
  Definition load (idx : index) (f : file) : result index :=
    match f_version f with
    | Some v => if v =? VERSION then
                  match f_matrix f with
                  | Some m => Ok (fold_left load_item m idx)
                  | None => Raise KeyError
                  end
                else Raise ValueError
    | None => Raise ValueError
    end.

  (** db.py:329-338 [interpolation_method_name] *)
  Definition interpolation_method_name (e : raw) : result string :=
    match r_inter e with
    | None => Raise KeyError
    | Some i => match i_method i with
                | None => Raise KeyError
                | Some (MName s) => Ok s
                | Some (MObject (Some s)) => Ok s
                | Some (MObject None) => Raise KeyError
                | Some MOther => Raise ValueError
                end
    end.

  (** db.py:359-369 [matrix_dir_name] *)
  Definition matrix_dir_name (e : raw) : result string :=
    match r_inter e with
    | None => Raise KeyError
    | Some i => match i_engine i, i_version i with
                | Some en, Some ve => m <- interpolation_method_name e ;;
                                      Ok (en ++ "_" ++ ve ++ "_" ++ m)%string
                | _, _ => Raise KeyError
                end
    end.
  (** posixpath.join of two components *)
  Definition starts_with_slash (s : string) : bool := match s with String c _ => Ascii.eqb c "/" | EmptyString => false end.
  Definition ends_with_slash (s : string) : bool := match rev (chars s) with c :: _ => Ascii.eqb c "/" | [] => false end.
  Definition join_path (a b : string) : string :=
    if starts_with_slash b then b
    else if String.eqb a "" || ends_with_slash a then (a ++ b)%string else (a ++ "/" ++ b)%string.
  (** db.py:397-399 [matrix_filename], 371-373 [matrix_path] *)
  Definition matrix_filename (e : entry) : string := (e_name e ++ ".npz")%string.
  Definition matrix_path (e : entry) : result string :=
    d <- matrix_dir_name (e_raw e) ;; Ok (join_path d (e_name e ++ ".npz")%string).

  Section Find.
    Variables (py_str : val -> string) (key_order : list string) (fuel : nat).

    (** db.py:387-395 [match], with the objects it may have changed (their memos). *)
    Definition match_entry (e : entry) (gi go : gspec) (m : string) : entry * gspec * gspec * result bool :=
      match interpolation_method_name (e_raw e) with
      | Ok s =>
          if String.eqb s m then
            let '(ei, gi', r) := eq py_str key_order fuel (e_input e) gi in
            let e1 := mkEntry ei (e_output e) (e_name e) (e_raw e) in
            match r with
            | Ok true =>
                let '(eo, go', r') := eq py_str key_order fuel (e_output e) go in
                (mkEntry ei eo (e_name e) (e_raw e), gi', go', r')
            | r => (e1, gi', go, r)
            end
          else (e, gi, go, Ok false)
      | Raise x => (e, gi, go, Raise x)
      | OutOfFuel => (e, gi, go, OutOfFuel)
      end.

    (** db.py:382-385, the loop of [find]; the index is returned with the memos of its entries
        updated. *)
    Fixpoint find_loop (idx : index) (gi go : gspec) (m : string) : index * result (option entry) :=
      match idx with
      | [] => ([], Ok None)
      | (n, e) :: l =>
          let '(e', gi', go', r) := match_entry e gi go m in
          match r with
          | Ok true => ((n, e') :: l, Ok (Some e'))
          | Ok false => let '(l', x) := find_loop l gi' go' m in ((n, e') :: l', x)
          | Raise x => ((n, e') :: l, Raise x)
          | OutOfFuel => ((n, e') :: l, OutOfFuel)
          end
      end.
    (** db.py:375-385 [find] *)
    Definition find (idx : index) (di do : dict) (m : string) : index * result (option entry) :=
      match (gi <- from_dict di ;; go <- from_dict do ;; Ok (gi, go)) with
      | Ok (gi, go) => find_loop idx gi go m
      | Raise x => (idx, Raise x)
      | OutOfFuel => (idx, OutOfFuel)
      end.

    (** A filter of [subset]: input, output and method ("linear" when missing). *)
    Record sfilter := mkFilter { fl_input : dict; fl_output : dict; fl_method : option string }.
    Definition filter_method (f : sfilter) : string := match fl_method f with Some m => m | None => "linear" end.
    (** db.py:401-421 [subset] with raw=False: also the index, whose memos may have changed.
        Simplified: the entries of the result are copies here, shared objects in the code; the
        later updates of their memos are not seen. *)
    Fixpoint subset_loop (idx res : index) (fs : list sfilter) (fail_on_missing : bool) : index * result index :=
      match fs with
      | [] => (idx, Ok res)
      | f :: r =>
          let '(idx', x) := find idx (fl_input f) (fl_output f) (filter_method f) in
          match x with
          | Ok (Some e) => subset_loop idx' (aset (e_name e) e res) r fail_on_missing
          | Ok None => if fail_on_missing then (idx', Raise ValueError) else subset_loop idx' res r fail_on_missing
          | Raise x => (idx', Raise x)
          | OutOfFuel => (idx', OutOfFuel)
          end
      end.
    Definition subset (idx : index) (fs : list sfilter) (fail_on_missing : bool) : index * result index :=
      subset_loop idx [] fs fail_on_missing.
  End Find.

  (** db.py:423-427 [to_raw] *)
  Definition to_raw (idx : index) : file :=
    mkFile (Some VERSION) (Some (fold_left (fun m p => aset (e_name (snd p)) (e_raw (snd p)) m) idx [])).

  (** db.py:446-450 [_method_alias] with the table of line 30 *)
  Definition method_alias (m : string) : string :=
    if existsb (String.eqb m) ["nn"; "nearest-neighbor"] then "nearest-neighbour" else m.
End Index.
Arguments mkRaw {rest}. Arguments r_input {rest}. Arguments r_output {rest}. Arguments r_inter {rest}. Arguments r_rest {rest}.
Arguments mkEntry {rest}. Arguments e_input {rest}. Arguments e_output {rest}. Arguments e_name {rest}. Arguments e_raw {rest}.
Arguments mkFile {rest}. Arguments f_version {rest}. Arguments f_matrix {rest}.
Arguments load_entry {rest}. Arguments load_item {rest}. Arguments load {rest}. Arguments interpolation_method_name {rest}.
Arguments matrix_dir_name {rest}. Arguments matrix_filename {rest}. Arguments matrix_path {rest}.
Arguments match_entry {rest}. Arguments find_loop {rest}. Arguments find {rest}. Arguments subset_loop {rest}. Arguments subset {rest}.
Arguments to_raw {rest}.
