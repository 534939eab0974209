(** Model of the scripts tools/manage/merge_index.py and tools/subset/subset_remote_db.py as
    commands: their arguments, the directories they make, the download of the system index
    (tools/utils/matrix.py:22-39) and the order in which this happens.  The functions they call,
    [merge] and [subset_remote_db], are in Inventory.v.
    Simplified: the arguments are already parsed (argparse refuses other modes); paths are
    compared as texts; making a directory makes it alone (no parents) and fails only if a file
    has its name; progress messages are left out. *)
From Verif Require Import PyBase PyStr Float64 GridSpec Index Inventory.
Local Open Scope string_scope.
Local Open Scope list_scope.
Local Open Scope Z_scope.

(** The exceptions that PyBase has no name for. *)
Definition ModuleNotFoundError : exn := UserError 1.
Definition BadGzipFile : exn := UserError 2.
(** sys.exit(1) *)
Definition SystemExit1 : exn := UserError 3.

Inductive mode := Local | System.
(** merge_index.py:71-94: the arguments *)
Record merge_args := mkMergeArgs { ma_mode : mode; ma_input : string; ma_output : string; ma_dry : bool }.
(** subset_remote_db.py:60-91: the arguments, without the level of logging *)
Record subset_args := mkSubsetArgs { sa_conf : string; sa_out : string; sa_missing : bool; sa_strict : bool; sa_dry : bool }.

Section Scripts.
  Context {rest weights : Type}.

  (** Files and directories. *)
  Record disk := mkDisk { files : fs rest weights; dirs : list string }.
  Definition with_files (f : fs rest weights) (d : disk) : disk := mkDisk f (dirs d).
  (** os.path.exists *)
  Definition exists_ (p : string) (d : disk) : bool := amem p (files d) || existsb (String.eqb p) (dirs d).
  (** os.makedirs(p, exist_ok=True) *)
  Definition makedirs (p : string) (d : disk) : result unit * disk :=
    if existsb (String.eqb p) (dirs d) then (Ok tt, d)
    else if amem p (files d) then (Raise FileExistsError, d)
    else (Ok tt, mkDisk (files d) (p :: dirs d)).

  (** What the server sends: something compressed by gzip, or not (such as an error page, as the
      status of the answer is not looked at). *)
  Inductive answer := Gzipped (c : content rest weights) | Plain.
  Variable served : string -> result answer.
  (** The module [earthkit.regrid.db], if there is one, with its [_SYSTEM_URL] and
      [_INDEX_GZ_FILENAME].  The package at the pinned commit has none: its [backends.db] has these
      names. *)
  Variable db_module : option (string * string).

  (** tools/utils/matrix.py:22-39 [download_index_file].  The file is asked for twice (29, 30). *)
  Definition download_index_file (target : string) (d : disk) : result unit * disk :=
    match db_module with
    | None => (Raise ModuleNotFoundError, d)
    | Some (url, name) =>
        let path := join_path url name in
        match served path with
        | Raise e => (Raise e, d)
        | OutOfFuel => (OutOfFuel, d)
        | Ok _ =>
            match served path with
            | Raise e => (Raise e, d)
            | OutOfFuel => (OutOfFuel, d)
            | Ok a =>
                let d1 := with_files (aset (target ++ ".gz") Other (files d)) d in
                match a with
                | Plain => (Raise BadGzipFile, d1)
                | Gzipped c => (Ok tt, with_files (aset target c (files d1)) d1)
                end
            end
        end
    end.

  (** merge_index.py:71-116 [main] *)
  Definition merge_main (a : merge_args) (d : disk) : result unit * disk :=
    if negb (exists_ (ma_input a) d) then (Raise ValueError, d)
    else if String.eqb (ma_output a) "" then (Raise ValueError, d)
    else
      let result_file := join_path (ma_output a) "index.json" in
      match makedirs (ma_output a) d with
      | (Ok _, d1) =>
          match ma_mode a with
          | Local => let '(r, f) := merge (ma_input a) result_file None (ma_dry a) (files d1) in (r, with_files f d1)
          | System =>
              let system_file := join_path (ma_output a) "index.json.remote" in
              match download_index_file system_file d1 with
              | (Ok _, d2) => let '(r, f) := merge (ma_input a) result_file (Some system_file) (ma_dry a) (files d2) in (r, with_files f d2)
              | other => other
              end
          end
      | other => other
      end.

  (** subset_remote_db.py:26-58 with the reading of the configuration file, and 60-120 [main].
      The import of [earthkit.regrid.db] is the first thing the script does (17).  [idx] is the
      index of the system inventory, which is read when it is asked (42). *)
  Variables (remote : string -> result weights) (idx : result (index rest)) (conf : string -> result (list sfilter)).
  Variables (py_str : val -> string) (key_order : list string) (fuel : nat).
  Definition subset_main (a : subset_args) (d : disk) : result unit * disk :=
    match db_module with
    | None => (Raise ModuleNotFoundError, d)
    | Some _ =>
        if negb (exists_ (sa_conf a) d) then (Raise SystemExit1, d)
        else if String.eqb (sa_out a) "" then (Raise SystemExit1, d)
        else
          match (if sa_dry a then (Ok tt, d) else makedirs (sa_out a) d) with
          | (Ok _, d1) =>
              if negb (sa_dry a) && sa_strict a && occupied (sa_out a) (files d1) then (Raise (UserError 0), d1)
              else
                match (items <- conf (sa_conf a) ;; i <- idx ;; Ok (items, i)) with
                | Ok (items, i) =>
                    let '(r, f) := subset_remote_db remote py_str key_order fuel i items (sa_out a) (sa_strict a) (negb (sa_missing a)) (sa_dry a) (files d1) in
                    (r, with_files f d1)
                | Raise e => (Raise e, d1)
                | OutOfFuel => (OutOfFuel, d1)
                end
          | other => other
          end
    end.
End Scripts.
Arguments disk : clear implicits. Arguments answer : clear implicits.

(** The package as it is. *)
Definition no_module : option (string * string) := None.
