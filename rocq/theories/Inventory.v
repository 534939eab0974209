(** Model of the scripts that make inventories: tools/manage/merge_index.py and
    tools/subset/subset_remote_db.py with MatrixDb.copy_matrix_file (backends/db.py:517-536),
    and of a local inventory (LocalAccessor, db.py:275-296; load_matrix, 500-503).
    Both scripts import names from [earthkit.regrid.db], which is not in the package (the
    module is [earthkit.regrid.backends.db]): the second when it starts, the first before it
    downloads the system index.  What follows models them with that repaired; the scripts as
    they are, with their arguments, are in Scripts.v. *)
From Verif Require Import PyBase PyStr Float64 GridSpec Index.
Local Open Scope string_scope.
Local Open Scope list_scope.
Local Open Scope Z_scope.

Section Inventory.
  Variables rest weights : Type.

  (** What a file holds: weights, an index (already parsed), or something else. *)
  Inductive content := Weights (w : weights) | IndexFile (f : file rest) | Other.
  Definition fs := list (string * content).

  (** open(...), json.load: an index file.  A file of another kind is no JSON (ValueError). *)
  Definition read_index (path : string) (d : fs) : result (file rest) :=
    match alookup path d with
    | Some (IndexFile f) => Ok f
    | Some _ => Raise ValueError
    | None => Raise FileNotFoundError
    end.
  (** db["matrix"] *)
  Definition matrix_of (f : file rest) : result (list (string * raw rest)) :=
    match f_matrix f with Some m => Ok m | None => Raise KeyError end.

  (** ** tools/manage/merge_index.py *)

  (** dict.update *)
  Definition update (m m' : list (string * raw rest)) : list (string * raw rest) :=
    fold_left (fun acc p => aset (fst p) (snd p) acc) m' m.

  (** merge_index.py:32-62 [merge] up to the writing: the merged index and [total_num].  The
      dictionary read from the system file has the key "matrix" (line 38), hence is true at
      line 57.  Simplified: keys of the file other than "version" and "matrix" are left out. *)
  Definition merged (input_dir : string) (system_file : option string) (d : fs) : result (file rest * Z) :=
    sys <- match system_file with
           | Some p => f <- read_index p d ;; m <- matrix_of f ;; Ok (Some (f, m))
           | None => Ok None
           end ;;
    db <- read_index (join_path input_dir "index.json") d ;;
    m <- matrix_of db ;;
    Ok (match sys with
        | None => (db, Z.of_nat (List.length m))
        | Some (f, ms) => (mkFile (f_version f) (Some (update ms m)),
                           Z.of_nat (List.length ms) + Z.of_nat (List.length m))
        end).
  (** merge_index.py:26-29 [check_file] *)
  Definition check_file (target : string) (ref_num : Z) (d : fs) : result unit :=
    f <- read_index target d ;;
    m <- matrix_of f ;;
    if Z.of_nat (List.length m) =? ref_num then Ok tt else Raise AssertionError.
  (** merge_index.py:32-68 [merge] *)
  Definition merge (input_dir result_file : string) (system_file : option string) (dry_run : bool) (d : fs)
    : result unit * fs :=
    match merged input_dir system_file d with
    | Ok (f, n) =>
        if dry_run then (Ok tt, d)
        else let d' := aset result_file (IndexFile f) d in (check_file result_file n d', d')
    | Raise e => (Raise e, d)
    | OutOfFuel => (OutOfFuel, d)
    end.

  (** ** A local inventory *)

  (** db.py:284-285 and 441-444: the index of MatrixDb.from_path(path) *)
  Definition local_index (path : string) (d : fs) : result (index rest) :=
    f <- read_index (join_path path "index.json") d ;; load [] f.
  (** db.py:287-288, 500-514 [load_matrix] with [_matrix_fs_path] *)
  Definition local_matrix (path : string) (e : entry rest) (d : fs) : result weights :=
    p <- matrix_path e ;;
    match alookup (join_path path p) d with
    | Some (Weights w) => Ok w
    | Some _ => Raise ValueError
    | None => Raise FileNotFoundError
    end.

  (** ** tools/subset/subset_remote_db.py *)

  Section Subset.
    (** The remote inventory: what the address of a matrix gives (db.py:253-272 [matrix_path]) *)
    Variable remote : string -> result weights.
    Variables (py_str : val -> string) (key_order : list string) (fuel : nat).

    (** db.py:517-536 [copy_matrix_file]; the file is fetched in a dry run too.  Simplified:
        directories are not modelled. *)
    Definition copy_matrix_file (e : entry rest) (out_dir : string) (exist_ok dry_run : bool) (d : fs)
      : result string * fs :=
      match (p <- matrix_path e ;; w <- remote p ;; Ok (join_path out_dir p, w)) with
      | Ok (target, w) =>
          if negb exist_ok && amem target d && negb dry_run then (Raise FileExistsError, d)
          else if dry_run then (Ok target, d)
          else (Ok target, aset target (Weights w) d)
      | Raise x => (Raise x, d)
      | OutOfFuel => (OutOfFuel, d)
      end.
    (** subset_remote_db.py:46-50: the loop over the entries *)
    Fixpoint copy_all (l : index rest) (out_dir : string) (exist_ok dry_run : bool) (d : fs) : result unit * fs :=
      match l with
      | [] => (Ok tt, d)
      | (_, e) :: r => match copy_matrix_file e out_dir exist_ok dry_run d with
                       | (Ok _, d') => copy_all r out_dir exist_ok dry_run d'
                       | (Raise x, d') => (Raise x, d')
                       | (OutOfFuel, d') => (OutOfFuel, d')
                       end
      end.
    (** a path inside the directory (os.listdir; empty directories are not modelled) *)
    Definition inside (dir path : string) : bool := String.prefix (join_path dir "") path.
    Definition occupied (dir : string) (d : fs) : bool := existsb (fun p => inside dir (fst p)) d.

    (** subset_remote_db.py:26-58 [subset_remote_db], with the filters already read from the
        configuration file and the index of the remote inventory already loaded; [UserError 0] is the plain
        Exception of line 33. *)
    Definition subset_remote_db (idx : index rest) (items : list sfilter) (out_dir : string)
      (strict fail_on_missing dry_run : bool) (d : fs) : result unit * fs :=
      if negb dry_run && strict && occupied out_dir d then (Raise (UserError 0), d)
      else match snd (subset py_str key_order fuel idx items fail_on_missing) with
           | Ok res =>
               match copy_all res out_dir (negb strict) dry_run d with
               | (Ok _, d') =>
                   if dry_run then (Ok tt, d')
                   else (Ok tt, aset (join_path out_dir "index.json") (IndexFile (to_raw res)) d')
               | other => other
               end
           | Raise x => (Raise x, d)
           | OutOfFuel => (OutOfFuel, d)
           end.
  End Subset.
End Inventory.
Arguments Weights {rest weights}. Arguments IndexFile {rest weights}. Arguments Other {rest weights}.
Arguments read_index {rest weights}. Arguments matrix_of {rest}. Arguments update {rest}.
Arguments merged {rest weights}. Arguments check_file {rest weights}. Arguments merge {rest weights}.
Arguments local_index {rest weights}. Arguments local_matrix {rest weights}.
Arguments copy_matrix_file {rest weights}. Arguments copy_all {rest weights}. Arguments occupied {rest weights}.
Arguments subset_remote_db {rest weights}.
