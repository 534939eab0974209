(** Model of utils/builder.py: adding to an index the matrix that MIR computed. *)
From Verif Require Import PyBase PyStr Float64 GridSpec Index.
From Verif Require Stream Mir.
Local Open Scope string_scope.
Local Open Scope list_scope.
Local Open Scope Z_scope.

(** A grid as MIR describes it in its JSON file, by x["type"], with the keys that
    builder.py:23-60 reads; [g_global] is the optional key "global".  Simplified: the keys
    of a known type are present, except that [pl] may be short. *)
Inductive kind :=
| KLL (west_east south_north nj ni north west south east : val)
| KRGG (pl : list Z) (n : Z) (north west south east : val)
| KHP (grid order : val)
| KORCA (type subtype : string)
| KOther.
Record mgrid := mkGrid { g_kind : kind; g_global : option val }.

(** builder.py:30-31, 47-48 *)
Definition add_global (g : mgrid) (d : dict) : dict :=
  match g_global g with Some v => aset "global" v d | None => d end.
(** builder.py:35-50, the name: pl[1] - pl[0] == 4 *)
Definition gaussian (pl : list Z) (n : Z) : result string :=
  match pl with
  | a :: b :: _ => Ok ((if (b - a =? 4)%Z then "O" else "N") ++ show_Z n)%string
  | _ => Raise IndexError
  end.
(** builder.py:124-126 [convert] with 23-60; an unknown type is not a global name *)
Definition convert (g : mgrid) : result dict :=
  match g_kind g with
  | KLL we sn nj ni n w s e =>
      Ok (add_global g [("grid", VList [we; sn]); ("shape", VList [nj; ni]); ("area", VList [n; w; s; e])])
  | KRGG pl k n w s e =>
      name <- gaussian pl k ;;
      Ok (add_global g [("grid", VStr name); ("shape", VList [VInt (fold_right Z.add 0 pl)]); ("area", VList [n; w; s; e])])
  | KHP grid ord => Ok [("grid", grid); ("order", ord)]
  | KORCA t s => Ok [("grid", VStr (t ++ "_" ++ s))]
  | KOther => Raise KeyError
  end.
(** builder.py:128-132: set "global" when asked to, unless it is there *)
Definition with_global (b : option bool) (g : mgrid) : mgrid :=
  match b, g_global g with
  | Some b, None => mkGrid (g_kind g) (Some (VInt (if b then 1 else 0)))
  | _, _ => g
  end.

(** entry["interpolation"]: what the index looks at, whether an object under "method" is
    _GRIDBOX_DEFAULT (db.py:33-41), and the other keys *)
Record binter := mkBinter { bi : interpolation; bi_default : bool; bi_others : list string }.
(** The JSON file read at builder.py:78-79; [None]: the key is missing. *)
Record bentry := mkBentry { b_input : mgrid; b_output : mgrid; b_inter : option binter;
  b_cache_file : option string; b_nnz : option Z }.
(** What an entry of the index holds besides the grids, engine, version and method *)
Record brest := mkRest { br_uid : option string; br_nnz : Z; br_memory : Z }.
(** The files, and the index file if there is one (parsed) *)
Record bstate := mkB { b_files : Mir.fs; b_index : option (file brest) }.

Definition is_object (i : binter) : bool := match i_method (bi i) with Some (MObject _) => true | _ => false end.
(** db.py:43-55 [is_gridbox_default] *)
Definition is_gridbox_default (i : binter) : bool :=
  match i_method (bi i) with
  | Some (MObject _) => bi_default i
  | Some (MName s) => String.eqb s "grid-box-average"
  | _ => false
  end.
(** set(inter.keys()) == {"method", "engine", "version"} *)
Definition just_three (i : binter) : bool :=
  match i_engine (bi i), i_version (bi i), i_method (bi i), bi_others i with
  | Some _, Some _, Some _, [] => true
  | _, _, _, _ => false
  end.

Section Builder.
  (** make_sha of entry["interpolation"] (db.py:58-66), make_sha of the two grids and the
      interpolation (builder.py:63-66, 101-107), matrix_memory_size (utils/matrix.py) *)
  Variable sha_inter : binter -> string.
  Variable sha_key : mgrid -> mgrid -> binter -> string.
  Variable memory_size : Mir.csrz -> Z.

  Definition just_inter (i : interpolation) : raw unit := mkRaw None None (Some i) tt.
  (** db.py:344-357 [make_interpolation_uid] *)
  Definition make_interpolation_uid (i : binter) : result string :=
    m <- interpolation_method_name (just_inter (bi i)) ;;
    Ok (if String.eqb m "grid-box-average" && is_gridbox_default i then m
        else if is_object i then sha_inter i
        else if just_three i then m
        else sha_inter i).

  (** builder.py:83-90: the interpolation that is stored *)
  Definition stored_inter (i : binter) : result (interpolation * option string) :=
    name <- interpolation_method_name (just_inter (bi i)) ;;
    uid <- make_interpolation_uid i ;;
    Ok (if negb (String.eqb uid name) then (bi i, Some uid)
        else (mkInter (i_engine (bi i)) (i_version (bi i)) (Some (MName name)), None)).

  (** builder.py:114-123: the index to add to *)
  Definition open_index (x : option (file brest)) : result (file brest) :=
    match x with
    | Some f => match f_version f with
                | Some v => if v =? VERSION then Ok f else Raise ValueError
                | None => Raise ValueError
                end
    | None => Ok (mkFile (Some VERSION) (Some []))
    end.

  (** builder.py:76-152 [make_matrix].  [target] is how the npz file is named to
      mir_cached_matrix_to_file: a str in the code, see [make_matrix] below.  Simplified:
      the entry itself is not mutated (nothing reads it afterwards), directories are not
      modelled, the index is written at once. *)
  Definition make_matrix_with (target : string -> Mir.arg) (output_path : string)
    (global_input global_output : option bool) (e : bentry) (s : bstate) : result unit * bstate :=
    match (i <- match b_inter e with Some i => Ok i | None => Raise KeyError end ;;
           x <- stored_inter i ;;
           d <- matrix_dir_name (just_inter (fst x)) ;;
           c <- match b_cache_file e with Some c => Ok c | None => Raise KeyError end ;;
           Ok (i, x, d, c)) with
    | Ok (i, (inter, uid), dir, cache_file) =>
        let key := sha_key (b_input e) (b_output e) i in
        let npz := join_path (join_path output_path dir) (key ++ ".npz")%string in
        match Mir.mir_cached_matrix_to_file cache_file (target npz) (b_files s) with
        | (Ok _, fs) =>
            match (f <- open_index (b_index s) ;;
                   z <- match alookup npz fs with Some (Mir.Npz z) => Ok z | Some _ => Raise ValueError | None => Raise FileNotFoundError end ;;
                   gi <- convert (with_global global_input (b_input e)) ;;
                   go <- convert (with_global global_output (b_output e)) ;;
                   n <- match b_nnz e with Some n => Ok n | None => Raise KeyError end ;;
                   m <- match f_matrix f with Some m => Ok m | None => Raise KeyError end ;;
                   Ok (mkFile (f_version f)
                         (Some (aset key (mkRaw (Some gi) (Some go) (Some inter) (mkRest uid n (memory_size z))) m)))) with
            | Ok f => (Ok tt, mkB fs (Some f))
            | Raise x => (Raise x, mkB fs (b_index s))
            | OutOfFuel => (OutOfFuel, mkB fs (b_index s))
            end
        | (r, fs) => (r, mkB fs (b_index s))
        end
    | Raise x => (Raise x, s)
    | OutOfFuel => (OutOfFuel, s)
    end.

  (** As it is: builder.py:109-110 passes the str made by os.path.join. *)
  Definition make_matrix := make_matrix_with Mir.AStr.
  (** Repaired: the same with a Path. *)
  Definition make_matrix_repaired := make_matrix_with Mir.APath.
End Builder.
