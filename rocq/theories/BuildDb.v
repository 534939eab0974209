(** Model of the scripts that build an inventory: tools/utils/grid.py, tools/utils/matrix.py,
    tools/manage/build_db.py, build_local_test_db.py and test_db.py. *)
From Verif Require Import PyBase PyStr Float64 GridSpec Index Builder.
From Verif Require Stream Mir.
Local Open Scope string_scope.
Local Open Scope list_scope.
Local Open Scope Z_scope.

(** ** Names of grids: tools/utils/grid.py *)

(** grid.py:11-36, [makers] and the functions it names; the grid is given by its text f"{g}". *)
Definition maker (kind : string) (g : string) : string :=
  if String.eqb kind "ll" then g ++ "/" ++ g
  else if String.eqb kind "O_rgg" then "O" ++ g
  else if String.eqb kind "N_rgg" then "N" ++ g
  else if String.eqb kind "H_ring" then "H" ++ g ++ "_ring"
  else if String.eqb kind "H_nested" then "H" ++ g ++ "_nested"
  else g.
(** grid.py:38-44 [make_grid_id] *)
Fixpoint make_grid_id (grids : list (string * list string)) : list string :=
  match grids with
  | [] => []
  | (k, v) :: r => map (maker k) v ++ make_grid_id r
  end.

(** ** Making one matrix: tools/utils/matrix.py *)

(** matrix.py:41-45 [adjust_grid_name], the replacements in the order of the dictionary *)
Definition adjust_grid_name (name : string) : string :=
  replace1 "/" "x" (replace1 "f" "F" (replace1 "o" "O" (replace1 "n" "N" name))).
(** [A-z] on ASCII: the letters and what lies between Z and a *)
Definition is_A_to_z (c : ascii) : bool := (65 <=? code c) && (code c <=? 122).
(** matrix.py:154, 160: re.match(r"[Hh]\d+_[A-z]+", name), a match of the beginning.  No digit is an
    underscore, so that the longest run of digits is the only one to look at. *)
Definition is_healpix_name (name : string) : bool :=
  match chars name with
  | h :: r =>
      if Ascii.eqb h "H" || Ascii.eqb h "h" then
        match span is_digit r with
        | (_ :: _, u :: a :: _) => Ascii.eqb u "_" && is_A_to_z a
        | _ => false
        end
      else false
  | [] => false
  end.
(** matrix.py:147-161: the label of a grid *)
Definition label (name : string) : string := if is_healpix_name name then name else adjust_grid_name name.

(** What the scripts see and make: the files of matrices, the index files by their paths, the JSON files
    that MIR dumps, the GRIB files there are, whether there is a directory for them.  [t_log]: what was
    asked of MARS, of MIR and of the package, for stating properties. *)
Inductive event :=
| EMars (grid class expver path : string)
| EMir (target : string) (options : list (string * string)) (grib json : string) (files : Mir.fs)
| EAdd (json dir index : string) (e : bentry).
Record tstate := mkT { t_files : Mir.fs; t_index : list (string * file brest); t_json : list (string * bentry);
  t_grib : list string; t_grib_dir : bool; t_log : list event }.
Definition logged (v : event) (s : tstate) : tstate :=
  mkT (t_files s) (t_index s) (t_json s) (t_grib s) (t_grib_dir s) (t_log s ++ [v]).

(** matrix.py:88-90, 100-104: the path of the JSON file; options[...] is there if the key is *)
Definition json_path (matrix_dir src_label target_label : string) (options : list (string * string)) : string :=
  join_path matrix_dir
    ((target_label ++ "-" ++ src_label ++ match alookup "interpolation" options with Some m => "-" ++ m | None => "" end) ++ ".json").

Section Scripts.
  (** ds.save(...) of what MARS delivers for a grid, a class and an experiment, or the exception; MIR's
      command: the JSON it writes for a target grid, options, a GRIB file and the files there are, if it
      writes one, and the files afterwards; builder.make_matrix of the package *)
  Variable mars : string -> string -> string -> result unit.
  Variable mir : string -> list (string * string) -> string -> Mir.fs -> option bentry * Mir.fs.
  Variable build : string -> option bool -> option bool -> bentry -> bstate -> result unit * bstate.

  (** matrix.py:62-83 [get_grib_file] *)
  Definition get_grib_file (grid path : string) (s : tstate) : result unit * tstate :=
    if existsb (String.eqb path) (t_grib s) then (Ok tt, s)
    else
      let special := String.eqb grid "N2560" || String.eqb grid "O2560" in
      let class := if special then "rd" else "od" in
      let expver := if special then "i4ql" else "1" in
      let s := logged (EMars grid class expver path) s in
      match mars grid class expver with
      | Ok _ => (Ok tt, mkT (t_files s) (t_index s) (t_json s) (path :: t_grib s) (t_grib_dir s) (t_log s))
      | Raise x => (Raise x, s)
      | OutOfFuel => (OutOfFuel, s)
      end.

  (** matrix.py:105-115: MIR runs unless the JSON file is there; whether it worked is not looked at *)
  Definition dump (target : string) (options : list (string * string)) (grib json : string) (s : tstate) : tstate :=
    match alookup json (t_json s) with
    | Some _ => s
    | None =>
        let '(r, files) := mir target options grib (t_files s) in
        let l := t_log s ++ [EMir target options grib json (t_files s)] in
        match r with
        | Some e => mkT files (t_index s) (aset json e (t_json s)) (t_grib s) (t_grib_dir s) l
        | None => mkT files (t_index s) (t_json s) (t_grib s) (t_grib_dir s) l
        end
    end.
  (** matrix.py:117-128: builder.make_matrix reads the JSON file and adds to the index file *)
  Definition add (json matrix_dir index : string) (s : tstate) : result unit * tstate :=
    match alookup json (t_json s) with
    | None => (Raise FileNotFoundError, s)
    | Some e =>
        let s := logged (EAdd json matrix_dir index e) s in
        let '(r, b) := build matrix_dir (Some true) (Some true) e (mkB (t_files s) (alookup index (t_index s))) in
        (r, mkT (b_files b) (match b_index b with Some f => aset index f (t_index s) | None => t_index s end)
              (t_json s) (t_grib s) (t_grib_dir s) (t_log s))
    end.
  (** matrix.py:85-131 [create_matrix_files], with add_to_index=True as at its only call; the text of the
      command is not modelled *)
  Definition create_matrix_files (matrix_dir src_label target_label target : string) (options : list (string * string))
    (grib index : string) (delete : bool) (s : tstate) : result unit * tstate :=
    let json := json_path matrix_dir src_label target_label options in
    let s := dump target options grib json s in
    match add json matrix_dir index s with
    | (Ok _, s) =>
        (Ok tt, if delete then mkT (t_files s) (t_index s) (aremove json (t_json s)) (t_grib s) (t_grib_dir s) (t_log s) else s)
    | r => r
    end.

  (** One call of make_matrix with download_index=False *)
  Record job := mkJob { j_src : string; j_target : string; j_method : string; j_dir : string; j_index : option string; j_delete : bool }.
  Definition grib_path (src_label : string) : string := join_path "grib" (src_label ++ ".grib").
  Definition index_path (j : job) : string := match j_index j with Some i => i | None => join_path (j_dir j) "index.json" end.
  (** matrix.py:133-189 [make_matrix]; the second and third assertion hold *)
  Definition make_one (j : job) (s : tstate) : result unit * tstate :=
    let src_label := label (j_src j) in
    let target_label := label (j_target j) in
    if negb (t_grib_dir s) then (Raise AssertionError, s)
    else
      let grib := grib_path src_label in
      match get_grib_file (j_src j) grib s with
      | (Ok _, s) => create_matrix_files (j_dir j) src_label target_label (j_target j) [("interpolation", j_method j)] grib (index_path j) (j_delete j) s
      | r => r
      end.
  (** Calls one after the other, until one raises *)
  Fixpoint make_all (l : list job) (s : tstate) : result unit * tstate :=
    match l with
    | [] => (Ok tt, s)
    | j :: r => match make_one j s with (Ok _, s) => make_all r s | x => x end
    end.

  (** build_db.py:110-142, the loops, for the lists of grids made at 105-106, [extra] and the directory *)
  Definition method_jobs (build_dir : string) (in_grids out_grids : list string) (extra : list (string * string)) (method : string) : list job :=
    let dir := join_path build_dir ("matrices_" ++ method) in
    let index := join_path build_dir "index.json" in
    flat_map (fun g_in => flat_map (fun g_out => if negb (String.eqb g_in g_out) then [mkJob g_in g_out method dir (Some index) false] else []) out_grids) in_grids
    ++ map (fun p => mkJob (fst p) (snd p) method dir (Some index) false) extra.
  Definition db_jobs (build_dir : string) (in_grids out_grids : list (string * list string)) (extra : list (string * string)) (methods : list string) : list job :=
    flat_map (method_jobs build_dir (make_grid_id in_grids) (make_grid_id out_grids) extra) methods.
  Definition build_db (build_dir : string) (in_grids out_grids : list (string * list string)) (extra : list (string * string)) (s : tstate) : result unit * tstate :=
    make_all (db_jobs build_dir in_grids out_grids extra ["linear"; "nn"; "grid-box-average"]) s.
  (** build_local_test_db.py:34-46 *)
  Definition local_jobs (build_dir : string) (grids : list (string * string)) (methods : list string) : list job :=
    flat_map (fun method => map (fun p => mkJob (fst p) (snd p) method build_dir (Some (join_path build_dir "index.json")) true) grids) methods.
  Definition build_local_test_db (build_dir : string) (grids : list (string * string)) (methods : list string) (s : tstate) : result unit * tstate :=
    make_all (local_jobs build_dir grids methods) s.
End Scripts.

(** ** A directory to test with: tools/manage/test_db.py *)

(** test_db.py:45-71 [build_test_dir]: a link for each directory found in the directories of matrices of two
    methods; [listing]: the names that glob finds there and that are directories.  The links are pairs of a
    path and the directory it stands for; os.symlink raises if the path is there.  The copy of the index
    file is not modelled here. *)
Fixpoint link_names (test_dir m_dir : string) (names : list string) (links : list (string * string)) : result unit * list (string * string) :=
  match names with
  | [] => (Ok tt, links)
  | n :: r =>
      match alookup (join_path test_dir n) links with
      | Some _ => (Raise FileExistsError, links)
      | None => link_names test_dir m_dir r (links ++ [(join_path test_dir n, join_path m_dir n)])
      end
  end.
Fixpoint link_dirs (listing : string -> list string) (test_dir : string) (m_dirs : list string) (links : list (string * string)) : result unit * list (string * string) :=
  match m_dirs with
  | [] => match links with [] => (Raise RuntimeError, links) | _ => (Ok tt, links) end
  | d :: r => match link_names test_dir d (listing d) links with (Ok _, links) => link_dirs listing test_dir r links | x => x end
  end.
Definition build_test_dir (listing : string -> list string) (test_dir db_dir : string) : result unit * list (string * string) :=
  link_dirs listing test_dir [join_path db_dir "matrices_linear"; join_path db_dir "matrices_nn"] [].
(** Opening a file below a link: [dir] below the test directory, [file] in it *)
Definition through (links : list (string * string)) (test_dir dir file : string) (files : Mir.fs) : option Mir.file :=
  match alookup (join_path test_dir dir) links with
  | Some d => alookup (join_path d file) files
  | None => alookup (join_path (join_path test_dir dir) file) files
  end.
