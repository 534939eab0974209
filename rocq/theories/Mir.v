(** Model of utils/mir.py: decoding the weights that MIR writes, grid-definition
    files, and making a matrix with MIR. *)
From Verif Require Import PyBase Stream.
Local Open Scope string_scope.
Local Open Scope list_scope.
Local Open Scope Z_scope.

(** ** Decoding a matrix: mir.py:24-65 *)

(** mir.py:24-26 [dtype_uint]: the table has the size 4 only (KeyError). *)
Definition dtype_uint (size : Z) : result Z :=
  if size =? 4 then Ok 4 else Raise KeyError.
(** mir.py:29-31 [dtype_float] *)
Definition dtype_float (size : Z) : result Z :=
  if size =? 4 then Ok 4 else if size =? 8 then Ok 8 else Raise KeyError.

(** [np.frombuffer] with an item of [k] bytes in the given order: ValueError unless
    the buffer holds a whole number of items.  An item is its bit pattern. *)
Fixpoint chunks (n : nat) (k : Z) (s : bytes) : list bytes :=
  match n with
  | O => []
  | S n' => ztake k s :: chunks n' k (zdrop k s)
  end.
Definition unle (s : bytes) : Z := unbe (rev s).
Definition frombuffer (little_endian : bool) (k : Z) (s : bytes) : result (list Z) :=
  if zlen s mod k =? 0
  then Ok (map (if little_endian then unle else unbe) (chunks (Z.to_nat (zlen s / k)) k s))
  else Raise ValueError.

(** scipy's csr_array((data, indices, indptr), shape): [check_format(full_check=False)]
    and [prune]. *)
Record csrz := mkCsrz { m_rows : Z; m_cols : Z; m_indptr : list Z; m_indices : list Z; m_data : list Z }.
Definition csr_array (data inner outer : list Z) (rows cols : Z) : result csrz :=
  if negb (zlen outer =? rows + 1) then Raise ValueError
  else if negb (hd 0 outer =? 0) then Raise ValueError
  else if negb (zlen inner =? zlen data) then Raise ValueError
  else if zlen inner <? last outer 0 then Raise ValueError
  else let nnz := last outer 0 in
       Ok (mkCsrz rows cols outer (ztake nnz inner) (ztake nnz data)).

(** mir.py:34-65 [mir_cached_matrix_to_array], on the bytes of the file *)
Definition mir_cached_matrix_to_array (s : bytes) : result csrz :=
  rows <- read_unsigned_long s ;;
  cols <- read_unsigned_long (snd rows) ;;
  nnz <- read_unsigned_long (snd cols) ;;
  flag <- read_int (snd nnz) ;;
  let little_endian := negb (fst flag =? 0) in
  index_item_size <- read_unsigned_long (snd flag) ;;
  scalar_item_size <- read_unsigned_long (snd index_item_size) ;;
  size_size <- read_unsigned_long (snd scalar_item_size) ;;
  outer <- read_large_blob (snd size_size) ;;
  inner <- read_large_blob (snd outer) ;;
  data <- read_large_blob (snd inner) ;;
  k <- dtype_uint (fst index_item_size) ;;
  outer' <- frombuffer little_endian k (fst outer) ;;
  k <- dtype_uint (fst index_item_size) ;;
  inner' <- frombuffer little_endian k (fst inner) ;;
  k <- dtype_float (fst scalar_item_size) ;;
  data' <- frombuffer little_endian k (fst data) ;;
  csr_array data' inner' outer' (fst rows) (fst cols).

(** ** Files *)

(** What a file holds: bytes, or a matrix saved by [save_npz] (kept as a whole:
    the npz format is scipy's). *)
Inductive file := Raw (b : bytes) | Npz (m : csrz).
Definition fs := list (string * file).

(** ** Grid definitions: mir.py:76-111 *)

(** The coordinates given: a Python list or a numpy array; [None] stands for an
    item that is not a number. *)
Inductive coords := CList (l : list (option Z)) | CArray (l : list Z).
Definition items (c : coords) : list (option Z) :=
  match c with CList l => l | CArray l => map Some l end.

(** mir.py:86-88, the loop over [zip(lats, lons)] *)
Fixpoint write_points (lats lons : list (option Z)) : writer :=
  match lats, lons with
  | lat :: lats', lon :: lons' => write_double lat ;;; write_double lon ;;; write_points lats' lons'
  | _, _ => fun out => (Ok tt, out)
  end.
Definition griddef_writer (lats lons : list (option Z)) : writer :=
  write_unsigned_long 1 ;;;
  write_unsigned_long (Z.of_nat (List.length lats)) ;;;
  write_points lats lons.

(** mir.py:76-88 [mir_write_latlon_to_griddef].  The file is opened under its final
    name; [stop = Some k] is the process being killed when [k] bytes have reached
    the disk. *)
Definition mir_write_latlon_to_griddef (stop : option Z) (path : string) (lats lons : coords) (d : fs)
  : option (result unit) * fs :=
  let count := List.length (items lats) in
  if negb (Nat.eqb count (List.length (items lons))) || Nat.eqb count 0
  then (Some (Raise ValueError), d)
  else let '(r, b) := griddef_writer (items lats) (items lons) [] in
       match stop with
       | None => (Some r, aset path (Raw b) d)
       | Some k => (None, aset path (Raw (ztake k b)) d)
       end.

Section Griddef.
  (** [str] of an item of a list; the rendering of a numpy array (given whether it is
      summarised, and the items that are shown); [hashlib.md5(...).hexdigest()] *)
  Variable repr : option Z -> string.
  Variable render : bool -> list Z -> string.
  Variable md5 : string -> string.

  (** [str(list)]: items joined by ", " in brackets *)
  Fixpoint joined (l : list string) : string :=
    match l with
    | [] => ""
    | [x] => x
    | x :: r => (x ++ ", " ++ joined r)%string
    end.
  (** [str(lat)]: numpy shows the first and last three items only of an array of more
      than 1000 (its default print options) *)
  Definition str_coords (c : coords) : string :=
    match c with
    | CList l => ("[" ++ joined (map repr l) ++ "]")%string
    | CArray l =>
        let n := List.length l in
        if (1000 <? n)%nat
        then render true (firstn 3 l ++ skipn (n - 3) l)
        else render false l
    end.
  (** mir.py:100-101 *)
  Definition coord_text (lat lon : coords) : string := ("1" ++ str_coords lat ++ str_coords lon)%string.

  Variable dir : string.
  (** mir.py:102-106 (with a directory, as [mir_make_matrix] calls it) *)
  Definition griddef_name (lat lon : coords) : string :=
    (dir ++ "/" ++ md5 (coord_text lat lon) ++ ".griddef")%string.

  (** mir.py:97-111 [_griddef_from_latlon]; the outcome is [None] when killed *)
  Definition griddef_from_latlon (stop : option Z) (lat lon : coords) (d : fs)
    : option (result string) * fs :=
    let name := griddef_name lat lon in
    if amem name d then (Some (Ok name), d)
    else match mir_write_latlon_to_griddef stop name lat lon d with
         | (Some (Ok _), d') => (Some (Ok name), d')
         | (Some (Raise e), d') => (Some (Raise e), d')
         | (Some OutOfFuel, d') => (Some OutOfFuel, d')
         | (None, d') => (None, d')
         end.

  (** a history of calls, some of them killed *)
  Record gcall := mkGcall { g_stop : option Z; g_lat : coords; g_lon : coords }.
  Definition grun1 (d : fs) (c : gcall) : fs :=
    snd (griddef_from_latlon (g_stop c) (g_lat c) (g_lon c) d).
  Definition grun (l : list gcall) (d : fs) : fs := fold_left grun1 l d.

  (** ** Saving as npz: mir.py:68-73 *)

  (** An argument that should name a file *)
  Inductive arg := ANone | AStr (s : string) | APath (s : string).

  (** the part of a path after its last "/" *)
  Fixpoint name_of (s : string) : string :=
    match s with
    | "" => ""
    | String c r => if existsb (Ascii.eqb "/"%char) (list_ascii_of_string s)
                    then name_of r else s
    end.
  (** pathlib's [suffix]: from the last dot of the name, unless that dot is the first
      or the last character of the name *)
  Fixpoint last_dot (s : string) : option string :=
    match s with
    | "" => None
    | String c r => match last_dot r with
                    | Some x => Some x
                    | None => if Ascii.eqb c "."%char then Some s else None
                    end
    end.
  Definition suffix (path : string) : string :=
    match name_of path with
    | "" => ""
    | String _ r => match last_dot r with
                    | Some x => if String.eqb x "." then "" else x
                    | None => ""
                    end
    end.

  (** mir.py:68-73 [mir_cached_matrix_to_file]: a [str] has no [suffix] *)
  Definition mir_cached_matrix_to_file (path : string) (target : arg) (d : fs) : result unit * fs :=
    match target with
    | ANone | AStr _ => (Raise AttributeError, d)
    | APath t =>
        if negb (String.eqb (suffix t) ".npz") then (Raise ValueError, d)
        else match alookup path d with
             | Some (Raw b) =>
                 match mir_cached_matrix_to_array b with
                 | Ok z => (Ok tt, aset t (Npz z) d)
                 | Raise e => (Raise e, d)
                 | OutOfFuel => (OutOfFuel, d)
                 end
             | Some (Npz _) => (Raise RuntimeError, d)
             | None => (Raise FileNotFoundError, d)
             end
    end.

  (** ** mir.py:114-169 [mir_make_matrix] *)

  Inductive minput := GridSpecInput (yaml : string) | GriddefInput (path : string).
  (** [job.execute(input, EmptyOutput)] of the MIR library, given the settings of the
      job in the order they were set *)
  Variable execute : minput -> list (string * string) -> fs -> result unit * fs.

  (** which grid: a specification (already in YAML) or coordinates, mir.py:132-144 *)
  Definition source (grid : option string) (lat lon : option coords) (d : fs)
    : result minput * fs :=
    match grid, lat, lon with
    | Some y, None, None => (Ok (GridSpecInput y), d)
    | None, Some a, Some o =>
        match griddef_from_latlon None a o d with
        | (Some (Ok n), d') => (Ok (GriddefInput n), d')
        | (Some (Raise e), d') => (Raise e, d')
        | (_, d') => (OutOfFuel, d')
        end
    | _, _, _ => (Raise ValueError, d)
    end.
  Definition out_setting (i : minput) : string * string :=
    match i with GridSpecInput y => ("grid", y) | GriddefInput p => ("griddef", p) end.

  Definition arg_path (a : arg) : option string :=
    match a with ANone => None | AStr s | APath s => Some s end.

  Definition mir_make_matrix
    (in_grid : option string) (in_lat in_lon : option coords)
    (out_grid : option string) (out_lat out_lon : option coords)
    (output : arg) (kwargs : list (string * string)) (d : fs) : result (option csrz) * fs :=
    (* 126-128 *)
    let ext := match arg_path output with Some p => Some (suffix p) | None => None end in
    let bad_ext := match ext with
                   | Some e => negb (String.eqb e ".mat" || String.eqb e ".npz")
                   | None => false
                   end in
    if bad_ext then (Raise ValueError, d) else
    (* 132-137 *)
    match source in_grid in_lat in_lon d with
    | (Ok inp, d1) =>
        (* 139-144 *)
        match source out_grid out_lat out_lon d1 with
        | (Ok out, d2) =>
            (* 146: Path(None) is a TypeError *)
            match arg_path output, ext with
            | Some p, Some e =>
                (* 147-151 *)
                let mat := if String.eqb e ".npz" then (p ++ ".mat")%string else p in
                (* 139-154: the settings in order *)
                let settings := out_setting out :: ("interpolation-matrix", mat) :: kwargs in
                match execute inp settings d2 with
                | (Ok _, d3) =>
                    (* 161-162 *)
                    if negb (amem mat d3) then (Raise FileNotFoundError, d3)
                    else if String.eqb e ".npz" then
                      (* 165-167 *)
                      match mir_cached_matrix_to_file mat output d3 with
                      | (Ok _, d4) =>
                          let d5 := aremove mat d4 in
                          if amem p d5 then (Ok None, d5) else (Raise AssertionError, d5)
                      | (Raise x, d4) => (Raise x, d4)
                      | (OutOfFuel, d4) => (OutOfFuel, d4)
                      end
                    else (Ok None, d3)
                | (Raise _, d3) => (Raise RuntimeError, d3)
                | (OutOfFuel, d3) => (OutOfFuel, d3)
                end
            | _, _ => (Raise TypeError, d2)
            end
        | (Raise e, d2) => (Raise e, d2)
        | (OutOfFuel, d2) => (OutOfFuel, d2)
        end
    | (Raise e, d1) => (Raise e, d1)
    | (OutOfFuel, d1) => (OutOfFuel, d1)
    end.
End Griddef.
