(** Model of the inventory pages of the documentation (sphinxext/generate_inventory_rst.py).
    The text is kept as a list of blocks: the title, the source and the cells of the table.
    The index is that of SYS_DB, already loaded; specs is a dictionary in insertion order. *)
From Verif Require Import PyBase PyStr Float64 GridSpec Index.
Local Open Scope string_scope.
Local Open Scope list_scope.

(** generate_inventory_rst.py:21 *)
Definition BLOCK_COL_NUM : nat := 3.

(** generate_inventory_rst.py:24-31 [sort_key_gridspec] *)
Definition sort_key (g : gspec) : result (val * val) :=
  grid <- dget "grid" (gd g) ;;
  match grid with
  | VStr _ => Ok (VInt 1000, grid)
  | VList (_ :: _) => x <- GridSpec.index grid 0 ;; y <- GridSpec.index grid 1 ;; Ok (x, y)
  | _ => Ok (VInt 0, VInt 0)
  end.
(** Python [<] on the elements of a key.  Simplified: lists inside a grid do not compare. *)
Definition val_lt (a b : val) : result bool :=
  match as_num a, as_num b with
  | Some x, Some y => Ok (nltb x y)
  | _, _ => match a, b with VStr s, VStr t => Ok (String.ltb s t) | _, _ => Raise TypeError end
  end.
(** Python [<] on pairs: the first elements that are not equal decide. *)
Definition key_lt (a b : val * val) : result bool :=
  if py_eq (fst a) (fst b)
  then if py_eq (snd a) (snd b) then Ok false else val_lt (snd a) (snd b)
  else val_lt (fst a) (fst b).

(** sorted(..., key=sort_key_gridspec), line 157: stable.  Simplified: by insertion, which
    may compare other pairs than Python's algorithm does. *)
Fixpoint insert_spec (k : val * val) (g : gspec) (l : list ((val * val) * gspec)) : result (list ((val * val) * gspec)) :=
  match l with
  | [] => Ok [(k, g)]
  | (k', g') :: r => b <- key_lt k k' ;; if b then Ok ((k, g) :: l) else r' <- insert_spec k g r ;; Ok ((k', g') :: r')
  end.
Fixpoint sort_into (acc : list ((val * val) * gspec)) (l : list gspec) : result (list ((val * val) * gspec)) :=
  match l with
  | [] => Ok acc
  | g :: r => k <- sort_key g ;; acc' <- insert_spec k g acc ;; sort_into acc' r
  end.
Definition sorted_specs (l : list gspec) : result (list gspec) := s <- sort_into [] l ;; Ok (map snd s).

(** generate_inventory_rst.py:34-47 [to_str]: the grid and the ordering that are shown *)
Record shown := mkShown { s_grid : val; s_ordering : option val }.
Definition to_str (g : gspec) : result shown :=
  grid <- dget "grid" (gd g) ;;
  if match grid with VStr s => match chars s with c :: _ => Ascii.eqb c "H" | [] => false end | _ => false end
  then match alookup "ordering" (gd g), alookup "order" (gd g) with
       | Some o, _ => Ok (mkShown grid (Some o))
       | None, Some o => Ok (mkShown grid (Some o))
       | None, None => Raise ValueError
       end
  else Ok (mkShown grid None).

(** A target: a specification or the empty string, to_str of which is itself (line 35). *)
Definition cell_text (c : option gspec) : result (option shown) :=
  match c with Some g => s <- to_str g ;; Ok (Some s) | None => Ok None end.
Fixpoint map_ok {A B} (f : A -> result B) (l : list A) : result (list B) :=
  match l with [] => Ok [] | a :: r => b <- f a ;; bs <- map_ok f r ;; Ok (b :: bs) end.

(** A block: source["grid"], to_str(source) and the columns. *)
Record block := mkBlock { b_title : val; b_source : shown; b_columns : list (list (option shown)) }.

(** generate_inventory_rst.py:51-52: until the length is a multiple of three.  Fuel: at most
    two are appended. *)
Fixpoint pad (fuel : nat) (l : list (option gspec)) : list (option gspec) :=
  match fuel with
  | O => l
  | S n => if Nat.eqb (Nat.modulo (List.length l) BLOCK_COL_NUM) 0 then l else pad n (l ++ [None])
  end.
(** generate_inventory_rst.py:50-93 [make_gs_block] *)
Definition make_gs_block (source : gspec) (target : list gspec) : result block :=
  let padded := pad BLOCK_COL_NUM (map Some target) in
  let step := Nat.div (List.length padded) BLOCK_COL_NUM in
  title <- dget "grid" (gd source) ;;
  s <- to_str source ;;
  cols <- map_ok (fun k => map_ok cell_text (firstn step (skipn (k * step) padded))) (seq 0 BLOCK_COL_NUM) ;;
  Ok (mkBlock title s cols).

(** getattr of a specification.  Simplified: the names [execute] uses.  [octahedral] is a
    property of ReducedGGGridSpec (gridspec.py:326-357) that may raise; no class has an
    attribute [ordering], and a dictionary has none of its keys as attributes. *)
Definition get_attr (g : gspec) (name : string) : result (option val) :=
  if String.eqb name "octahedral"
  then match cls g with RGG => p <- inspect_RGG (gd g) ;; Ok (Some (VBool (snd p))) | _ => Ok None end
  else Ok None.
(** generate_inventory_rst.py:96-105 [match] *)
Fixpoint match_attrs (g : gspec) (grid : list (string * val)) : result bool :=
  match grid with
  | [] => Ok true
  | (name, v) :: r =>
      if String.eqb name "type" then match_attrs g r
      else a <- get_attr g name ;;
           match a with
           | Some w => if py_eq w v then match_attrs g r else Ok false
           | None => Ok false
           end
  end.

(** Specs(source, target), line 18 *)
Definition specs := list (string * (gspec * list gspec)).

(** generate_inventory_rst.py:108-132 [build_gs_page] *)
Fixpoint build_gs_page (sp : specs) (grid : list (string * val)) : result (list block) :=
  match sp with
  | [] => Ok []
  | (_, (source, target)) :: r =>
      t <- dget "type" (gd source) ;;
      want <- dget "type" grid ;;
      if negb (py_eq t want) then build_gs_page r grid
      else m <- match_attrs source grid ;;
           if m then b <- make_gs_block source target ;; bs <- build_gs_page r grid ;; Ok (b :: bs)
           else build_gs_page r grid
  end.

Section Pages.
  Variable rest : Type.
  (** hashlib.sha256(json.dumps(dict(gs_in))).hexdigest(), lines 146-149 *)
  Variable ident : dict -> string.

  (** generate_inventory_rst.py:144: entry["interpolation"]["method"] == "linear" *)
  Definition is_linear (e : entry rest) : result bool :=
    match r_inter (e_raw e) with
    | None => Raise KeyError
    | Some i => match i_method i with
                | None => Raise KeyError
                | Some (MName s) => Ok (String.eqb s "linear")
                | Some _ => Ok false
                end
    end.
  (** generate_inventory_rst.py:151-154 *)
  Definition add_target (sp : specs) (gi go : gspec) : specs :=
    match alookup (ident (gd gi)) sp with
    | None => aset (ident (gd gi)) (gi, [go]) sp
    | Some (s, l) => aset (ident (gd gi)) (s, l ++ [go]) sp
    end.
  (** generate_inventory_rst.py:138-154: the loop over the index *)
  Fixpoint collect (sp : specs) (idx : index rest) : result specs :=
    match idx with
    | [] => Ok sp
    | (_, e) :: r =>
        gi <- from_dict (gd (e_input e)) ;;
        go <- from_dict (gd (e_output e)) ;;
        l <- is_linear e ;;
        collect (if l then add_target sp gi go else sp) r
    end.
  (** generate_inventory_rst.py:156-158 *)
  Definition sort_targets (sp : specs) : result specs :=
    map_ok (fun p => t <- sorted_specs (snd (snd p)) ;; Ok (fst p, (fst (snd p), t))) sp.
  (** generate_inventory_rst.py:135-160 [load_matrix_index_file] *)
  Definition load_matrix_index_file (idx : index rest) : result specs :=
    sp <- collect [] idx ;; sort_targets sp.

  (** generate_inventory_rst.py:168-182: what the page asks for *)
  Definition page_grid (grid_type : string) : list (string * val) :=
    if String.eqb grid_type "reduced_gg_o" then [("type", VStr "reduced_gg"); ("octahedral", VBool true)]
    else if String.eqb grid_type "reduced_gg" then [("type", VStr "reduced_gg"); ("octahedral", VBool false)]
    else if String.eqb grid_type "healpix_ring" then [("type", VStr "healpix"); ("ordering", VStr "ring")]
    else if String.eqb grid_type "healpix_nested" then [("type", VStr "healpix"); ("ordering", VStr "nested")]
    else [("type", VStr grid_type)].
  (** generate_inventory_rst.py:163-192 [execute]; the long name only goes into the heading *)
  Definition page (grid_type : string) (idx : index rest) : result (list block) :=
    sp <- load_matrix_index_file idx ;; build_gs_page sp (page_grid grid_type).
End Pages.
