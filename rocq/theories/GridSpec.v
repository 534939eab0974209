(** Model of gridspec.py.  Values are the Python values that occur in grid specifications;
    floats are IEEE binary64 (Float64.v).  Dictionary keys are strings; strings are ASCII, so
    [\d] is 0-9.  Nested dictionaries and numpy objects as values are not modelled. *)
From Verif Require Import PyBase PyStr Float64.

Local Open Scope string_scope.
Local Open Scope list_scope.
Local Open Scope Z_scope.

Inductive val : Type :=
| VNone | VBool (b : bool) | VInt (z : Z) | VFloat (f : f64) | VStr (s : string)
| VList (l : list val) | VTup (l : list val).
Definition dict := list (string * val).

(** Python's isinstance(v, int) (bool is a subclass of int). *)
Definition is_vint v := match v with VInt _ | VBool _ => true | _ => false end.

Definition b2z (b : bool) : Z := if b then 1 else 0.
Definition as_num (v : val) : option num :=
  match v with
  | VBool b => Some (NI (b2z b)) | VInt z => Some (NI z) | VFloat f => Some (NF f) | _ => None
  end.

(** Python [==].  Simplified: no identity shortcut for NaN inside containers. *)
Fixpoint py_eq (a b : val) : bool :=
  match a, b with
  | VNone, VNone => true
  | VStr s, VStr t => String.eqb s t
  | VList l, VList m | VTup l, VTup m =>
      (fix go (l m : list val) : bool :=
         match l, m with
         | [], [] => true
         | x :: l', y :: m' => py_eq x y && go l' m'
         | _, _ => false
         end) l m
  | _, _ => match as_num a, as_num b with Some x, Some y => neqb x y | _, _ => false end
  end.

(** bool(v) *)
Definition truthy (v : val) : bool :=
  match v with
  | VNone => false
  | VBool b => b
  | VInt z => negb (z =? 0)
  | VFloat f => match f with S754_zero _ => false | _ => true end
  | VStr s => negb (String.eqb s "")
  | VList l | VTup l => match l with [] => false | _ => true end
  end.

(** hash(v) does not raise *)
Fixpoint hashable (v : val) : bool :=
  match v with
  | VList _ => false
  | VTup l => (fix go (l : list val) : bool := match l with [] => true | x :: r => hashable x && go r end) l
  | _ => true
  end.

(** d[k] *)
Definition dget (k : string) (d : dict) : result val :=
  match alookup k d with Some v => Ok v | None => Raise KeyError end.
(** The elements of a sequence, as [len] and iteration see them. *)
Definition elems (v : val) : result (list val) :=
  match v with
  | VList l | VTup l => Ok l
  | VStr s => Ok (map (fun c => VStr (String c "")) (chars s))
  | _ => Raise TypeError
  end.
(** v[n] *)
Definition index (v : val) (n : nat) : result val :=
  l <- elems v ;; match nth_error l n with Some x => Ok x | None => Raise IndexError end.
(** d.update(e) *)
Definition dupdate (d e : dict) : dict := fold_left (fun d p => aset (fst p) (snd p) d) e d.
(** d.setdefault(k, v) *)
Definition setdefault (k : string) (v : val) (d : dict) : dict :=
  if amem k d then d else aset k v d.

(** gridspec.py:17-19, 269 *)
Definition FULL_GLOBE : f64 := of_Z 360.
Definition FULL_GLOBE_EPS : f64 := lit 1 100000000.
Definition DEGREE_EPS : f64 := lit 1 100000000.
Definition RGG_EPS : f64 := lit 12 100.

(** gridspec.py:21-23.  [re.match] is anchored at the start only; [$] also matches before a
    final newline. *)
Definition in_chars (s : string) (c : ascii) : bool := existsb (Ascii.eqb c) (chars s).
Definition letter_digit (letters : string) (s : string) : bool :=
  match chars s with c :: d :: _ => in_chars letters c && is_digit d | _ => false end.
Definition RGG_match (s : string) : bool := letter_digit "OoNn" s.
Definition HEALPIX_match (s : string) : bool := letter_digit "Hh" s.
Definition ORCA_body (l : list ascii) : bool :=
  match l with
  | "O" :: "R" :: "C" :: "A" :: r =>
      let '(ds, r') := span is_digit r in
      match ds, r' with
      | _ :: _, "_" :: c :: t =>
          in_chars "FTUV" c && match t with [] => true | [n] => Ascii.eqb n "010" | _ => false end
      | _, _ => false
      end
  | _ => false
  end%char.
Definition ORCA_match (s : string) : bool :=
  match chars s with
  | "e" :: r => ORCA_body r
  | l => ORCA_body l
  end%char.

(** gridspec.py:30-31 [same_coord] *)
Definition same_coord (x y : val) (eps : f64) : result bool :=
  match as_num x, as_num y with
  | Some a, Some b => d <- nsub a b ;; Ok (nltb (nabs d) (NF eps))
  | _, _ => Raise TypeError
  end.

(** gridspec.py:35-40 *)
Definition DEFAULTS : dict :=
  [("i_scans_negatively", VInt 0); ("j_points_consecutive", VInt 0); ("j_scans_positively", VInt 0)].
Definition DEFAULT_AREA : val := VList [VInt 90; VInt 0; VInt (-90); VInt 360].
(** gridspec.py:42-48.  A Python set of strings has no fixed iteration order: [eq] below takes
    the order as an argument. *)
Definition COMPARE_KEYS : list string :=
  ["type"; "grid"; "i_scans_negatively"; "j_points_consecutive"; "j_scans_positively"].

(** gridspec.py:55-59 [_normalise] *)
Definition untuple (v : val) : val := match v with VTup l => VList l | _ => v end.
Definition normalise (d : dict) : dict := map (fun p => (fst p, untuple (snd p))) d.

(** gridspec.py:154-180 [GLOBAL_AREAS]: increment (twice), area. *)
Definition fl (n d : Z) : val := VFloat (lit n d).
Definition global_area (north : val) (south : val) (east : val) : val := VList [north; VInt 0; south; east].
Definition full := global_area (VInt 90) (VInt (-90)).
Definition GLOBAL_AREAS : list (val * val) :=
  [(fl 5 100, full (fl 35995 100)); (fl 1 10, full (fl 3599 10)); (fl 125 1000, full (fl 359875 1000));
   (fl 15 100, full (fl 35985 100)); (fl 2 10, full (fl 3598 10)); (fl 25 100, full (fl 35975 100));
   (fl 3 10, full (fl 3597 10)); (fl 4 10, full (fl 3596 10)); (fl 5 10, full (fl 3595 10));
   (fl 6 10, full (fl 3594 10)); (fl 7 10, global_area (fl 896 10) (fl (-896) 10) (fl 3598 10));
   (fl 75 100, full (fl 35925 100)); (fl 8 10, global_area (fl 896 10) (fl (-896) 10) (fl 3592 10));
   (fl 9 10, full (fl 3591 10)); (VInt 1, full (VInt 359)); (fl 12 10, full (fl 3588 10));
   (fl 125 100, full (fl 35875 100)); (fl 14 10, global_area (fl 896 10) (fl (-896) 10) (fl 3598 10));
   (fl 15 10, full (fl 3585 10)); (fl 16 10, global_area (fl 896 10) (fl (-896) 10) (fl 3584 10));
   (fl 18 10, full (fl 3582 10)); (VInt 2, full (VInt 358)); (fl 25 10, full (fl 3575 10));
   (VInt 5, full (VInt 355)); (VInt 10, full (VInt 350))].

(** gridspec.py:455-461 [GRIDSPEC_TYPES] *)
Inductive gclass := LL | RGG | HP | ORCA.
Definition type_name (c : gclass) : string :=
  match c with LL => "regular_ll" | RGG => "reduced_gg" | HP => "healpix" | ORCA => "orca" end.
Definition classes : list gclass := [LL; RGG; HP; ORCA].
Definition class_of (n : string) : option gclass :=
  find (fun c => String.eqb n (type_name c)) classes.

(** gridspec.py:251-255, 359-364, 434-438, 448-452 [type_match] *)
Definition type_match (c : gclass) (grid : val) : bool :=
  match c, grid with
  | LL, VList [_; _] => true
  | RGG, VStr s => RGG_match s
  | HP, VStr s => HEALPIX_match s
  | ORCA, VStr s => ORCA_match s
  | _, _ => false
  end.

(** gridspec.py:74-83 [_infer_spec_type] *)
Definition infer (d : dict) : result (option gclass) :=
  match alookup "type" d with
  | None | Some VNone => grid <- dget "grid" d ;; Ok (find (fun c => type_match c grid) classes)
  | Some (VStr s) => Ok (class_of s)
  | Some v => if hashable v then Ok None else Raise TypeError
  end.

(** A GridSpec object: the dictionary and the memos [_global_ew] and [_global_ns].  The memos
    [_N], [_octahedral] and [_order] are not kept: they are set only on success, from the
    dictionary, which nothing changes. *)
Record gspec := mkG { cls : gclass; gd : dict; ew : option bool; ns : option bool }.

(** gridspec.py:117-121 [same_area] *)
Fixpoint all_same (l m : list val) (eps : f64) : result bool :=
  match l, m with
  | x :: l', y :: m' => b <- same_coord x y eps ;; if b then all_same l' m' eps else Ok false
  | _, _ => Ok true
  end.
Definition same_area (a1 a2 : val) (eps : f64) : result bool :=
  l <- elems a1 ;; m <- elems a2 ;;
  if Nat.eqb (List.length l) (List.length m) then all_same l m eps else Ok false.

(** gridspec.py:186-193 and 265-268: the part common to the two constructors. *)
Definition global_flags (d : dict) : result (option bool) :=
  a <- dget "area" d ;;
  if truthy (match alookup "global" d with Some v => v | None => VInt 0 end) then Ok (Some true)
  else b <- same_area a DEFAULT_AREA DEGREE_EPS ;; Ok (if b then Some true else None).

(** gridspec.py:182-193 [LLGridSpec.__init__] *)
Definition table_area (x y : val) : val :=
  match find (fun p => py_eq x (fst p) && py_eq y (fst p)) GLOBAL_AREAS with
  | Some (_, a) => a
  | None => DEFAULT_AREA
  end.
Definition init_LL (d : dict) : result gspec :=
  d1 <- (if negb (amem "global" d) && negb (amem "area" d) then
           g <- dget "grid" d ;; x <- index g 0 ;; y <- index g 1 ;;
           if hashable x && hashable y
           then Ok (aset "area" (table_area x y) (aset "global" (VInt 1) d)) else Raise TypeError
         else Ok d) ;;
  let d2 := setdefault "area" DEFAULT_AREA d1 in
  f <- global_flags d2 ;; Ok (mkG LL d2 f f).

(** gridspec.py:262-269 [ReducedGGGridSpec.__init__] *)
Definition init_RGG (d : dict) : result gspec :=
  let d2 := setdefault "area" DEFAULT_AREA d in
  f <- global_flags d2 ;; Ok (mkG RGG d2 f f).

(** gridspec.py:368-379 [HealpixGridSpec.__init__] *)
Definition init_HP (d : dict) : result gspec :=
  let d1 := match alookup "ordering" d with Some v => aset "order" v (aremove "ordering" d) | None => d end in
  Ok (mkG HP (setdefault "area" DEFAULT_AREA d1) (Some true) (Some true)).

(** gridspec.py:50-53: [GridSpec.__init__], inherited by OrcaGridSpec *)
Definition init (c : gclass) (d : dict) : result gspec :=
  match c with
  | LL => init_LL d | RGG => init_RGG d | HP => init_HP d | ORCA => Ok (mkG ORCA d None None)
  end.

(** gridspec.py:61-72 [from_dict] *)
Definition from_dict (d : dict) : result gspec :=
  let gs := normalise (dupdate DEFAULTS d) in
  t <- infer gs ;;
  match t with
  | None => Raise ValueError
  | Some c => init c (aset "type" (VStr (type_name c)) gs)
  end.

(** ** Comparison *)

(** numpy: array(l) as float64.  Simplified: an element that is not a number, or an integer
    outside int64, is a TypeError (numpy accepts nested lists). *)
Definition np_num (v : val) : result f64 :=
  match as_num v with
  | Some (NF f) => Ok f
  | Some (NI z) => if (- 2 ^ 63 <=? z) && (z <? 2 ^ 63) then Ok (of_Z z) else Raise TypeError
  | None => Raise TypeError
  end.
Fixpoint np_array (l : list val) : result (list f64) :=
  match l with
  | [] => Ok []
  | v :: r => x <- np_num v ;; xs <- np_array r ;; Ok (x :: xs)
  end.
(** numpy.isclose on two numbers: |x - y| <= atol + rtol*|y|, or equality when not finite. *)
Definition isclose (x y : f64) (rtol atol : f64) : bool :=
  if finite x && finite y then SFleb (fabs (fsub x y)) (fadd atol (fmul rtol (fabs y)))
  else SFeqb x y.
Definition RTOL : f64 := lit 1 100000.
Definition ATOL : f64 := lit 1 100000000.
Definition GRID_ATOL : f64 := lit 1 1000000.
(** numpy.allclose on two one-dimensional arrays, with broadcasting. *)
Definition allclose (l m : list f64) (atol : f64) : result bool :=
  let close p := isclose (fst p) (snd p) RTOL atol in
  if Nat.eqb (List.length l) (List.length m) then Ok (forallb close (combine l m))
  else match l, m with
       | [x], _ => Ok (forallb (fun y => isclose x y RTOL atol) m)
       | _, [y] => Ok (forallb (fun x => isclose x y RTOL atol) l)
       | _, _ => Raise ValueError
       end.

(** int(text) where text starts with a digit: digits with single underscores between them,
    then white space. *)
Fixpoint digit_groups (prev : bool) (l : list ascii) : bool :=
  match l with
  | [] => prev
  | c :: r => if is_digit c then digit_groups true r else prev && digit_groups false r
  end.
Definition py_int (l : list ascii) : option Z :=
  let '(ds, r) := span (fun c => is_digit c || Ascii.eqb c "_") l in
  if digit_groups false ds && forallb is_space r then Some (digits_val (filter is_digit ds)) else None.

Section Compare.
  (** str(v), used only when the two values have different types.  Nothing is assumed of it. *)
  Variable py_str : val -> string.
  (** The iteration order of COMPARE_KEYS in this process. *)
  Variable key_order : list string.
  (** Bound on the iterations of the two loops of [normalise_lon]. *)
  Variable fuel : nat.

  (** gridspec.py:99-115 [compare_key] *)
  Definition compare_key (key : string) (v1 v2 : val) : result bool :=
    match v1, v2 with
    | VStr s, VStr t => Ok (if String.eqb key "grid" then String.eqb (lower s) (lower t) else String.eqb s t)
    | VList l, VList m =>
        if String.eqb key "grid" then x <- np_array l ;; y <- np_array m ;; allclose x y GRID_ATOL
        else Ok (py_eq v1 v2)
    | VFloat x, VFloat y => Ok (isclose x y RTOL ATOL)
    | _, _ => if is_vint v1 && is_vint v2 then Ok (py_eq v1 v2)
              else Ok (String.eqb (py_str v1) (py_str v2))
    end.

  Fixpoint compare_keys (ks : list string) (d e : dict) : result bool :=
    match ks with
    | [] => Ok true
    | k :: r => v1 <- dget k d ;; v2 <- dget k e ;; b <- compare_key k v1 v2 ;;
                if b then compare_keys r d e else Ok false
    end.

  (** gridspec.py:85-97 [GridSpec.__eq__] *)
  Definition get_type (d : dict) : val := match alookup "type" d with Some v => v | None => VStr "" end.
  Definition eq_base (g o : gspec) : result bool :=
    if negb (py_eq (get_type (gd g)) (get_type (gd o))) then Ok false
    else b <- compare_keys key_order (gd g) (gd o) ;;
         if b then
           match alookup "shape" (gd g), alookup "shape" (gd o) with
           | Some x, Some y => Ok (py_eq x y)
           | _, _ => Ok true
           end
         else Ok false.

  (** gridspec.py:126-132 [normalise_lon] *)
  Fixpoint lon_up (n : nat) (lon minimum : num) : result num :=
    match n with
    | O => OutOfFuel
    | S n' => if nltb lon minimum then l <- nadd lon (NF FULL_GLOBE) ;; lon_up n' l minimum else Ok lon
    end.
  Fixpoint lon_down (n : nat) (lon minimum : num) : result num :=
    match n with
    | O => OutOfFuel
    | S n' => top <- nadd minimum (NF FULL_GLOBE) ;;
              if ngeb lon top then l <- nsub lon (NF FULL_GLOBE) ;; lon_down n' l minimum else Ok lon
    end.
  Definition normalise_num (lon minimum : num) : result num :=
    l <- lon_up fuel lon minimum ;; lon_down fuel l minimum.
  Definition normalise_lon (lon : val) (minimum : Z) : result num :=
    match as_num lon with Some x => normalise_num x (NI minimum) | None => Raise TypeError end.

  (** gridspec.py:326-345 [_inspect_grid] of the reduced Gaussian grids: N and octahedral. *)
  Definition inspect_RGG (d : dict) : result (Z * bool) :=
    g <- dget "grid" d ;;
    match g with
    | VStr s =>
        if RGG_match s then
          match chars (upper s) with
          | c :: r => match py_int r with
                      | Some n => if (n <? 1) || (1000000 <? n) then Raise ValueError
                                  else Ok (n, Ascii.eqb c "O")
                      | None => Raise ValueError
                      end
          | [] => Raise ValueError
          end
        else Raise ValueError
    | _ => Raise ValueError
    end.

  (** gridspec.py:232-234 and 299-304 [dx] *)
  Definition dx (g : gspec) : result num :=
    match cls g with
    | RGG => p <- inspect_RGG (gd g) ;;
             let '(n, oct) := p in Ok (NF (fdiv FULL_GLOBE (of_Z (4 * n + (if oct then 16 else 0)))))
    | _ => v <- dget "grid" (gd g) ;; x <- index v 0 ;;
           match as_num x with Some a => Ok (nabs a) | None => Raise TypeError end
    end.

  Definition area_at (g : gspec) (n : nat) : result val := a <- dget "area" (gd g) ;; index a n.

  (** |x| < FULL_GLOBE_EPS *)
  Definition tiny (x : num) : bool := nltb (nabs x) (NF FULL_GLOBE_EPS).

  (** gridspec.py:236-249 and 306-319, without the memo. *)
  Definition spans (g : gspec) (west east : num) : result bool :=
    east <- (if nltb east west then nadd east (NF FULL_GLOBE) else Ok east) ;;
    d <- nsub east west ;;
    if tiny d then Ok true
    else d1 <- nsub d (NF FULL_GLOBE) ;;
         if tiny d1 then Ok true
         else d2 <- nsub (NF FULL_GLOBE) d ;; x <- dx g ;; d3 <- nsub d2 x ;; Ok (tiny d3).

  (** gridspec.py:236-249, 306-319 and 137-141 [is_global_ew]: the memo is set to False before
      the tests, and to True when one of them succeeds. *)
  Definition set_ew (g : gspec) (b : bool) : gspec := mkG (cls g) (gd g) (Some b) (ns g).
  Definition is_global_ew (g : gspec) : gspec * result bool :=
    match ew g with
    | Some b => (g, Ok b)
    | None =>
        match cls g with
        | LL | RGG =>
            match (w0 <- area_at g 1 ;; w <- normalise_lon w0 0 ;;
                   e0 <- area_at g 3 ;; e <- normalise_lon e0 0 ;; Ok (w, e)) with
            | Ok (w, e) => match spans g w e with
                           | Ok b => (set_ew g b, Ok b)
                           | r => (set_ew g false, r)
                           end
            | Raise x => (g, Raise x)
            | OutOfFuel => (g, OutOfFuel)
            end
        | _ => (g, Raise NotADirectoryError)
        end
    end.

  (** gridspec.py:206-212 and 281-287: both global, and the western limits agree modulo 360.
      is_global() of the reduced Gaussian grids is is_global_ew() because their is_global_ns()
      is always true (gridspec.py:321-324, [ns] is None or True). *)
  Definition both_global (g o : gspec) (eps : f64) : gspec * gspec * result bool :=
    let '(g', r) := is_global_ew g in
    match r with
    | Ok true =>
        let '(o', r') := is_global_ew o in
        match r' with
        | Ok true =>
            (g', o', w0 <- area_at g 1 ;; w <- normalise_lon w0 0 ;;
                     v0 <- area_at o 1 ;; v <- normalise_lon v0 0 ;;
                     d <- nsub w v ;; Ok (nltb (nabs d) (NF eps)))
        | x => (g', o', x)
        end
    | x => (g', o, x)
    end.

  (** gridspec.py:402-420 [_inspect_grid] of HEALPix: the order. *)
  Definition order (g : gspec) : result val :=
    gr <- dget "grid" (gd g) ;;
    match gr with
    | VStr s =>
        if HEALPIX_match s then
          match py_int (tl (chars s)) with
          | None => Raise ValueError
          | Some n =>
              let o := match alookup "order" (gd g) with Some v => v | None => VStr "ring" end in
              if negb (py_eq o (VStr "ring") || py_eq o (VStr "nested")) then Raise ValueError
              else if (n <? 1) || (1000000 <? n) then Raise ValueError else Ok o
          end
        else Raise ValueError
    | _ => Raise ValueError
    end.

  (** gridspec.py:195-214, 274-289, 396-400, 85-97 [__eq__].  The result includes the two
      objects, whose memos may have changed. *)
  Definition eq (g o : gspec) : gspec * gspec * result bool :=
    match eq_base g o with
    | Ok true =>
        match cls g with
        | LL =>
            match (a <- dget "area" (gd g) ;; b <- dget "area" (gd o) ;; same_area a b DEGREE_EPS) with
            | Ok true => (g, o, Ok true)
            | Ok false =>
                match (n1 <- area_at g 0 ;; n2 <- area_at o 0 ;; b <- same_coord n1 n2 DEGREE_EPS ;;
                       if b then s1 <- area_at g 2 ;; s2 <- area_at o 2 ;; same_coord s1 s2 DEGREE_EPS
                       else Ok false) with
                | Ok true => both_global g o DEGREE_EPS
                | x => (g, o, x)
                end
            | x => (g, o, x)
            end
        | RGG =>
            match (a <- dget "area" (gd g) ;; b <- dget "area" (gd o) ;; same_area a b RGG_EPS) with
            | Ok true => (g, o, Ok true)
            | Ok false => both_global g o RGG_EPS
            | x => (g, o, x)
            end
        | HP => (g, o, x <- order g ;; y <- order o ;; Ok (py_eq x y))
        | ORCA => (g, o, Ok true)
        end
    | x => (g, o, x)
    end.
End Compare.
