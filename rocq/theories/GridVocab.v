(** Vocabulary for the statements about grid specifications, independent of how gridspec.py
    computes: what a finished specification contains, which class a grid value describes,
    which numbers and values are ordinary. *)
From Verif Require Import PyBase PyStr Float64 GridSpec.

Local Open Scope string_scope.
Local Open Scope list_scope.
Local Open Scope Z_scope.

(** What Python counts as true: True, numbers other than zero (also NaN), texts, lists and tuples
    that are not empty. *)
Inductive counts_as_true : val -> Prop :=
| ct_bool : counts_as_true (VBool true)
| ct_int z : z <> 0 -> counts_as_true (VInt z)
| ct_float f : (forall s, f <> S754_zero s) -> counts_as_true (VFloat f)
| ct_text c s : counts_as_true (VStr (String c s))
| ct_list x l : counts_as_true (VList (x :: l))
| ct_tuple x l : counts_as_true (VTup (x :: l)).
(** The same dictionary but for the order of its keys. *)
Definition same_dict (d e : dict) : Prop := forall k, alookup k d = alookup k e.
Definition same_spec (g h : gspec) : Prop :=
  cls g = cls h /\ same_dict (gd g) (gd h) /\ ew g = ew h /\ ns g = ns h.
Definition same_result (a b : result gspec) : Prop :=
  match a, b with
  | Ok g, Ok h => same_spec g h
  | Raise e, Raise f => e = f
  | _, _ => False
  end.

(** The value the caller gave for a key, tuples being lists. *)
Definition given (d : dict) (k : string) : option val := option_map untuple (alookup k d).
Definition or_else (o : option val) (v : val) : option val := match o with Some _ => o | None => Some v end.
Definition flags : list string := ["i_scans_negatively"; "j_points_consecutive"; "j_scans_positively"].
Definition whole_globe : val := VList [VInt 90; VInt 0; VInt (-90); VInt 360].

(** The increments, in thousandths of a degree, of the global grids with a documented area
    (gridspec.py:154-180), and that area: the multiples of the increment from the northernmost
    one to the southernmost one and up to the last one before 360 degrees east. *)
Definition increments : list Z :=
  [50; 100; 125; 150; 200; 250; 300; 400; 500; 600; 700; 750; 800; 900; 1000; 1200; 1250; 1400; 1500; 1600; 1800; 2000; 2500; 5000; 10000].
Definition degrees (k : Z) : val := if k mod 1000 =? 0 then VInt (k / 1000) else VFloat (lit k 1000).
Definition aligned_area (k : Z) : val :=
  let north := 90000 / k * k in
  VList [degrees north; VInt 0; degrees (- north); degrees ((360000 - 1) / k * k)].

(** What a finished specification of class [c] made from [d] holds under the key [k];
    [table] is the area of the global grid with the given increments. *)
Definition contents (table : val) (c : gclass) (d : dict) (k : string) : option val :=
  if String.eqb k "type" then Some (VStr (type_name c))
  else if existsb (String.eqb k) flags then or_else (given d k) (VInt 0)
  else match c with
       | LL => if String.eqb k "area"
               then or_else (given d "area") (match given d "global" with None => table | Some _ => whole_globe end)
               else if String.eqb k "global"
                    then match given d "global", given d "area" with
                         | None, None => Some (VInt 1)
                         | x, _ => x
                         end
                    else given d k
       | RGG => if String.eqb k "area" then or_else (given d "area") whole_globe else given d k
       | HP => if String.eqb k "area" then or_else (given d "area") whole_globe
               else if String.eqb k "order"
                    then match given d "ordering" with Some v => Some v | None => given d "order" end
                    else if String.eqb k "ordering" then None else given d k
       | ORCA => given d k
       end.

(** Names of grids. *)
Definition letter_number (letters : list ascii) (s : string) : Prop :=
  exists c d r, s = String c (String d r) /\ In c letters /\ is_digit d = true.
Definition gaussian_name := letter_number ["O"; "o"; "N"; "n"]%char.
Definition healpix_name := letter_number ["H"; "h"]%char.
Definition orca_name (s : string) : Prop :=
  exists e ds f, s = (e ++ "ORCA" ++ of_chars ds ++ "_" ++ String f "")%string /\ In e [""; "e"] /\ ds <> [] /\
    Forall (fun c => is_digit c = true) ds /\ In f ["F"; "T"; "U"; "V"]%char.
Inductive describes : val -> gclass -> Prop :=
| d_list x y : describes (VList [x; y]) LL
| d_tuple x y : describes (VTup [x; y]) LL
| d_gauss s : gaussian_name s -> describes (VStr s) RGG
| d_healpix s : healpix_name s -> describes (VStr s) HP
| d_orca s : orca_name s -> describes (VStr s) ORCA.
Definition newline : ascii := "010"%char.

(** No explicit type. *)
Definition untyped (d : dict) : Prop := alookup "type" d = None \/ alookup "type" d = Some VNone.

(** Values whose floats are doubles other than NaN. *)
Fixpoint no_nan (v : val) : Prop :=
  match v with
  | VFloat f => is_float64 f = true /\ f <> S754_nan
  | VList l | VTup l => (fix go (l : list val) : Prop := match l with [] => True | x :: r => no_nan x /\ go r end) l
  | _ => True
  end.
(** Finite numbers; [int64] the integers numpy holds exactly as such. *)
Definition finite_num (v : val) : Prop :=
  match v with
  | VInt _ | VBool _ => True
  | VFloat f => is_float64 f = true /\ finite f = true
  | _ => False
  end.
Definition int64 (v : val) : Prop := match v with VInt z => - 2 ^ 63 <= z < 2 ^ 63 | _ => True end.

(** A specification whose comparison is meaningful: the numbers of a listed grid and of the
    area are finite, nothing is NaN, a HEALPix grid has a name and an order. *)
Record ordinary (g : gspec) : Prop := {
  o_grid : exists v, alookup "grid" (gd g) = Some v /\ no_nan v /\
           forall l, v = VList l -> Forall (fun x => finite_num x /\ int64 x) l;
  o_flags : forall k, In k flags -> exists v, alookup k (gd g) = Some v /\ no_nan v;
  o_shape : forall v, alookup "shape" (gd g) = Some v -> no_nan v;
  o_area : cls g = LL \/ cls g = RGG ->
           exists l, alookup "area" (gd g) = Some (VList l) /\ Forall finite_num l;
  o_healpix : cls g = HP ->
    (exists c ds, alookup "grid" (gd g) = Some (VStr (String c (of_chars ds))) /\ In c ["H"; "h"]%char /\
       ds <> [] /\ Forall (fun c => is_digit c = true) ds /\ 1 <= digits_val ds <= 1000000) /\
    (forall v, alookup "order" (gd g) = Some v -> v = VStr "ring" \/ v = VStr "nested")
}.
