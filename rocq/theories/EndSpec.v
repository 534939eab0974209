(** Vocabulary for the statements about whole calls, from the files of an inventory and the dictionaries
    of the caller to the numbers of the result. *)
From Coq Require Import Reals.
From Verif Require Import PyBase PyStr Float64 GridSpec GridVocab FloatReal GridMatchSpec GridReal GridMatch3 GridDecide
  Index Inventory MemCache Regrid RegridSpec System SystemSpec.
Local Open Scope string_scope.
Local Open Scope list_scope.
Local Open Scope Z_scope.

(** ** Dictionaries that describe a grid *)
Definition said_to_be (d : dict) (c : gclass) : Prop :=
  alookup "type" d = Some (VStr (type_name c)) \/ (untyped d /\ exists v, alookup "grid" d = Some v /\ describes v c).
Definition its_scanning (d : dict) (k : string) (z : Z) : Prop :=
  match given d k with None => z = 0 | Some v => int_value v = Some z end.
Definition its_shape (d : dict) (sh : option (list Z)) : Prop :=
  given d "shape" = match sh with Some l => Some (VList (map VInt l)) | None => None end.
Definition its_ordering (d : dict) (o : string) : Prop :=
  match given d "ordering", given d "order" with
  | Some v, _ => v = VStr o
  | None, Some v => v = VStr o
  | None, None => o = "ring"
  end.
(** Four numbers: north, west, south, east. *)
Definition four (v : val) (n w s e : R) : Prop :=
  exists vn vw vs ve, v = VList [vn; vw; vs; ve] /\ number vn n /\ number vw w /\ number vs s /\ number ve e.
Definition globe (n w s e : R) : Prop := n = 90%R /\ w = 0%R /\ s = (-90)%R /\ e = 360%R.
(** The area of a regular grid with increments [dx], [dy]: as given; the globe if only [global] is
    given; otherwise the documented area for these increments if there is one, or else the globe. *)
Inductive its_area (d : dict) (dx dy : R) (n w s e : R) : Prop :=
| as_given v : given d "area" = Some v -> four v n w s e -> its_area d dx dy n w s e
| by_global v : given d "area" = None -> given d "global" = Some v -> globe n w s e -> its_area d dx dy n w s e
| by_increments k : given d "area" = None -> given d "global" = None -> In k increments ->
    number (degrees k) dx -> number (degrees k) dy -> four (aligned_area k) n w s e -> its_area d dx dy n w s e
| by_default : given d "area" = None -> given d "global" = None ->
    (forall k x, In k increments -> number (degrees k) x -> x <> dx \/ x <> dy) -> globe n w s e -> its_area d dx dy n w s e.

Definition its_geometry (d : dict) (a : shape_of_grid) : Prop :=
  match a with
  | Named true name o => said_to_be d ORCA /\ given d "grid" = Some (VStr name) /\ o = ""
  | Named false name o =>
      said_to_be d HP /\ its_ordering d o /\ In o ["ring"; "nested"] /\
      exists c ds, given d "grid" = Some (VStr name) /\ name = String c (of_chars ds) /\ In c ["H"; "h"]%char /\ ds <> [] /\
        Forall (fun c => is_digit c = true) ds /\ 1 <= digits_val ds <= 1000000
  | LatLon dx dy n w s e dec =>
      said_to_be d LL /\ (exists x y, given d "grid" = Some (VList [x; y]) /\ number x dx /\ number y dy) /\
      (Rabs dx <= 360)%R /\ (Rabs dy <= 360)%R /\ its_area d dx dy n w s e /\
      (dec <-> (exists v, given d "global" = Some v /\ counts_as_true v) \/ (given d "global" = None /\ given d "area" = None))
  | Gauss name dx n w s e dec =>
      said_to_be d RGG /\
      (exists c ds, given d "grid" = Some (VStr name) /\ name = String c (of_chars ds) /\ In c ["O"; "o"; "N"; "n"]%char /\ ds <> [] /\
        Forall (fun c => is_digit c = true) ds /\ 1 <= digits_val ds <= 1000000 /\
        dx = (360 / IZR (4 * digits_val ds + if octahedral c then 16 else 0))%R) /\
      match given d "area" with Some v => four v n w s e | None => globe n w s e end /\
      (dec <-> exists v, given d "global" = Some v /\ counts_as_true v)
  end.
Definition reads_as (d : dict) (a : grid) : Prop :=
  NoDup (akeys d) /\ its_geometry d (geometry a) /\ its_shape d (sizes a) /\ forall k, In k flags -> its_scanning d k (scanning a k).

(** ** Methods and files *)
(** The names of nearest neighbour. *)
Definition known_as (m m' : string) : Prop :=
  ((m = "nn" \/ m = "nearest-neighbor") /\ m' = "nearest-neighbour") \/ (m <> "nn" /\ m <> "nearest-neighbor" /\ m' = m).
Definition method_is (r : method) (m : string) : Prop := r = MName m \/ r = MObject (Some m).
Definition plain_start (s : string) : Prop := match s with String c _ => c <> "/"%char | "" => False end.
Definition plain_end (s : string) : Prop := exists t c, s = (t ++ String c "")%string /\ c <> "/"%char.

Section Spec.
  Context {A rest : Type}.
  Variable fuel : nat.
  Variable files : fs rest (csr A).

  (** The entry of the JSON file under the name [n]: from grid [a] to grid [b] with the method [m], the
      weights in the file [p] below the directory of the inventory. *)
  Record lists (n : string) (r : raw rest) (a b : grid) (m p : string) : Prop := {
    l_grids : exists i o, r_input r = Some i /\ r_output r = Some o /\ reads_as i a /\ reads_as o b;
    l_range : bounded fuel a /\ bounded fuel b;
    l_stored : exists engine version how, r_inter r = Some (mkInter (Some engine) (Some version) (Some how)) /\ method_is how m /\
      p = (engine ++ "_" ++ version ++ "_" ++ m ++ "/" ++ n ++ ".npz")%string /\
      plain_start engine /\ plain_end m /\ plain_start n }.
  (** A directory with an index.json: version 1, each entry once, each entry readable. *)
  Record is_inventory (path : string) (l : list (string * raw rest)) : Prop := {
    i_file : alookup (path ++ "/index.json") files = Some (IndexFile (mkFile (Some 1) (Some l)));
    i_path : plain_end path;
    i_names : NoDup (map fst l);
    i_entries : forall n r, In (n, r) l -> exists a b m p, lists n r a b m p }.

  (** The entry is certainly the one asked for; it may be. *)
  Definition surely (A' B' : grid) (m : string) (q : string * raw rest) : Prop :=
    exists a b m' p, lists (fst q) (snd q) a b m' p /\ known_as m m' /\ same_grid a A' /\ same_grid b B'.
  Definition perhaps (A' B' : grid) (m : string) (q : string * raw rest) : Prop :=
    exists a b m' p, lists (fst q) (snd q) a b m' p /\ known_as m m' /\ near_grid a A' /\ near_grid b B'.
  (** The weights of the entry and the shape of its output. *)
  Definition provides (path : string) (q : string * raw rest) (z : csr A) (n : list nat) : Prop :=
    exists a b m p, lists (fst q) (snd q) a b m p /\ alookup (path ++ "/" ++ p) files = Some (Weights z) /\ sizes b = Some (map Z.of_nat n).

  (** A request that says which grids it is about, to the inventory at [path]. *)
  Definition asks (path : string) (o : sop A) : Prop :=
    match o with
    | Call path' _ di do _ => path' = path /\ plain_dict di /\ plain_dict do /\
        exists a b, reads_as di a /\ reads_as do b /\ bounded fuel a /\ bounded fuel b
    | _ => True
    end.
End Spec.
