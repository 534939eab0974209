(** Vocabulary for the statements about the inventory pages of the documentation. *)
From Coq Require Export Sorting.Permutation Sorting.Sorted.
From Verif Require Import PyBase PyStr Float64 GridSpec Index Pages.
Local Open Scope string_scope.
Local Open Scope list_scope.

Section Spec.
  Context {rest : Type}.
  (** The text under which specifications are grouped. *)
  Variable ident : dict -> string.

  (** entry["interpolation"]["method"] is the string "linear". *)
  Definition linear (e : entry rest) : Prop :=
    exists i, r_inter (e_raw e) = Some i /\ i_method i = Some (MName "linear").
  (** The grids of an entry. *)
  Definition grids (e : entry rest) (gi go : gspec) : Prop :=
    from_dict (gd (e_input e)) = Ok gi /\ from_dict (gd (e_output e)) = Ok go.
  Definition listed (idx : index rest) (gi go : gspec) : Prop :=
    exists n e, In (n, e) idx /\ linear e /\ grids e gi go.
  (** Two inputs of the index, not the same, with one identity. *)
  Definition collision (idx : index rest) : Prop :=
    exists g go h ho, listed idx g go /\ listed idx h ho /\ gd g <> gd h /\ ident (gd g) = ident (gd h).

  (** The outputs of the linear entries whose input has the identity [id], in the order of the index. *)
  Inductive targets (id : string) : index rest -> list gspec -> Prop :=
  | T_end : targets id [] []
  | T_one n e gi go idx l : linear e -> grids e gi go -> ident (gd gi) = id -> targets id idx l ->
      targets id ((n, e) :: idx) (go :: l)
  | T_other n e gi go idx l : grids e gi go -> ident (gd gi) <> id -> targets id idx l -> targets id ((n, e) :: idx) l
  | T_method n e idx l : ~ linear e -> targets id idx l -> targets id ((n, e) :: idx) l.

  Definition grid_of (g : gspec) (v : val) : Prop := alookup "grid" (gd g) = Some v.
  Definition starts_with (c : ascii) (v : val) : Prop := exists r, v = VStr (String c r).

  (** Which sources belong on a page. *)
  Definition belongs (name : string) (g : gspec) : Prop :=
    (name = "regular_ll" /\ cls g = LL) \/ (name = "orca" /\ cls g = ORCA) \/
    (exists v, grid_of g v /\ cls g = RGG /\
       ((name = "reduced_gg" /\ (starts_with "N" v \/ starts_with "n" v)) \/
        (name = "reduced_gg_o" /\ (starts_with "O" v \/ starts_with "o" v)))) \/
    (cls g = HP /\ ((name = "healpix_ring" /\ order g = Ok (VStr "ring")) \/
                    (name = "healpix_nested" /\ order g = Ok (VStr "nested")))).

  (** How a specification is shown: its grid and, for grids named H..., its ordering. *)
  Definition shows (g : gspec) (s : shown) : Prop :=
    grid_of g (s_grid s) /\
    (~ starts_with "H" (s_grid s) -> s_ordering s = None) /\
    (starts_with "H" (s_grid s) -> exists o, s_ordering s = Some o /\
       (alookup "ordering" (gd g) = Some o \/ (alookup "ordering" (gd g) = None /\ alookup "order" (gd g) = Some o))).

  (** [h] may come after [g]: steps in increasing order, names in alphabetic order, after the steps
      below 1000. *)
  Definition numbers (g : gspec) (x y : num) : Prop :=
    exists a b r, grid_of g (VList (a :: b :: r)) /\ as_num a = Some x /\ as_num b = Some y.
  Definition in_order (g h : gspec) : Prop :=
    (forall s t, grid_of g (VStr s) -> grid_of h (VStr t) -> String.ltb t s = false) /\
    (forall x y x' y', numbers g x y -> numbers h x' y' ->
       nltb x' x = false /\ (neqb x' x = true -> nltb y' y = false)) /\
    (forall s x y, grid_of g (VStr s) -> numbers h x y -> nltb x (NI 1000) = false) /\
    (forall s x y, numbers g x y -> grid_of h (VStr s) -> nltb (NI 1000) x = false).

  (** The block of a source: three columns of one length, that hold its targets in order and
      fewer than three empty cells after them. *)
  Definition describes (idx : index rest) (g : gspec) (b : block) : Prop :=
    grid_of g (b_title b) /\ shows g (b_source b) /\
    exists l t ss c1 c2 c3 n, targets (ident (gd g)) idx l /\ Permutation l t /\ Sorted in_order t /\ Forall2 shows t ss /\
      b_columns b = [c1; c2; c3] /\ List.length c1 = List.length c2 /\ List.length c2 = List.length c3 /\
      c1 ++ c2 ++ c3 = map Some ss ++ repeat None n /\ (n < 3)%nat.
End Spec.
