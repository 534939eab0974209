(** Whether two grids are the same, decided from a description of each: names, increments, limits
    as real numbers, scanning flags, shape. *)
From Coq Require Import Reals Psatz.
From Verif Require Import PyBase ListLemmas PyStr Float64 GridSpec GridVocab GridProofs GridProofs2 FloatReal GridLon GridMatchSpec GridReal GridMatch GridMatch2 GridMatch3.
From Flocq Require Import Core.
Set Default Proof Using "Type".
Local Open Scope string_scope.
Local Open Scope list_scope.
Local Open Scope Z_scope.
Local Open Scope R_scope.

(** What a grid is. *)
Inductive shape_of_grid :=
| Named (orca : bool) (name ordering : string)                            (** HEALPix or ORCA *)
| LatLon (dx dy north west south east : R) (declared_global : Prop)       (** regular *)
| Gauss (name : string) (dx north west south east : R) (declared_global : Prop). (** reduced Gaussian *)
Record grid := mkGrid { geometry : shape_of_grid; scanning : string -> Z; sizes : option (list Z) }.

(** A specification that says so. *)
Definition describes_geometry (g : gspec) (a : shape_of_grid) : Prop :=
  match a with
  | Named orca name o =>
      alookup "grid" (gd g) = Some (VStr name) /\
      if orca then cls g = ORCA /\ o = ""
      else cls g = HP /\ order_name g o /\ In o ["ring"; "nested"] /\
           exists c ds, name = String c (of_chars ds) /\ In c ["H"; "h"]%char /\ ds <> [] /\
             Forall (fun c => is_digit c = true) ds /\ (1 <= digits_val ds <= 1000000)%Z
  | LatLon dx dy n w s e dec =>
      cls g = LL /\ (exists x y, alookup "grid" (gd g) = Some (VList [x; y]) /\ number x dx /\ number y dy) /\
      Rabs dx <= 360 /\ Rabs dy <= 360 /\ limits g n w s e /\ (dec <-> declared g)
  | Gauss name dx n w s e dec =>
      cls g = RGG /\ alookup "grid" (gd g) = Some (VStr name) /\ increment g dx /\ limits g n w s e /\ (dec <-> declared g)
  end.
Record describes_grid (g : gspec) (a : grid) : Prop := {
  dg_geometry : describes_geometry g (geometry a);
  dg_scanning : forall k, In k flags -> flag g k (scanning a k);
  dg_sizes : match sizes a with Some l => alookup "shape" (gd g) = Some (VList (map VInt l)) | None => alookup "shape" (gd g) = None end }.

Definition global (tol w e dx : R) (dec : Prop) : Prop := dec \/ full_extent tol w e (Rabs dx).
Definition apart (tol : R) (p q : R * R * R * R) : Prop :=
  let '(n, w, s, e) := p in let '(n', w', s', e') := q in
  Rabs (n - n') <= tol /\ Rabs (w - w') <= tol /\ Rabs (s - s') <= tol /\ Rabs (e - e') <= tol.
(** The same grid, up to tolerances: [inc] for increments (and a relative part), [lim] for the limits of
    regular grids, [glim] for those of reduced Gaussian grids, [ext] for full extent. *)
Definition agree (inc rel lim glim ext turn gturn : R) (a b : grid) : Prop :=
  (forall k, In k flags -> scanning a k = scanning b k) /\
  (forall l m, sizes a = Some l -> sizes b = Some m -> l = m) /\
  match geometry a, geometry b with
  | Named x n o, Named y n' o' => x = y /\ lower n = lower n' /\ o = o'
  | LatLon dx dy n w s e dec, LatLon dx' dy' n' w' s' e' dec' =>
      Rabs (dx - dx') <= inc + rel * Rabs dx' /\ Rabs (dy - dy') <= inc + rel * Rabs dy' /\
      (apart lim (n, w, s, e) (n', w', s', e') \/
       (Rabs (n - n') <= lim /\ Rabs (s - s') <= lim /\ global ext w e dx dec /\ global ext w' e' dx' dec' /\ near_congruent turn w w'))
  | Gauss nm dx n w s e dec, Gauss nm' dx' n' w' s' e' dec' =>
      lower nm = lower nm' /\
      (apart glim (n, w, s, e) (n', w', s', e') \/
       (global ext w e dx dec /\ global ext w' e' dx' dec' /\ near_congruent gturn w w'))
  | _, _ => False
  end.
(** Certainly the same; possibly the same. *)
Definition same_grid : grid -> grid -> Prop := agree 0.0000009 0 0.000000009 0.1199 0.000000009 0 0.
Definition near_grid : grid -> grid -> Prop := agree 0.000001001 0.00001 0.000000011 0.1201 0.000000021 0.000000011 0.1201.

(** The longitudes of the limits. *)
Definition bounded (fuel : nat) (a : grid) : Prop :=
  match geometry a with
  | LatLon _ _ _ w _ e _ | Gauss _ _ _ w _ e _ => enough fuel w /\ enough fuel e
  | Named _ _ _ => True
  end.

Lemma isclose_complete x y : good (NF x) -> good (NF y) -> Rabs (F2Rv x) <= 1000 -> Rabs (F2Rv y) <= 1000 ->
  Rabs (F2Rv x - F2Rv y) <= 0.0000009 -> isclose x y RTOL GRID_ATOL = true.
Proof.
  intros Gx Gy Bx By D. unfold isclose. destruct Gx as [Vx Fx], Gy as [Vy Fy]. rewrite Fx, Fy. cbn [andb].
  destruct GRID_ATOL_tol as [GA BA]. destruct (tolerance_real y GRID_ATOL (conj Vy Fy) GA BA) as [GT RT].
  pose proof (abs_U _ _ Bx) as Bx'. pose proof (abs_U _ _ By) as By'.
  destruct (fsub_real x y Vx Vy Fx Fy) as [FS RS].
  { apply HUGE_big. apply Rle_trans with 2000; [apply Rabs_le; lra|apply IZR_le; lia]. }
  apply SFleb_real; [split; [apply valid_fabs, valid_fsub; assumption|rewrite fabs_finite; exact FS]|exact GT|].
  rewrite fabs_real, RS, RT. pose proof (Rabs_pos (F2Rv y)) as Py.
  pose proof (lit_near 1 1000000 ltac:(lia) ltac:(lia) ltac:(lia)) as LA. fold GRID_ATOL in LA.
  pose proof (lit_near 1 100000 ltac:(lia) ltac:(lia) ltac:(lia)) as LR. fold RTOL in LR. apply abs_U in LA, LR.
  assert (UU : 0 <= U <= 0.00000000000012) by (unfold U; lra).
  assert (M : 0 <= F2Rv RTOL * Rabs (F2Rv y) <= 0.02) by nra.
  assert (E1 : 0 <= rnd (F2Rv RTOL * Rabs (F2Rv y))).
  { rewrite <- (rnd_double 0 double_0). apply rnd_le. lra. }
  assert (E1' : Rabs (rnd (F2Rv RTOL * Rabs (F2Rv y)) - F2Rv RTOL * Rabs (F2Rv y)) <= U).
  { apply rnd_err. rewrite Rabs_pos_eq; lra. }
  apply abs_U in E1'.
  assert (E2 : Rabs (rnd (F2Rv GRID_ATOL + rnd (F2Rv RTOL * Rabs (F2Rv y))) - (F2Rv GRID_ATOL + rnd (F2Rv RTOL * Rabs (F2Rv y)))) <= U).
  { apply rnd_err. apply Rabs_le. lra. }
  apply abs_U in E2.
  assert (E3 : Rabs (rnd (Rabs (F2Rv x - F2Rv y)) - Rabs (F2Rv x - F2Rv y)) <= U).
  { apply rnd_err. rewrite Rabs_Rabsolu. lra. }
  apply abs_U in E3. rewrite rnd_abs in E3. lra.
Qed.

Lemma py_eq_ints l m : py_eq (VList (map VInt l)) (VList (map VInt m)) = true <-> l = m.
Proof.
  revert m. induction l as [|x l IH]; intros [|y m]; cbn [map py_eq]; try (split; [discriminate|discriminate]); try (split; reflexivity).
  specialize (IH m). cbn [py_eq] in IH. rewrite Bool.andb_true_iff, IH.
  change (py_eq (VInt x) (VInt y)) with (neqb (NI x) (NI y)).
  assert (Q : neqb (NI x) (NI y) = true <-> x = y).
  { unfold neqb. cbn [ncompare]. destruct (Z.compare_spec x y); split; intros; try discriminate; try reflexivity; try assumption; lia. }
  cbn [as_num]. rewrite Q. split; [intros [-> ->]; reflexivity|intros E; injection E as -> ->; auto].
Qed.

Section Decide.
  Variables (py_str : val -> string) (key_order : list string) (fuel : nat).

  Lemma compare_keys_total ks d e :
    (forall k, In k ks -> exists v u b, alookup k d = Some v /\ alookup k e = Some u /\ compare_key py_str k v u = Ok b) ->
    exists b, compare_keys py_str ks d e = Ok b.
  Proof.
    clear key_order fuel.
    induction ks as [|k r IH]; intros H; [eexists; reflexivity|]. cbn [compare_keys]. unfold dget.
    destruct (H k (or_introl eq_refl)) as (v & u & b & -> & -> & E). cbn [bind]. rewrite E. cbn [bind].
    destruct b; [|eexists; reflexivity]. apply IH. intros k' I. apply H. right. exact I.
  Qed.

  (** The value of a key that is compared, and when the comparison succeeds. *)
  Lemma base_decide d1 d2 g h a b v u (Q : Prop) :
    NoDup (akeys d1) -> NoDup (akeys d2) -> from_dict d1 = Ok g -> from_dict d2 = Ok h ->
    incl COMPARE_KEYS key_order -> incl key_order COMPARE_KEYS -> describes_grid g a -> describes_grid h b ->
    cls g = cls h -> alookup "grid" (gd g) = Some v -> alookup "grid" (gd h) = Some u ->
    (exists r, compare_key py_str "grid" v u = Ok r /\ (r = true <-> Q)) ->
    exists r, eq_base py_str key_order g h = Ok r /\
      (r = true <-> Q /\ (forall k, In k flags -> scanning a k = scanning b k) /\ (forall l m, sizes a = Some l -> sizes b = Some m -> l = m)).
  Proof.
    intros N1 N2 H1 H2 I1 I2 D1 D2 CC G1 G2 (r0 & R0 & RQ).
    pose proof (contents_ok d1 g "type" N1 H1) as T1. pose proof (contents_ok d2 h "type" N2 H2) as T2. unfold contents in T1, T2.
    change (String.eqb "type" "type") with true in T1, T2. cbv iota in T1, T2. rewrite <- CC in T2.
    assert (KF : forall k, In k flags -> exists v u, alookup k (gd g) = Some v /\ alookup k (gd h) = Some u /\
        compare_key py_str k v u = Ok (Z.eqb (scanning a k) (scanning b k))).
    { intros k K. destruct (dg_scanning g a D1 k K) as (x & E1 & V1), (dg_scanning h b D2 k K) as (y & E2 & V2). exists x, y. split; [exact E1|]. split; [exact E2|].
      rewrite <- (py_eq_int x y _ _ V1 V2). destruct x as [|[]| | | | |], y as [|[]| | | | |]; try discriminate V1; try discriminate V2; reflexivity. }
    assert (TOT : exists c, compare_keys py_str key_order (gd g) (gd h) = Ok c).
    { apply compare_keys_total. intros k K. apply I2 in K. cbn in K. destruct K as [<-|[<-|K]].
      - rewrite T1, T2. eexists. eexists. eexists. split; [reflexivity|]. split; reflexivity.
      - exists v, u, r0. exact (conj G1 (conj G2 R0)).
      - destruct (KF k K) as (x & y & E1 & E2 & E3). exists x, y, (scanning a k =? scanning b k)%Z. exact (conj E1 (conj E2 E3)). }
    destruct TOT as (c & EC).
    assert (CQ : c = true <-> Q /\ forall k, In k flags -> scanning a k = scanning b k).
    { split.
      - intros ->. pose proof (compare_keys_true py_str key_order (gd g) (gd h) EC) as K. split.
        + destruct (K "grid") as (x & y & E1 & E2 & E3); [apply I1; cbn; auto|]. rewrite G1 in E1. rewrite G2 in E2. injection E1 as <-. injection E2 as <-.
          apply RQ. congruence.
        + intros k F. destruct (K k) as (x & y & E1 & E2 & E3); [apply I1; cbn; right; right; exact F|]. destruct (KF k F) as (x' & y' & E1' & E2' & E3').
          rewrite E1 in E1'. rewrite E2 in E2'. injection E1' as <-. injection E2' as <-. rewrite E3 in E3'. injection E3' as E3'. symmetry in E3'. apply Z.eqb_eq. exact E3'.
      - intros [q F]. assert (X : compare_keys py_str key_order (gd g) (gd h) = Ok true); [|congruence].
        apply compare_keys_all. intros k K. apply I2 in K. cbn in K. destruct K as [<-|[<-|K]].
        + rewrite T1, T2. eexists. eexists. split; [reflexivity|]. split; [reflexivity|]. cbn [compare_key]. change (String.eqb "type" "grid") with false. cbv iota. rewrite String.eqb_refl. reflexivity.
        + exists v, u. split; [exact G1|]. split; [exact G2|]. rewrite R0. f_equal. apply RQ, q.
        + destruct (KF k K) as (x & y & E1 & E2 & E3). exists x, y. split; [exact E1|]. split; [exact E2|]. rewrite E3, (F k K), Z.eqb_refl. reflexivity. }
    unfold eq_base, get_type. rewrite T1, T2. cbn [py_eq]. rewrite String.eqb_refl. cbn [negb]. rewrite EC. cbn [bind].
    pose proof (dg_sizes g a D1) as S1. pose proof (dg_sizes h b D2) as S2.
    destruct c; cycle 1.
    { exists false. split; [reflexivity|]. split; [discriminate|]. intros (q & F & _). destruct CQ as [_ CQ]. specialize (CQ (conj q F)). discriminate. }
    destruct CQ as [CQ _]. destruct (CQ eq_refl) as [q F].
    destruct (sizes a) as [l|], (sizes b) as [m|]; rewrite S1, ?S2;
      try (eexists; split; [reflexivity|]; split; [intros _; split; [exact q|]; split; [exact F|]; intros; discriminate|reflexivity]).
    eexists. split; [reflexivity|]. rewrite py_eq_ints. split.
    - intros ->. split; [exact q|]. split; [exact F|]. intros l0 m0 E1 E2. congruence.
    - intros (_ & _ & S). apply S; reflexivity.
  Qed.

  Lemma areas_decide g h eps n1 w1 s1 e1 n2 w2 s2 e2 m M : limits g n1 w1 s1 e1 -> limits h n2 w2 s2 e2 -> good (NF eps) ->
    m <= 1 -> m + U < F2Rv eps -> F2Rv eps <= M ->
    exists a1 a2 b, alookup "area" (gd g) = Some a1 /\ alookup "area" (gd h) = Some a2 /\ same_area a1 a2 eps = Ok b /\
      (apart m (n1, w1, s1, e1) (n2, w2, s2, e2) -> b = true) /\ (b = true -> apart M (n1, w1, s1, e1) (n2, w2, s2, e2)).
  Proof. clear.
    intros (vn & vw & vs & ve & EA & Nn & Nw & Ns & Ne) (vn2 & vw2 & vs2 & ve2 & EA2 & Nn2 & Nw2 & Ns2 & Ne2) Ge Hm Hl Hu.
    exists (VList [vn; vw; vs; ve]), (VList [vn2; vw2; vs2; ve2]).
    destruct (same_coord_real vn vn2 n1 n2 eps Nn Nn2 Ge) as (b1 & E1 & R1).
    destruct (same_coord_real vw vw2 w1 w2 eps Nw Nw2 Ge) as (b2 & E2 & R2).
    destruct (same_coord_real vs vs2 s1 s2 eps Ns Ns2 Ge) as (b3 & E3 & R3).
    destruct (same_coord_real ve ve2 e1 e2 eps Ne Ne2 Ge) as (b4 & E4 & R4).
    exists (b1 && b2 && b3 && b4). split; [exact EA|]. split; [exact EA2|]. split; [|split].
    - unfold same_area. cbn [elems bind List.length Nat.eqb all_same]. rewrite E1, E2, E3, E4. cbn [bind].
      destruct b1, b2, b3, b4; reflexivity.
    - intros (A1 & A2 & A3 & A4). destruct R1 as [_ R1], R2 as [_ R2], R3 as [_ R3], R4 as [_ R4].
      rewrite R1, R2, R3, R4; [reflexivity|..]; eapply rnd_lt; eassumption.
    - intros T. apply andb_prop in T. destruct T as [T T4]. apply andb_prop in T. destruct T as [T T3].
      apply andb_prop in T. destruct T as [T1 T2]. pose proof (good_double _ Ge) as D. cbn [N2R] in D.
      apply R1, lt_rnd in T1; [|exact D]. apply R2, lt_rnd in T2; [|exact D]. apply R3, lt_rnd in T3; [|exact D]. apply R4, lt_rnd in T4; [|exact D].
      unfold apart. lra.
  Qed.

  Lemma near_congruent_0 w v : near_congruent 0 w v -> congruent w v.
  Proof. clear. intros (k & H). exists k. apply Rabs_le_inv in H. lra. Qed.

  Lemma increments_decide x1 x2 y1 y2 a1 a2 b1 b2 : small_number x1 a1 -> small_number x2 a2 -> small_number y1 b1 -> small_number y2 b2 ->
    exists r, compare_key py_str "grid" (VList [x1; x2]) (VList [y1; y2]) = Ok r /\
      (Rabs (a1 - b1) <= 0.0000009 -> Rabs (a2 - b2) <= 0.0000009 -> r = true) /\
      (r = true -> Rabs (a1 - b1) <= 0.000001001 + 0.00001 * Rabs b1 /\ Rabs (a2 - b2) <= 0.000001001 + 0.00001 * Rabs b2).
  Proof.
    intros S1 S2 S3 S4. cbn [compare_key]. change (String.eqb "grid" "grid") with true. cbv iota.
    destruct (np_small _ _ S1) as (f1 & F1 & G1 & R1), (np_small _ _ S2) as (f2 & F2 & G2 & R2),
             (np_small _ _ S3) as (f3 & F3 & G3 & R3), (np_small _ _ S4) as (f4 & F4 & G4 & R4).
    cbn [np_array]. rewrite F1, F2, F3, F4. cbn [bind]. unfold allclose. cbn [List.length Nat.eqb combine forallb fst snd].
    eexists. split; [reflexivity|]. destruct S1 as [_ S1], S2 as [_ S2], S3 as [_ S3], S4 as [_ S4]. subst a1 a2 b1 b2. split.
    - intros D1 D2. rewrite (isclose_complete f1 f3), (isclose_complete f2 f4) by assumption. reflexivity.
    - intros C. apply andb_prop in C. destruct C as [C1 C2]. rewrite andb_true_r in C2.
      pose proof (isclose_sound f1 f3 G1 G3 S1 S3 C1). pose proof (isclose_sound f2 f4 G2 G4 S2 S4 C2). lra.
  Qed.

  Lemma other_class d1 d2 g h : NoDup (akeys d1) -> NoDup (akeys d2) -> from_dict d1 = Ok g -> from_dict d2 = Ok h ->
    cls g <> cls h -> snd (eq py_str key_order fuel g h) = Ok false.
  Proof.
    intros N1 N2 H1 H2 H. unfold eq, eq_base, get_type.
    rewrite (contents_ok d1 g _ N1 H1), (contents_ok d2 h _ N2 H2). unfold contents.
    change (String.eqb "type" "type") with true. cbv iota. cbn [py_eq].
    destruct (String.eqb_spec (type_name (cls g)) (type_name (cls h))) as [E|E]; [apply type_name_inj in E; contradiction|]. reflexivity.
  Qed.

  Theorem decide d1 d2 g h a b :
    NoDup (akeys d1) -> NoDup (akeys d2) -> from_dict d1 = Ok g -> from_dict d2 = Ok h ->
    incl COMPARE_KEYS key_order -> incl key_order COMPARE_KEYS -> describes_grid g a -> describes_grid h b -> bounded fuel a -> bounded fuel b ->
    exists r, snd (eq py_str key_order fuel g h) = Ok r /\ (same_grid a b -> r = true) /\ (r = true -> near_grid a b).
  Proof.
    intros N1 N2 H1 H2 I1 I2 D1 D2 B1 B2.
    pose proof (dg_geometry g a D1) as A1. pose proof (dg_geometry h b D2) as A2.
    assert (OC : cls g <> cls h -> (same_grid a b -> False) -> exists r, snd (eq py_str key_order fuel g h) = Ok r /\ (same_grid a b -> r = true) /\ (r = true -> near_grid a b)).
    { intros NE NS. exists false. split; [exact (other_class d1 d2 g h N1 N2 H1 H2 NE)|]. split; [intros S; destruct (NS S)|discriminate]. }
    destruct a as [ga fa sa], b as [gb fb sb]. unfold same_grid, near_grid, agree, bounded in *. cbn [geometry scanning sizes] in *.
    destruct ga as [oa na orda|dxa dya n1 w1 s1 e1 deca|na dxa n1 w1 s1 e1 deca], gb as [ob nb ordb|dxb dyb n2 w2 s2 e2 decb|nb dxb n2 w2 s2 e2 decb];
      cbn [describes_geometry] in A1, A2;
      try (apply OC; [|tauto]; try destruct oa; try destruct ob; intuition congruence).
    - (* named *)
      destruct A1 as [G1 A1], A2 as [G2 A2].
      destruct oa, ob; try (apply OC; [intuition congruence|intros (_ & _ & ? & _); discriminate]).
      + destruct A1 as [C1 ->], A2 as [C2 ->].
        destruct (base_decide d1 d2 g h _ _ _ _ (lower na = lower nb) N1 N2 H1 H2 I1 I2 D1 D2 (eq_trans C1 (eq_sym C2)) G1 G2) as (r & E & R).
        { cbn [compare_key]. change (String.eqb "grid" "grid") with true. cbv iota. eexists. split; [reflexivity|]. apply String.eqb_eq. }
        cbn [scanning sizes] in R. exists r. unfold eq. rewrite E, C1. split; [destruct r; reflexivity|]. rewrite R. tauto.
      + destruct A1 as (C1 & O1 & J1 & c1 & ds1 & -> & P1 & P2 & P3 & P4), A2 as (C2 & O2 & J2 & c2 & ds2 & -> & P5 & P6 & P7 & P8).
        destruct (base_decide d1 d2 g h _ _ _ _ (lower (String c1 (of_chars ds1)) = lower (String c2 (of_chars ds2))) N1 N2 H1 H2 I1 I2 D1 D2 (eq_trans C1 (eq_sym C2)) G1 G2) as (r & E & R).
        { cbn [compare_key]. change (String.eqb "grid" "grid") with true. cbv iota. eexists. split; [reflexivity|]. apply String.eqb_eq. }
        cbn [scanning sizes] in R. unfold eq. rewrite E, C1.
        destruct r; [|exists false; split; [reflexivity|]; split; [|discriminate]; intros (S1 & S2 & _ & S3 & _); apply R; tauto].
        destruct R as [R _]. specialize (R eq_refl). rewrite (order_spec g orda c1 ds1), (order_spec h ordb c2 ds2) by assumption. cbn [snd bind py_eq].
        eexists. split; [reflexivity|]. rewrite String.eqb_eq. tauto.
    - (* regular *)
      destruct A1 as (C1 & (x1 & x2 & G1 & X1 & X2) & L1 & L2 & LI1 & DE1), A2 as (C2 & (y1 & y2 & G2 & Y1 & Y2) & L3 & L4 & LI2 & DE2).
      assert (SM : forall v x, number v x -> Rabs x <= 360 -> small_number v x) by (intros v x NV B; split; [exact NV|lra]).
      destruct (increments_decide x1 x2 y1 y2 dxa dya dxb dyb) as (r0 & R0 & T0 & F0); auto.
      destruct (base_decide d1 d2 g h _ _ _ _ (r0 = true) N1 N2 H1 H2 I1 I2 D1 D2 (eq_trans C1 (eq_sym C2)) G1 G2) as (r & E & R).
      { exists r0. split; [exact R0|reflexivity]. }
      cbn [scanning sizes] in R. unfold eq. rewrite E, C1.
      destruct r; [|exists false; split; [reflexivity|]; split; [|discriminate]; intros (S1 & S2 & Q1 & Q2 & _); rewrite !Rmult_0_l, !Rplus_0_r in *; apply R; split; [apply T0; assumption|split; assumption]].
      destruct R as [R _]. destruct (R eq_refl) as (RQ & RS & RZ). specialize (F0 RQ). destruct DEG_real as [GD [DB1 DB2]].
      destruct (areas_decide g h DEGREE_EPS n1 w1 s1 e1 n2 w2 s2 e2 0.000000009 0.000000011 LI1 LI2 GD) as (a1 & a2 & bb & E1 & E2 & E3 & TA & FA); [lra|unfold U; lra|lra|].
      unfold dget at 1 2. rewrite E1, E2. cbn [bind]. rewrite E3. destruct bb.
      { exists true. split; [reflexivity|]. split; [reflexivity|]. intros _. split; [exact RS|]. split; [exact RZ|]. split; [apply F0|]. split; [apply F0|]. left. apply FA. reflexivity. }
      pose proof LI1 as (vn & vw & vs & ve & EA & Nn & Nw & Ns & Ne). pose proof LI2 as (vn2 & vw2 & vs2 & ve2 & EA2 & Nn2 & Nw2 & Ns2 & Ne2).
      unfold area_at, dget, index. rewrite EA, EA2. cbn [bind elems nth_error].
      destruct (same_coord_real vn vn2 n1 n2 DEGREE_EPS Nn Nn2 GD) as (b1 & -> & R1).
      destruct (same_coord_real vs vs2 s1 s2 DEGREE_EPS Ns Ns2 GD) as (b3 & -> & R3). cbn [bind].
      assert (HN : Rabs (n1 - n2) <= 0.000000009 -> b1 = true) by (intros HN; apply R1; eapply rnd_lt; [exact HN|lra|unfold U; lra]).
      assert (HS : Rabs (s1 - s2) <= 0.000000009 -> b3 = true) by (intros HS; apply R3; eapply rnd_lt; [exact HS|lra|unfold U; lra]).
      destruct b1; [|exists false; split; [reflexivity|]; split; [|discriminate]; intros (_ & _ & _ & _ & [AP|(Q & _)]); [apply TA, AP|apply HN, Q]].
      destruct b3; [|exists false; split; [reflexivity|]; split; [|discriminate]; intros (_ & _ & _ & _ & [AP|(_ & Q & _)]); [apply TA, AP|apply HS, Q]].
      destruct R1 as [R1 _], R3 as [R3 _]. specialize (R1 eq_refl). specialize (R3 eq_refl).
      apply lt_rnd in R1; [|apply (good_double _ GD)]. apply lt_rnd in R3; [|apply (good_double _ GD)].
      assert (IG : increment g (Rabs dxa)). { unfold increment. rewrite C1. exists x1, [x2], dxa. auto. }
      assert (IH : increment h (Rabs dxb)). { unfold increment. rewrite C2. exists y1, [y2], dxb. auto. }
      destruct (both_real fuel DEGREE_EPS d1 d2 g h n1 w1 s1 e1 (Rabs dxa) n2 w2 s2 e2 (Rabs dxb)) as (g' & h' & bb & -> & T & T'); auto; try tauto; [lra|].
      exists bb. split; [reflexivity|]. split.
      + intros (_ & _ & _ & _ & [AP|(_ & _ & Q1 & Q2 & Q3)]); [specialize (TA AP); discriminate|]. apply T; [unfold global in Q1; clear -Q1 DE1; tauto|unfold global in Q2; clear -Q2 DE2; tauto|apply near_congruent_0, Q3].
      + intros ->. destruct (T' eq_refl) as (T1 & T2 & (k & T3)). split; [exact RS|]. split; [exact RZ|]. split; [apply F0|]. split; [apply F0|]. right.
        split; [lra|]. split; [lra|]. split; [unfold global; clear -T1 DE1; tauto|]. split; [unfold global; clear -T2 DE2; tauto|]. exists k. lra.
    - (* reduced Gaussian *)
      destruct A1 as (C1 & G1 & IG & LI1 & DE1), A2 as (C2 & G2 & IH & LI2 & DE2).
      destruct (base_decide d1 d2 g h _ _ _ _ (lower na = lower nb) N1 N2 H1 H2 I1 I2 D1 D2 (eq_trans C1 (eq_sym C2)) G1 G2) as (r & E & R).
      { cbn [compare_key]. change (String.eqb "grid" "grid") with true. cbv iota. eexists. split; [reflexivity|]. apply String.eqb_eq. }
      cbn [scanning sizes] in R. unfold eq. rewrite E, C1.
      destruct r; [|exists false; split; [reflexivity|]; split; [|discriminate]; intros (S1 & S2 & Q & _); apply R; tauto].
      destruct R as [R _]. destruct (R eq_refl) as (RQ & RS & RZ). destruct RGGEPS_real as [GD [DB1 DB2]].
      assert (SM : forall g x, cls g = RGG -> increment g x -> 0 <= x <= 360).
      { clear. intros g x C I. unfold increment in I. rewrite C in I. destruct I as (c & ds & _ & _ & _ & _ & R & ->).
        set (m := (4 * digits_val ds + (if octahedral c then 16 else 0))%Z).
        assert (4 <= IZR m) by (apply IZR_le; unfold m; destruct (octahedral c); lia). split.
        - apply Rmult_le_pos; [lra|]. apply Rlt_le, Rinv_0_lt_compat. lra.
        - apply Rmult_le_reg_r with (IZR m); [lra|]. unfold Rdiv. rewrite Rmult_assoc, Rinv_l by lra. lra. }
      pose proof (SM g dxa C1 IG) as M1. pose proof (SM h dxb C2 IH) as M2. unfold global. rewrite (Rabs_pos_eq dxa), (Rabs_pos_eq dxb) by lra.
      destruct (areas_decide g h RGG_EPS n1 w1 s1 e1 n2 w2 s2 e2 0.1199 0.1201 LI1 LI2 GD) as (a1 & a2 & bb & E1 & E2 & E3 & TA & FA); [lra|unfold U; lra|lra|].
      unfold dget at 1 2. rewrite E1, E2. cbn [bind]. rewrite E3. destruct bb.
      { exists true. split; [reflexivity|]. split; [reflexivity|]. intros _. split; [exact RS|]. split; [exact RZ|]. split; [exact RQ|]. left. apply FA. reflexivity. }
      destruct (both_real fuel RGG_EPS d1 d2 g h n1 w1 s1 e1 dxa n2 w2 s2 e2 dxb) as (g' & h' & bb & -> & T & T'); auto; try tauto; [lra|].
      exists bb. split; [reflexivity|]. split.
      + intros (_ & _ & _ & [AP|(Q1 & Q2 & Q3)]); [specialize (TA AP); discriminate|]. apply T; [clear -Q1 DE1; tauto|clear -Q2 DE2; tauto|apply near_congruent_0, Q3].
      + intros ->. destruct (T' eq_refl) as (T1 & T2 & (k & T3)). split; [exact RS|]. split; [exact RZ|]. split; [exact RQ|]. right.
        split; [clear -T1 DE1; tauto|]. split; [clear -T2 DE2; tauto|]. exists k. lra.
  Qed.
End Decide.
