(** Matching, continued: what a match says of the compared keys; symmetry. *)
From Coq Require Import Reals Psatz.
From Verif Require Import PyBase ListLemmas PyStr Float64 GridSpec GridVocab GridProofs GridProofs2 FloatReal GridLon GridMatchSpec GridReal GridMatch GridMatch2.
From Flocq Require Import Core.
Set Default Proof Using "Type".
Local Open Scope string_scope.
Local Open Scope list_scope.
Local Open Scope Z_scope.

(** An integer flag. *)
Definition int_value (v : val) : option Z := match v with VInt z => Some z | VBool b => Some (if b then 1 else 0) | _ => None end.
Definition flag (g : gspec) (k : string) (z : Z) : Prop := exists v, alookup k (gd g) = Some v /\ int_value v = Some z.
(** The order of a HEALPix grid: ring unless given. *)
Definition order_name (g : gspec) (o : string) : Prop :=
  match alookup "order" (gd g) with None => o = "ring" | Some v => v = VStr o end.

Lemma type_name_inj c c' : type_name c = type_name c' -> c = c'.
Proof. destruct c, c'; cbn; intros H; try reflexivity; discriminate. Qed.
Lemma py_eq_int v u z y : int_value v = Some z -> int_value u = Some y -> py_eq v u = (z =? y).
Proof.
  intros A B. assert (H : py_eq v u = neqb (NI z) (NI y)).
  { destruct v as [|[]| | | | |], u as [|[]| | | | |]; try discriminate A; try discriminate B;
      inversion A; inversion B; subst; reflexivity. }
  rewrite H. unfold neqb. cbn [ncompare].
  destruct (Z.compare_spec z y); symmetry; [apply Z.eqb_eq|apply Z.eqb_neq|apply Z.eqb_neq]; lia.
Qed.

Section Keys.
  Variables (py_str : val -> string) (key_order : list string) (fuel : nat).

  Lemma compare_keys_true ks d e : compare_keys py_str ks d e = Ok true ->
    forall k, In k ks -> exists v u, alookup k d = Some v /\ alookup k e = Some u /\ compare_key py_str k v u = Ok true.
  Proof.
    induction ks as [|k r IH]; cbn [compare_keys]; intros H k' I; [destruct I|].
    unfold dget in H. destruct (alookup k d) as [v|] eqn:E1; [|discriminate]. cbn [bind] in H.
    destruct (alookup k e) as [u|] eqn:E2; [|discriminate]. cbn [bind] in H.
    destruct (compare_key py_str k v u) as [[]| |] eqn:E3; try discriminate. cbn [bind] in H.
    destruct I as [<-|I]; [eauto|]. apply IH; assumption.
  Qed.
  Lemma compare_keys_all ks d e :
    (forall k, In k ks -> exists v u, alookup k d = Some v /\ alookup k e = Some u /\ compare_key py_str k v u = Ok true) ->
    compare_keys py_str ks d e = Ok true.
  Proof.
    induction ks as [|k r IH]; intros H; [reflexivity|]. cbn [compare_keys]. unfold dget.
    destruct (H k (or_introl eq_refl)) as (v & u & -> & -> & E). cbn [bind]. rewrite E. cbn [bind].
    apply IH. intros k' I. apply H. right. exact I.
  Qed.
  Lemma eq_true_base g h : snd (eq py_str key_order fuel g h) = Ok true -> eq_base py_str key_order g h = Ok true.
  Proof. unfold eq. destruct (eq_base py_str key_order g h) as [[]| |]; cbn; try discriminate. reflexivity. Qed.

  Lemma base_keys g h : incl COMPARE_KEYS key_order -> eq_base py_str key_order g h = Ok true ->
    forall k, In k COMPARE_KEYS -> exists v u, alookup k (gd g) = Some v /\ alookup k (gd h) = Some u /\ compare_key py_str k v u = Ok true.
  Proof.
    intros HI H k I. unfold eq_base in H. destruct (negb _); [discriminate|].
    destruct (compare_keys py_str key_order (gd g) (gd h)) as [[]| |] eqn:E; try discriminate.
    apply (compare_keys_true _ _ _ E). apply HI, I.
  Qed.

  Lemma match_type d1 d2 g h : NoDup (akeys d1) -> NoDup (akeys d2) -> from_dict d1 = Ok g -> from_dict d2 = Ok h ->
    eq_base py_str key_order g h = Ok true -> cls g = cls h.
  Proof.
    intros N1 N2 H1 H2 H. apply type_name_inj. unfold eq_base, get_type in H.
    rewrite (contents_ok d1 g _ N1 H1), (contents_ok d2 h _ N2 H2) in H. unfold contents in H.
    change (String.eqb "type" "type") with true in H. cbv iota in H. cbn [py_eq] in H.
    destruct (String.eqb_spec (type_name (cls g)) (type_name (cls h))); [assumption|discriminate].
  Qed.
  Lemma match_names g h s t : incl COMPARE_KEYS key_order -> eq_base py_str key_order g h = Ok true ->
    alookup "grid" (gd g) = Some (VStr s) -> alookup "grid" (gd h) = Some (VStr t) -> lower s = lower t.
  Proof.
    intros HI H E1 E2. destruct (base_keys g h HI H "grid") as (v & u & A & B & C); [cbn; auto|].
    rewrite E1 in A. rewrite E2 in B. inversion A; inversion B; subst. cbn in C. inversion C.
    destruct (String.eqb_spec (lower s) (lower t)); [assumption|discriminate].
  Qed.
  Lemma match_flags g h k z y : incl COMPARE_KEYS key_order -> eq_base py_str key_order g h = Ok true -> In k flags ->
    flag g k z -> flag h k y -> z = y.
  Proof.
    intros HI H I (v & E1 & Z1) (u & E2 & Z2). destruct (base_keys g h HI H k) as (v' & u' & A & B & C).
    { cbn in I |- *. intuition. }
    rewrite E1 in A. rewrite E2 in B. inversion A; inversion B; subst.
    assert (Ok (py_eq v' u') = Ok true).
    { destruct v' as [|[]| | | | |], u' as [|[]| | | | |]; try discriminate Z1; try discriminate Z2; exact C. }
    rewrite (py_eq_int _ _ _ _ Z1 Z2) in H0. inversion H0. apply Z.eqb_eq. assumption.
  Qed.
  Lemma match_shapes g h v u : eq_base py_str key_order g h = Ok true ->
    alookup "shape" (gd g) = Some v -> alookup "shape" (gd h) = Some u -> py_eq v u = true.
  Proof.
    intros H E1 E2. unfold eq_base in H. destruct (negb _); [discriminate|].
    destruct (compare_keys py_str key_order (gd g) (gd h)) as [[]| |]; try discriminate. cbn [bind] in H.
    rewrite E1, E2 in H. inversion H. reflexivity.
  Qed.

  (** Increments. *)
  Definition small_number (v : val) (x : R) : Prop := number v x /\ (Rabs x <= 1000)%R.
  Lemma np_small v x : small_number v x -> exists f, np_num v = Ok f /\ good (NF f) /\ F2Rv f = x.
  Proof.
    clear py_str key_order fuel.
    intros [(a & Ea & Ga & Ra & _) B]. nums. unfold np_num. rewrite Ea. destruct a as [z|f]; cbn [N2R good] in *.
    - subst x. rewrite <- abs_IZR in B. apply le_IZR in B. destruct (of_Z_exact z) as [A1 A2]; [lia|].
      assert (L1 : (- 2 ^ 63 <=? z)%Z = true) by (apply Z.leb_le; lia).
      assert (L2 : (z <? 2 ^ 63)%Z = true) by (apply Z.ltb_lt; lia). rewrite L1, L2. cbn [andb].
      exists (of_Z z). split; [reflexivity|]. split; [split; [apply valid_of_Z|exact A1]|exact A2].
    - exists f. auto.
  Qed.
  Lemma lit_near n d : (0 < n <= 1000)%Z -> (1 <= d <= 2 ^ 40)%Z -> (n <= d)%Z -> (Rabs (F2Rv (lit n d) - IZR n / IZR d) <= U)%R.
  Proof.
    clear py_str key_order fuel.
    intros Hn Hd L. destruct (of_Z_exact n) as [A1 B1]; [lia|]. destruct (of_Z_exact d) as [A2 B2]; [lia|].
    assert (P : (1 <= IZR d)%R) by (apply IZR_le; lia). assert (P1 : (0 < IZR n <= IZR d)%R) by (split; [apply IZR_lt; lia|apply IZR_le; lia]).
    assert (Q : (0 <= IZR n / IZR d <= 1)%R).
    { split; [apply Rmult_le_pos; [lra|]; apply Rlt_le, Rinv_0_lt_compat; lra|]. apply Rmult_le_reg_r with (IZR d); [lra|]. field_simplify; lra. }
    unfold lit. destruct (fdiv_real (of_Z n) (of_Z d)) as [A B]; try apply valid_of_Z; try assumption; rewrite ?B1, ?B2.
    - lra.
    - apply HUGE_big. rewrite Rabs_pos_eq by lra. apply Rle_trans with 1%R; [lra|apply IZR_le; lia].
    - rewrite B, B1, B2. apply rnd_err. rewrite Rabs_pos_eq; lra.
  Qed.
  Lemma isclose_sound x y : good (NF x) -> good (NF y) -> (Rabs (F2Rv x) <= 1000)%R -> (Rabs (F2Rv y) <= 1000)%R ->
    isclose x y RTOL GRID_ATOL = true -> (Rabs (F2Rv x - F2Rv y) <= 0.000001 + 0.00001 * Rabs (F2Rv y) + 0.000000001)%R.
  Proof.
    clear py_str key_order fuel.
    intros Gx Gy Bx By. unfold isclose. destruct Gx as [Vx Fx], Gy as [Vy Fy]. rewrite Fx, Fy. cbn [andb].
    destruct GRID_ATOL_tol as [GA BA]. destruct (tolerance_real y GRID_ATOL (conj Vy Fy) GA BA) as [GT RT].
    pose proof (abs_U _ _ Bx) as Bx'. pose proof (abs_U _ _ By) as By'.
    destruct (fsub_real x y Vx Vy Fx Fy) as [FS RS].
    { apply HUGE_big. apply Rle_trans with 2000%R; [apply Rabs_le; lra|apply IZR_le; lia]. }
    intros H. apply SFleb_real in H; [|split; [apply valid_fabs, valid_fsub; assumption|rewrite fabs_finite; exact FS]|exact GT].
    rewrite fabs_real, RS, RT in H. pose proof (Rabs_pos (F2Rv y)) as Py.
    pose proof (lit_near 1 1000000 ltac:(lia) ltac:(lia) ltac:(lia)) as LA. fold GRID_ATOL in LA.
    pose proof (lit_near 1 100000 ltac:(lia) ltac:(lia) ltac:(lia)) as LR. fold RTOL in LR. apply abs_U in LA, LR.
    assert (UU : (U <= 0.00000000000012)%R) by (unfold U; lra).
    assert (M : (0 <= F2Rv RTOL * Rabs (F2Rv y) <= 0.00001 * Rabs (F2Rv y) + 0.00000000012)%R) by nra.
    assert (E1 : (Rabs (rnd (F2Rv RTOL * Rabs (F2Rv y)) - F2Rv RTOL * Rabs (F2Rv y)) <= U)%R).
    { apply rnd_err. rewrite Rabs_pos_eq; lra. }
    apply abs_U in E1.
    assert (E2 : (Rabs (rnd (F2Rv GRID_ATOL + rnd (F2Rv RTOL * Rabs (F2Rv y))) - (F2Rv GRID_ATOL + rnd (F2Rv RTOL * Rabs (F2Rv y)))) <= U)%R).
    { apply rnd_err. apply Rabs_le. lra. }
    apply abs_U in E2.
    destruct (Rle_lt_dec (Rabs (F2Rv x - F2Rv y)) 1000) as [L|L].
    - assert (E3 : (Rabs (rnd (Rabs (F2Rv x - F2Rv y)) - Rabs (F2Rv x - F2Rv y)) <= U)%R).
      { apply rnd_err. rewrite Rabs_Rabsolu. lra. }
      apply abs_U in E3. rewrite rnd_abs in E3. lra.
    - exfalso. assert (X : (rnd 1000 <= rnd (Rabs (F2Rv x - F2Rv y)))%R) by (apply rnd_le; lra).
      rewrite rnd_abs, (rnd_double 1000) in X; [|apply int_double; lia]. lra.
  Qed.
  Lemma match_increments g h x1 x2 y1 y2 a1 a2 b1 b2 : incl COMPARE_KEYS key_order -> eq_base py_str key_order g h = Ok true ->
    alookup "grid" (gd g) = Some (VList [x1; x2]) -> alookup "grid" (gd h) = Some (VList [y1; y2]) ->
    small_number x1 a1 -> small_number x2 a2 -> small_number y1 b1 -> small_number y2 b2 ->
    (Rabs (a1 - b1) <= 0.000001 + 0.00001 * Rabs b1 + 0.000000001)%R /\
    (Rabs (a2 - b2) <= 0.000001 + 0.00001 * Rabs b2 + 0.000000001)%R.
  Proof.
    intros HI H E1 E2 S1 S2 S3 S4. destruct (base_keys g h HI H "grid") as (v & u & A & B & C); [cbn; auto|].
    rewrite E1 in A. rewrite E2 in B. inversion A; inversion B; subst. cbn [compare_key] in C.
    change (String.eqb "grid" "grid") with true in C. cbv iota in C.
    destruct (np_small _ _ S1) as (f1 & F1 & G1 & R1), (np_small _ _ S2) as (f2 & F2 & G2 & R2),
             (np_small _ _ S3) as (f3 & F3 & G3 & R3), (np_small _ _ S4) as (f4 & F4 & G4 & R4).
    cbn [np_array] in C. rewrite F1, F2, F3, F4 in C. cbn [bind] in C. unfold allclose in C. cbn [List.length Nat.eqb combine forallb fst snd] in C.
    inversion C as [C']. apply andb_prop in C'. destruct C' as [C1 C2]. rewrite andb_true_r in C2.
    destruct S1 as [_ S1], S2 as [_ S2], S3 as [_ S3], S4 as [_ S4]. subst a1 a2 b1 b2.
    split; apply isclose_sound; assumption.
  Qed.

  (** ** Named grids: HEALPix and ORCA *)
  Lemma order_spec g o c ds : order_name g o -> In o ["ring"; "nested"] ->
    alookup "grid" (gd g) = Some (VStr (String c (of_chars ds))) -> In c ["H"; "h"]%char -> ds <> [] ->
    Forall (fun c => is_digit c = true) ds -> 1 <= digits_val ds <= 1000000 -> order g = Ok (VStr o).
  Proof.
    clear py_str key_order fuel.
    intros HO IO Eg Ic Nd Fd Rd. unfold order, dget. rewrite Eg. cbn [bind].
    assert (M : HEALPIX_match (String c (of_chars ds)) = true).
    { apply HEALPIX_match_spec. destruct ds as [|d0 ds]; [contradiction|]. exists c, d0, (of_chars ds). inversion Fd; subst. auto. }
    rewrite M. change (tl (chars (String c (of_chars ds)))) with (chars (of_chars ds)). rewrite chars_of_chars, py_int_digits by assumption.
    replace ((digits_val ds <? 1)%Z) with false by (symmetry; apply Z.ltb_ge; lia).
    replace ((1000000 <? digits_val ds)%Z) with false by (symmetry; apply Z.ltb_ge; lia). cbn [orb].
    unfold order_name in HO. destruct (alookup "order" (gd g)) as [v|]; [subst v|subst o; reflexivity].
    cbn in IO. destruct IO as [<-|[<-|[]]]; reflexivity.
  Qed.

End Keys.

(** ** Symmetry *)
Lemma rnd_sym x y : Rabs (rnd (x - y)) = Rabs (rnd (y - x)).
Proof. replace (x - y)%R with (- (y - x))%R by ring. rewrite rnd_opp. apply Rabs_Ropp. Qed.
Lemma same_coord_sym v u x y eps b c : number v x -> number u y -> good (NF eps) ->
  same_coord v u eps = Ok b -> same_coord u v eps = Ok c -> b = c.
Proof.
  intros N1 N2 G E1 E2. destruct (same_coord_real v u x y eps N1 N2 G) as (b' & E1' & R1).
  destruct (same_coord_real u v y x eps N2 N1 G) as (c' & E2' & R2). rewrite E1 in E1'. rewrite E2 in E2'.
  inversion E1'; inversion E2'; subst b' c'. rewrite rnd_sym in R2. destruct b, c; intuition congruence.
Qed.
Lemma neqb_sym a b : neqb a b = neqb b a.
Proof.
  unfold neqb. destruct a as [x|x], b as [y|y]; cbn [ncompare].
  - rewrite (Z.compare_antisym y x). destruct (y ?= x); reflexivity.
  - destruct (compare_Z x y) as [[]|]; reflexivity.
  - destruct (compare_Z y x) as [[]|]; reflexivity.
  - destruct x as [s|s| |s m e], y as [s'|s'| |s' m' e']; try (destruct s); try (destruct s'); try reflexivity; cbn;
      change (Pos.compare_cont Eq m m') with (m ?= m')%positive; change (Pos.compare_cont Eq m' m) with (m' ?= m)%positive;
      rewrite (Z.compare_antisym e e'), (Pos.compare_antisym m m');
      destruct (e ?= e'); cbn; try reflexivity; destruct (m ?= m')%positive; reflexivity.
Qed.
Lemma py_eq_sym v u : py_eq v u = py_eq u v.
Proof.
  remember (vsize v) as n eqn:En. revert v u En. induction n as [n IH] using lt_wf_ind. intros v u En.
  assert (LS : forall l m, (forall x, In x l -> (vsize x < n)%nat) ->
     (fix go (l m : list val) : bool := match l, m with [], [] => true | x :: l', y :: m' => py_eq x y && go l' m' | _, _ => false end) l m =
     (fix go (l m : list val) : bool := match l, m with [], [] => true | x :: l', y :: m' => py_eq x y && go l' m' | _, _ => false end) m l).
  { induction l as [|x l IHl]; intros [|y m] X; try reflexivity. rewrite (IH (vsize x) (X x (or_introl eq_refl)) x y eq_refl).
    rewrite IHl; [reflexivity|]. intros z Z1. apply X. right. exact Z1. }
  assert (SZ : forall l x, In x l -> (vsize x < S (fold_right (fun x n => vsize x + n)%nat O l))%nat).
  { clear. intros l x I. apply in_split in I. destruct I as (a & c & ->). induction a; cbn in *; lia. }
  assert (SE : forall s t, String.eqb s t = String.eqb t s) by (intros; apply String.eqb_sym).
  destruct v as [|b|z|f|s|l|l], u as [|b'|z'|f'|s'|l'|l']; cbn [py_eq as_num]; try reflexivity; try apply neqb_sym; try apply SE.
  - apply LS. subst n. apply SZ.
  - apply LS. subst n. apply SZ.
Qed.

(** Grids compared by name, or written with the same numbers; integer flags. *)
Definition comparable (g h : gspec) : Prop :=
  (forall k, In k flags -> exists z y, flag g k z /\ flag h k y) /\
  exists v u, alookup "grid" (gd g) = Some v /\ alookup "grid" (gd h) = Some u /\
    ((exists s t, v = VStr s /\ u = VStr t) \/ v = u).

Section Sym.
  Variables (py_str : val -> string) (key_order : list string) (fuel : nat).
  Lemma compare_key_sym g h k v u b : comparable g h -> In k COMPARE_KEYS ->
    (exists s t, alookup "type" (gd g) = Some (VStr s) /\ alookup "type" (gd h) = Some (VStr t)) ->
    alookup k (gd g) = Some v -> alookup k (gd h) = Some u -> compare_key py_str k v u = Ok b -> compare_key py_str k u v = Ok b.
  Proof.
    intros [HF (gv & gu & G1 & G2 & G)] I (s & t & T1 & T2) E1 E2 C. cbn in I. destruct I as [<-|[<-|I]].
    - rewrite T1 in E1. rewrite T2 in E2. inversion E1; inversion E2; subst. cbn in *. rewrite String.eqb_sym. exact C.
    - rewrite G1 in E1. rewrite G2 in E2. inversion E1; inversion E2; subst. destruct G as [(s' & t' & -> & ->)| ->]; [|exact C].
      cbn in *. rewrite String.eqb_sym. exact C.
    - destruct (HF k I) as (z & y & (v' & A & A') & (u' & B & B')). rewrite E1 in A. rewrite E2 in B. inversion A; inversion B; subst v' u'.
      assert (K : compare_key py_str k v u = Ok (py_eq v u) /\ compare_key py_str k u v = Ok (py_eq u v)).
      { destruct v as [|[]| | | | |], u as [|[]| | | | |]; try discriminate A'; try discriminate B'; split; reflexivity. }
      destruct K as [K1 K2]. rewrite K2, py_eq_sym, <- K1. exact C.
  Qed.
  Lemma base_sym g h b c : comparable g h -> incl key_order COMPARE_KEYS ->
    (exists s t, alookup "type" (gd g) = Some (VStr s) /\ alookup "type" (gd h) = Some (VStr t)) ->
    eq_base py_str key_order g h = Ok b -> eq_base py_str key_order h g = Ok c -> b = c.
  Proof.
    intros HC HI HT. unfold eq_base. rewrite (py_eq_sym (get_type (gd h)) (get_type (gd g))).
    destruct (negb _); [congruence|].
    assert (K : forall b, compare_keys py_str key_order (gd g) (gd h) = Ok b -> compare_keys py_str key_order (gd h) (gd g) = Ok b).
    { clear -HC HI HT. induction key_order as [|k r IH]; intros b H; [exact H|]. cbn [compare_keys] in *. unfold dget in *.
      destruct (alookup k (gd g)) as [v|] eqn:E1; [|discriminate]. cbn [bind] in H.
      destruct (alookup k (gd h)) as [u|] eqn:E2; [|discriminate]. cbn [bind] in *.
      destruct (compare_key py_str k v u) as [x| |] eqn:E3; try discriminate.
      rewrite (compare_key_sym g h k v u x HC (HI k (or_introl eq_refl)) HT E1 E2 E3). cbn [bind] in *.
      destruct x; [|exact H]. apply IH; [|exact H]. intros y Y. apply HI. right. exact Y. }
    destruct (compare_keys py_str key_order (gd g) (gd h)) as [x| |] eqn:EK; try discriminate. rewrite (K x eq_refl). cbn [bind].
    destruct x; [|congruence]. destruct (alookup "shape" (gd g)), (alookup "shape" (gd h)); try congruence. rewrite py_eq_sym. congruence.
  Qed.

  Lemma both_sym eps d1 d2 g h n1 w1 s1 e1 x1 n2 w2 s2 e2 x2 b c :
    from_dict d1 = Ok g -> from_dict d2 = Ok h -> cls g = LL \/ cls g = RGG -> cls h = LL \/ cls h = RGG ->
    limits g n1 w1 s1 e1 -> limits h n2 w2 s2 e2 -> increment g x1 -> (x1 <= 360)%R -> increment h x2 -> (x2 <= 360)%R ->
    enough fuel w1 -> enough fuel e1 -> enough fuel w2 -> enough fuel e2 -> good (NF eps) ->
    snd (both_global fuel g h eps) = Ok b -> snd (both_global fuel h g eps) = Ok c -> b = c.
  Proof. clear py_str.
    intros H1 H2 C1 C2 L1 L2 I1 X1 I2 X2 F1 F2 F3 F4 Ge. unfold both_global.
    destruct (ew_real fuel d1 g n1 w1 s1 e1 x1) as (g' & b1 & -> & _); try assumption.
    destruct (ew_real fuel d2 h n2 w2 s2 e2 x2) as (h' & b2 & -> & _); try assumption.
    destruct b1, b2; cbn [snd]; try congruence.
    destruct L1 as (vn & vw & vs & ve & EA & Nn & Nw & Ns & Ne), L2 as (vn2 & vw2 & vs2 & ve2 & EA2 & Nn2 & Nw2 & Ns2 & Ne2).
    unfold area_at, dget, index. rewrite EA, EA2. cbn [bind elems nth_error].
    destruct (normalise_number fuel vw w1 Nw F1) as (bw & Ebw & Gbw & Rbw).
    destruct (normalise_number fuel vw2 w2 Nw2 F3) as (bv & Ebv & Gbv & Rbv).
    rewrite Ebw, Ebv. cbn [bind].
    pose proof (norm_range w1) as N1. pose proof (norm_range w2) as N2. rewrite <- Rbw in N1. rewrite <- Rbv in N2.
    destruct (nsub_rnd bw bv Gbw Gbv) as (dd & Ed & Gd & Rd).
    { apply Rabs_le. change (IZR (2 ^ 53)) with 9007199254740992%R. lra. }
    destruct (nsub_rnd bv bw Gbv Gbw) as (de & Ee & Gde & Rde).
    { apply Rabs_le. change (IZR (2 ^ 53)) with 9007199254740992%R. lra. }
    rewrite Ed, Ee. cbn [bind]. intros Q1 Q2. inversion Q1 as [Q1']. inversion Q2 as [Q2'].
    pose proof (nltb_real (nabs dd) (NF eps) (nabs_good _ Gd) Ge) as T1. pose proof (nltb_real (nabs de) (NF eps) (nabs_good _ Gde) Ge) as T2.
    rewrite nabs_real, Rd in T1. rewrite nabs_real, Rde, rnd_sym in T2.
    destruct (nltb (nabs dd) (NF eps)), (nltb (nabs de) (NF eps)); intuition congruence.
  Qed.

  Lemma symmetric d1 d2 g h b c :
    NoDup (akeys d1) -> NoDup (akeys d2) -> from_dict d1 = Ok g -> from_dict d2 = Ok h -> comparable g h -> incl key_order COMPARE_KEYS ->
    (cls g = LL \/ cls g = RGG -> exists n w s e x, limits g n w s e /\ increment g x /\ (x <= 360)%R /\ enough fuel w /\ enough fuel e) ->
    (cls h = LL \/ cls h = RGG -> exists n w s e x, limits h n w s e /\ increment h x /\ (x <= 360)%R /\ enough fuel w /\ enough fuel e) ->
    snd (eq py_str key_order fuel g h) = Ok b -> snd (eq py_str key_order fuel h g) = Ok c -> b = c.
  Proof.
    intros N1 N2 H1 H2 HC HI A1 A2.
    assert (HT : exists s t, alookup "type" (gd g) = Some (VStr s) /\ alookup "type" (gd h) = Some (VStr t)).
    { exists (type_name (cls g)), (type_name (cls h)). rewrite (contents_ok d1 g _ N1 H1), (contents_ok d2 h _ N2 H2). split; reflexivity. }
    intros E1 E2. unfold eq in E1, E2.
    destruct (eq_base py_str key_order g h) as [x| |] eqn:B1; try discriminate E1.
    destruct (eq_base py_str key_order h g) as [y| |] eqn:B2; try discriminate E2.
    pose proof (base_sym g h x y HC HI HT B1 B2) as <-. destruct x; [|cbn in *; congruence].
    pose proof (match_type py_str key_order d1 d2 g h N1 N2 H1 H2 B1) as CC.
    rewrite CC in E1. destruct (cls h) eqn:EC.
    - destruct (A1 ltac:(auto)) as (n1 & w1 & s1 & e1 & x1 & L1 & I1 & X1 & F1 & F2). destruct (A2 ltac:(auto)) as (n2 & w2 & s2 & e2 & x2 & L2 & I2 & X2 & F3 & F4).
      destruct DEG_real as [GD _].
      pose proof L1 as (vn & vw & vs & ve & EA & Nn & Nw & Ns & Ne). pose proof L2 as (vn2 & vw2 & vs2 & ve2 & EA2 & Nn2 & Nw2 & Ns2 & Ne2).
      unfold area_at, dget, index in E1, E2. rewrite EA, EA2 in E1, E2. cbn [bind elems nth_error] in E1, E2.
      unfold same_area in E1, E2. cbn [elems bind List.length Nat.eqb all_same] in E1, E2.
      destruct (same_coord_real vn vn2 n1 n2 DEGREE_EPS Nn Nn2 GD) as (b1 & Q1 & _), (same_coord_real vn2 vn n2 n1 DEGREE_EPS Nn2 Nn GD) as (c1 & P1 & _).
      destruct (same_coord_real vw vw2 w1 w2 DEGREE_EPS Nw Nw2 GD) as (b2 & Q2 & _), (same_coord_real vw2 vw w2 w1 DEGREE_EPS Nw2 Nw GD) as (c2 & P2 & _).
      destruct (same_coord_real vs vs2 s1 s2 DEGREE_EPS Ns Ns2 GD) as (b3 & Q3 & _), (same_coord_real vs2 vs s2 s1 DEGREE_EPS Ns2 Ns GD) as (c3 & P3 & _).
      destruct (same_coord_real ve ve2 e1 e2 DEGREE_EPS Ne Ne2 GD) as (b4 & Q4 & _), (same_coord_real ve2 ve e2 e1 DEGREE_EPS Ne2 Ne GD) as (c4 & P4 & _).
      rewrite Q1, Q2, Q3, Q4 in E1. rewrite P1, P2, P3, P4 in E2. cbn [bind] in E1, E2.
      pose proof (same_coord_sym _ _ _ _ _ _ _ Nn Nn2 GD Q1 P1) as <-. pose proof (same_coord_sym _ _ _ _ _ _ _ Nw Nw2 GD Q2 P2) as <-.
      pose proof (same_coord_sym _ _ _ _ _ _ _ Ns Ns2 GD Q3 P3) as <-. pose proof (same_coord_sym _ _ _ _ _ _ _ Ne Ne2 GD Q4 P4) as <-.
      assert (BS : forall b c, snd (both_global fuel g h DEGREE_EPS) = Ok b -> snd (both_global fuel h g DEGREE_EPS) = Ok c -> b = c)
        by (intros b0 c0; eapply both_sym; eauto).
      destruct b1, b2, b3, b4; cbn [bind snd] in E1, E2; try congruence; exact (BS _ _ E1 E2).
    - destruct (A1 ltac:(auto)) as (n1 & w1 & s1 & e1 & x1 & L1 & I1 & X1 & F1 & F2). destruct (A2 ltac:(auto)) as (n2 & w2 & s2 & e2 & x2 & L2 & I2 & X2 & F3 & F4).
      destruct RGGEPS_real as [GD _].
      pose proof L1 as (vn & vw & vs & ve & EA & Nn & Nw & Ns & Ne). pose proof L2 as (vn2 & vw2 & vs2 & ve2 & EA2 & Nn2 & Nw2 & Ns2 & Ne2).
      unfold dget in E1, E2. rewrite EA, EA2 in E1, E2. cbn [bind] in E1, E2.
      unfold same_area in E1, E2. cbn [elems bind List.length Nat.eqb all_same] in E1, E2.
      destruct (same_coord_real vn vn2 n1 n2 RGG_EPS Nn Nn2 GD) as (b1 & Q1 & _), (same_coord_real vn2 vn n2 n1 RGG_EPS Nn2 Nn GD) as (c1 & P1 & _).
      destruct (same_coord_real vw vw2 w1 w2 RGG_EPS Nw Nw2 GD) as (b2 & Q2 & _), (same_coord_real vw2 vw w2 w1 RGG_EPS Nw2 Nw GD) as (c2 & P2 & _).
      destruct (same_coord_real vs vs2 s1 s2 RGG_EPS Ns Ns2 GD) as (b3 & Q3 & _), (same_coord_real vs2 vs s2 s1 RGG_EPS Ns2 Ns GD) as (c3 & P3 & _).
      destruct (same_coord_real ve ve2 e1 e2 RGG_EPS Ne Ne2 GD) as (b4 & Q4 & _), (same_coord_real ve2 ve e2 e1 RGG_EPS Ne2 Ne GD) as (c4 & P4 & _).
      rewrite Q1, Q2, Q3, Q4 in E1. rewrite P1, P2, P3, P4 in E2. cbn [bind] in E1, E2.
      pose proof (same_coord_sym _ _ _ _ _ _ _ Nn Nn2 GD Q1 P1) as <-. pose proof (same_coord_sym _ _ _ _ _ _ _ Nw Nw2 GD Q2 P2) as <-.
      pose proof (same_coord_sym _ _ _ _ _ _ _ Ns Ns2 GD Q3 P3) as <-. pose proof (same_coord_sym _ _ _ _ _ _ _ Ne Ne2 GD Q4 P4) as <-.
      assert (BS : forall b c, snd (both_global fuel g h RGG_EPS) = Ok b -> snd (both_global fuel h g RGG_EPS) = Ok c -> b = c)
        by (intros b0 c0; eapply both_sym; eauto).
      destruct b1, b2, b3, b4; cbn [bind snd] in E1, E2; try congruence; exact (BS _ _ E1 E2).
    - cbn [snd] in *. destruct (order g) as [o1| |]; try discriminate. destruct (order h) as [o2| |]; try discriminate. cbn [bind] in *.
      rewrite py_eq_sym in E2. congruence.
    - cbn in *. congruence.
  Qed.
End Sym.
