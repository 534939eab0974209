(** C23-C29, C70: grid specifications (gridspec.py). *)
From Coq Require Import Reals Psatz.
From Verif Require Import PyBase ListLemmas PyStr Float64 GridSpec GridVocab GridProofs GridProofs2 GridProofs3
  FloatReal GridLon GridMatchSpec GridReal GridMatch GridMatch2 GridMatch3 GridDecide.
Local Open Scope string_scope.
Local Open Scope list_scope.
Local Open Scope Z_scope.

(** ** C23: normalisation.  The argument is not changed because the model, like the code, works
    on a copy: nothing is returned but the specification. *)
Theorem C23_contents d g k : NoDup (akeys d) -> from_dict d = Ok g ->
  alookup k (gd g) = contents (table_of d) (cls g) d k.
Proof. exact (contents_ok d g k). Qed.
Theorem C23_key_order d e : NoDup (akeys d) -> NoDup (akeys e) -> same_dict d e ->
  same_result (from_dict d) (from_dict e).
Proof. exact (key_order_free d e). Qed.
Theorem C23_key_order_matching py_str key_order fuel g g' h h' : same_spec g g' -> same_spec h h' ->
  snd (eq py_str key_order fuel g h) = snd (eq py_str key_order fuel g' h').
Proof. exact (eq_same py_str key_order fuel g g' h h'). Qed.
Theorem C23_tuples d : from_dict (normalise d) = from_dict d.
Proof. exact (tuple_free d). Qed.
Theorem C23_idempotent d g : NoDup (akeys d) -> from_dict d = Ok g -> same_result (from_dict (gd g)) (Ok g).
Proof. exact (idempotent d g). Qed.

(** The area of a global grid given by its increments alone. *)
Theorem C23_table d x y : alookup "grid" d = Some (VList [x; y]) ->
  (forall k, In k increments -> x = degrees k -> y = degrees k -> py_eq (table_of d) (aligned_area k) = true) /\
  ((forall k, In k increments -> py_eq x (degrees k) = false \/ py_eq y (degrees k) = false) -> table_of d = whole_globe).
Proof.
  intros G. unfold table_of, given. rewrite G. cbn [option_map untuple]. split.
  - clear G. intros k I -> ->. revert k I.
    assert (A : forallb (fun k => py_eq (table_area (degrees k) (degrees k)) (aligned_area k)) increments = true) by (vm_compute; reflexivity).
    rewrite forallb_forall in A. exact A.
  - intros H. unfold table_area. destruct (find _ GLOBAL_AREAS) as [[k a]|] eqn:F; [|reflexivity]. exfalso.
    apply find_some in F. destruct F as [I E]. apply andb_prop in E. destruct E as [E1 E2]. cbn [fst] in E1, E2.
    assert (K : exists j, In j increments /\ k = degrees j).
    { apply (in_map fst) in I. cbn [fst] in I. assert (Q : map fst GLOBAL_AREAS = map degrees increments) by (vm_compute; reflexivity).
      rewrite Q in I. apply in_map_iff in I. destruct I as (j & <- & I). eauto. }
    destruct K as (j & J & ->). destruct (H j J); congruence.
Qed.

Definition one_degree : dict := [("grid", VTup [VInt 1; VInt 1])].
Example C23_example : exists g, from_dict one_degree = Ok g /\ cls g = LL /\
  alookup "area" (gd g) = Some (VList [VInt 90; VInt 0; VInt (-90); VInt 359]) /\
  alookup "j_points_consecutive" (gd g) = Some (VInt 0).
Proof. eexists. split; [vm_compute; reflexivity|]. repeat split; reflexivity. Qed.

(** ** C24: inference of the class *)
Theorem C24_at_most_one v c c' : describes v c -> describes v c' -> c = c'.
Proof. intros A B. exact (accepted_unique v c c' (or_introl A) (or_introl B)). Qed.
Theorem C24_inferred_partial d v c : NoDup (akeys d) -> untyped d -> alookup "grid" d = Some v -> describes v c ->
  (forall x y, v = VList [x; y] \/ v = VTup [x; y] -> hashable x = true /\ hashable y = true) ->
  (forall a, alookup "area" d = Some a -> numbers_ok a) ->
  exists g, from_dict d = Ok g /\ cls g = c.
Proof. intros N U G D. exact (untyped_built d v c N U G (or_introl D)). Qed.
(** Anything else is refused, but for an ORCA name followed by a newline. *)
Theorem C24_refused_partial d v : NoDup (akeys d) -> untyped d -> alookup "grid" d = Some v ->
  (forall c, ~ describes v c) -> (forall s, v = VStr (s ++ String newline "") -> ~ orca_name s) ->
  from_dict d = Raise ValueError.
Proof.
  intros N U G D L. apply (untyped_other d v N U G). intros c [H|(-> & s & E & H)]; [exact (D c H)|exact (L s E H)].
Qed.
Theorem C24_no_grid d : NoDup (akeys d) -> untyped d -> alookup "grid" d = None -> from_dict d = Raise KeyError.
Proof. exact (untyped_nogrid d). Qed.
Theorem C24_explicit d s g : NoDup (akeys d) -> alookup "type" d = Some (VStr s) -> from_dict d = Ok g -> type_name (cls g) = s.
Proof. exact (typed_class d s g). Qed.
Theorem C24_explicit_unknown d s : NoDup (akeys d) -> alookup "type" d = Some (VStr s) ->
  ~ In s ["regular_ll"; "reduced_gg"; "healpix"; "orca"] -> from_dict d = Raise ValueError.
Proof. exact (typed_unknown d s). Qed.
(** A name with a newline at the end describes no grid, yet is taken for an ORCA grid. *)
Definition orca_newline : string := ("ORCA1_T" ++ String newline "")%string.
Theorem C24_newline_refuted :
  (forall c, ~ describes (VStr orca_newline) c) /\
  exists g, from_dict [("grid", VStr orca_newline)] = Ok g /\ cls g = ORCA.
Proof.
  split; [|eexists; split; [vm_compute; reflexivity|reflexivity]].
  intros c H. assert (A : accepted (VStr orca_newline) c) by (left; exact H).
  assert (B : accepted (VStr orca_newline) ORCA).
  { right. split; [reflexivity|]. exists "ORCA1_T". split; [reflexivity|].
    exists "", ["1"%char], "T"%char. split; [reflexivity|]. split; [cbn; auto|]. split; [discriminate|].
    split; [repeat constructor|]. cbn; auto. }
  pose proof (accepted_unique _ _ _ A B) as ->. inversion H; subst.
  match goal with O : orca_name _ |- _ => destruct O as (e & ds & f & E & I & _ & _ & IF) end.
  (* the last character of an ORCA name is a letter *)
  assert (LA : forall s, chars orca_newline = s ++ [f] -> f = newline).
  { intros s Q. change (chars orca_newline) with (chars "ORCA1_T" ++ [newline]) in Q. apply app_inj_tail in Q. symmetry. apply Q. }
  rewrite (LA (chars e ++ chars "ORCA" ++ ds ++ ["_"%char])) in IF.
  - cbn in IF. intuition discriminate.
  - rewrite E, !chars_app, chars_of_chars, <- !app_assoc. reflexivity.
Qed.
Example C24_example : exists g, from_dict [("grid", VStr "O320")] = Ok g /\ cls g = RGG.
Proof.
  apply (C24_inferred_partial _ (VStr "O320") RGG).
  - repeat constructor; cbn; tauto.
  - left. reflexivity.
  - reflexivity.
  - constructor. exists "O"%char, "3"%char, "20". split; [reflexivity|]. split; [cbn; auto|reflexivity].
  - intros x y [E|E]; discriminate.
  - discriminate.
Qed.

(** ** C25: reflexivity *)
Theorem C25_self_match py_str key_order fuel d g :
  NoDup (akeys d) -> from_dict d = Ok g -> ordinary g -> incl key_order COMPARE_KEYS ->
  snd (eq py_str key_order fuel g g) = Ok true.
Proof. intros N H O I. rewrite (reflexive py_str key_order fuel d g N H O I). reflexivity. Qed.
Example C25_example : exists g, from_dict [("grid", VList [VFloat (lit 1 10); VInt 1]); ("area", VList [VFloat (lit 5 2); VInt 0; VInt (-3); VInt 9])] = Ok g /\ ordinary g.
Proof.
  eexists. split; [vm_compute; reflexivity|]. constructor; cbn.
  - eexists. split; [reflexivity|]. split; [repeat split; discriminate|]. intros l E. inversion E; subst.
    repeat constructor; cbn; lia.
  - intros k [<-|[<-|[<-|[]]]]; eexists; split; [reflexivity|exact I|reflexivity|exact I|reflexivity|exact I].
  - discriminate.
  - intros _. eexists. split; [reflexivity|]. repeat constructor.
  - discriminate.
Qed.

(** ** C26: symmetry and transitivity *)
Theorem C26_symmetric_partial py_str key_order fuel d1 d2 g h b c :
  NoDup (akeys d1) -> NoDup (akeys d2) -> from_dict d1 = Ok g -> from_dict d2 = Ok h -> comparable g h -> incl key_order COMPARE_KEYS ->
  (cls g = LL \/ cls g = RGG -> exists n w s e x, limits g n w s e /\ increment g x /\ (x <= 360)%R /\ enough fuel w /\ enough fuel e) ->
  (cls h = LL \/ cls h = RGG -> exists n w s e x, limits h n w s e /\ increment h x /\ (x <= 360)%R /\ enough fuel w /\ enough fuel e) ->
  snd (eq py_str key_order fuel g h) = Ok b -> snd (eq py_str key_order fuel h g) = Ok c -> b = c.
Proof. exact (symmetric py_str key_order fuel d1 d2 g h b c). Qed.
(** HEALPix and ORCA grids with integer flags: matching is equality of the kind, of the lower-case
    name, of the ordering, of the flags and of the shapes if both are given. *)
Theorem C26_named py_str key_order fuel d1 d2 g h orca orca' s t o o' fl fl' sh sh' :
  NoDup (akeys d1) -> NoDup (akeys d2) -> from_dict d1 = Ok g -> from_dict d2 = Ok h ->
  incl COMPARE_KEYS key_order -> incl key_order COMPARE_KEYS ->
  describes_grid g (mkGrid (Named orca s o) fl sh) -> describes_grid h (mkGrid (Named orca' t o') fl' sh') ->
  exists b, snd (eq py_str key_order fuel g h) = Ok b /\
   (b = true <-> orca = orca' /\ lower s = lower t /\ o = o' /\ (forall k, In k flags -> fl k = fl' k) /\
                 (forall l m, sh = Some l -> sh' = Some m -> l = m)).
Proof.
  intros N1 N2 H1 H2 I1 I2 D1 D2. destruct (decide py_str key_order fuel d1 d2 g h _ _ N1 N2 H1 H2 I1 I2 D1 D2 I I) as (b & E & T & F).
  unfold same_grid, near_grid, agree in T, F. cbn [geometry scanning sizes] in T, F. exists b. split; [exact E|]. split; [intros B; specialize (F B)|intros Q; apply T]; tauto.
Qed.

Definition matches (fuel : nat) (d e : dict) : result bool :=
  g <- from_dict d ;; h <- from_dict e ;; snd (eq (fun _ => "") COMPARE_KEYS fuel g h).
(** numpy.allclose scales its tolerance by the second argument. *)
Definition grid_a : dict := [("grid", VList [VInt 1; VInt 1])].
Definition grid_b : dict := [("grid", VList [VFloat (lit 10000110001 10000000000); VInt 1]); ("area", VList [VInt 90; VInt 0; VInt (-90); VInt 359])].
Theorem C26_symmetric_refuted : matches 10 grid_a grid_b = Ok true /\ matches 10 grid_b grid_a = Ok false.
Proof. split; vm_compute; reflexivity. Qed.
Definition area_n (n : val) : dict := [("grid", VList [VInt 1; VInt 1]); ("area", VList [n; VInt 0; VInt 0; VInt 10])].
Theorem C26_transitive_refuted :
  let a := area_n (VInt 90) in
  let b := area_n (VFloat (lit 89999999991 1000000000)) in
  let c := area_n (VFloat (lit 89999999982 1000000000)) in
  matches 10 a b = Ok true /\ matches 10 b c = Ok true /\ matches 10 a c = Ok false.
Proof. vm_compute. repeat split; reflexivity. Qed.
(** A missing shape matches any shape. *)
Definition shaped (s : Z) : dict := [("grid", VStr "eORCA025_T"); ("shape", VList [VInt s; VInt s])].
Theorem C26_transitive_shape_refuted :
  let b := [("grid", VStr "eORCA025_T")] in
  matches 10 (shaped 1) b = Ok true /\ matches 10 b (shaped 2) = Ok true /\ matches 10 (shaped 1) (shaped 2) = Ok false.
Proof. vm_compute. repeat split; reflexivity. Qed.
Example C26_named_example : exists g, from_dict [("grid", VStr "H16"); ("ordering", VStr "nested"); ("shape", VList [VInt 3072])] = Ok g /\
  describes_grid g (mkGrid (Named false "H16" "nested") (fun _ => 0) (Some [3072])).
Proof.
  eexists. split; [vm_compute; reflexivity|]. constructor; cbn.
  - split; [reflexivity|]. split; [reflexivity|]. split; [reflexivity|]. split; [auto|]. exists "H"%char, ["1"; "6"]%char.
    split; [reflexivity|]. split; [cbn; auto|]. split; [discriminate|]. split; [repeat constructor|]. cbn. lia.
  - intros k [<-|[<-|[<-|[]]]]; (eexists; split; reflexivity).
  - reflexivity.
Qed.

(** ** C27: normalise_lon.  The code calls it with minimum 0 only. *)
Theorem C27_normalise_partial v x : number v x ->
  exists N, forall fuel, (N <= fuel)%nat ->
  exists b, normalise_lon fuel v 0 = Ok b /\ good b /\ (0 <= N2R b < 360)%R /\
    (exists k, (Rabs (N2R b - x - 360 * IZR k) <= U)%R).
Proof.
  intros H. pose proof (Rabs_pos x) as P. destruct (archimed (Rabs x + 720)) as [A _].
  exists (Z.to_nat (up (Rabs x + 720))). intros fuel L.
  assert (E : enough fuel x).
  { unfold enough. assert (IZR (up (Rabs x + 720)) <= IZR (Z.of_nat fuel))%R by (apply IZR_le; lia). lra. }
  destruct (normalise_number fuel v x H E) as (b & Eb & Gb & Rb). exists b. split; [exact Eb|]. split; [exact Gb|].
  rewrite Rb. split; [apply norm_range|apply norm_near].
Qed.
(** Longitudes that are not negative lose nothing. *)
Theorem C27_exact_partial v x : number v x -> (0 <= x)%R ->
  exists N, forall fuel, (N <= fuel)%nat -> exists b, normalise_lon fuel v 0 = Ok b /\ N2R b = mod360 x.
Proof.
  intros (a & Ea & Ga & Ra & Ba) P. nums. destruct (archimed (Rabs x + 720)) as [A _]. rewrite Rabs_pos_eq in A, Ba by exact P.
  exists (Z.to_nat (up (x + 720)) + 1)%nat. intros fuel L. destruct fuel as [|n]; [lia|].
  assert (B : (IZR (up (x + 720)) <= IZR (Z.of_nat n))%R) by (apply IZR_le; lia).
  change (IZR (2 ^ 52)) with 4503599627370496%R in Ba.
  unfold normalise_lon, normalise_num. rewrite Ea.
  destruct (lon_up_real n a Ga) as (b & Eb & Gb & Sb & _).
  { rewrite Ra. change (IZR (2 ^ 53)) with 9007199254740992%R. lra. }
  { rewrite Ra. assert (0 <= IZR (Z.of_nat n))%R by (apply IZR_le; lia). lra. }
  rewrite Eb. rewrite (Sb ltac:(rewrite Ra; exact P)). cbn [bind].
  destruct (lon_down_real n a Ga) as (c & Ec & Gc & Rc).
  { rewrite Ra. change (IZR (2 ^ 53)) with 9007199254740992%R. lra. }
  { rewrite Ra. rewrite Nat2Z.inj_succ, succ_IZR. lra. }
  exists c. rewrite Rc, Ra. auto.
Qed.
(** From 2^63 on, taking 360 off changes nothing: the loop never ends. *)
Definition two63 : f64 := of_Z (2 ^ 63).
Theorem C27_never_ends_refuted : forall fuel, normalise_lon fuel (VFloat two63) 0 = OutOfFuel.
Proof.
  intros fuel. unfold normalise_lon, normalise_num. cbn [as_num]. destruct fuel as [|n]; [reflexivity|].
  assert (B0 : nltb (NF two63) (NI 0) = false) by (vm_compute; reflexivity).
  assert (L : lon_up (S n) (NF two63) (NI 0) = Ok (NF two63)) by (cbn [lon_up]; rewrite B0; reflexivity). rewrite L. cbn [bind]. clear L.
  assert (A : nadd (NI 0) (NF FULL_GLOBE) = Ok (NF FULL_GLOBE)) by (vm_compute; reflexivity).
  assert (B : ngeb (NF two63) (NF FULL_GLOBE) = true) by (vm_compute; reflexivity).
  assert (C : nsub (NF two63) (NF FULL_GLOBE) = Ok (NF two63)) by (vm_compute; reflexivity).
  assert (S1 : forall m, lon_down (S m) (NF two63) (NI 0) = lon_down m (NF two63) (NI 0)).
  { intros m. cbn [lon_down]. rewrite A. cbn [bind]. rewrite B, C. reflexivity. }
  induction n as [|n IH]; rewrite S1; [reflexivity|exact IH].
Qed.
(** An integer beyond all floats is an error that no caller expects. *)
Theorem C27_overflow_refuted : forall z fuel, (2 ^ 1024 <= Z.abs z)%Z -> normalise_lon (S fuel) (VInt z) 0 = Raise OverflowError.
Proof.
  intros z fuel H. unfold normalise_lon, normalise_num. cbn [as_num lon_up].
  assert (B : (360 < 2 ^ 1024)%Z) by (vm_compute; reflexivity).
  destruct (nltb (NI z) (NI 0)) eqn:L.
  - unfold nadd. cbn [to_float]. rewrite int_float_beyond by exact H. reflexivity.
  - cbn [bind lon_down]. assert (A : nadd (NI 0) (NF FULL_GLOBE) = Ok (NF FULL_GLOBE)) by (vm_compute; reflexivity). rewrite A. cbn [bind].
    assert (P : (0 <= z)%Z). { destruct (Z.leb_spec 0 z) as [P|P]; [exact P|]. exfalso. unfold nltb in L. cbn [ncompare] in L. apply Z.compare_lt_iff in P. rewrite P in L. discriminate L. }
    assert (G : ngeb (NI z) (NF FULL_GLOBE) = true).
    { assert (F : FULL_GLOBE = S754_finite false 6333186975989760 (-44)) by (vm_compute; reflexivity).
      unfold ngeb, ncompare, compare_Z. rewrite F. change (0 <=? -44)%Z with false. cbv iota.
      assert (Q : (z * 2 ^ (- -44) ?= cond_Zopp false (Z.pos 6333186975989760))%Z = Gt).
      { apply Z.compare_gt_iff. change (cond_Zopp false (Z.pos 6333186975989760)) with (360 * 2 ^ 44)%Z. change (- -44)%Z with 44%Z. lia. }
      rewrite Q. reflexivity. }
    rewrite G. unfold nsub. cbn [to_float]. rewrite int_float_beyond by exact H. reflexivity.
Qed.
(** A tiny negative longitude becomes 0. *)
Theorem C27_inexact_refuted : normalise_lon 3 (VFloat (lit (-1) (10 ^ 20))) 0 = Ok (NF (of_Z 0)).
Proof. vm_compute. reflexivity. Qed.
Example C27_example : number (VFloat (lit (-5) 2)) (-5 / 2)%R.
Proof.
  assert (E : lit (-5) 2 = S754_finite true 5629499534213120 (-51)) by (vm_compute; reflexivity).
  exists (NF (lit (-5) 2)). split; [reflexivity|]. rewrite E. split; [split; reflexivity|]. split.
  - cbn. unfold F2Rv, Flocq.IEEE754.BinarySingleNaN.SF2R, Flocq.Core.Defs.F2R. cbn. lra.
  - rewrite Rabs_left by lra. change (IZR (2 ^ 52)) with 4503599627370496%R. lra.
Qed.

(** ** C28: equivalent global areas match *)
Theorem C28_global_lat_lon py_str key_order fuel d1 d2 g h n1 w1 s1 e1 x1 n2 w2 s2 e2 x2 :
  NoDup (akeys d1) -> NoDup (akeys d2) ->
  from_dict d1 = Ok g -> from_dict d2 = Ok h -> cls g = LL -> ordinary g -> alike g h -> incl key_order COMPARE_KEYS ->
  limits g n1 w1 s1 e1 -> limits h n2 w2 s2 e2 -> increment g x1 -> (x1 <= 360)%R -> increment h x2 -> (x2 <= 360)%R ->
  enough fuel w1 -> enough fuel e1 -> enough fuel w2 -> enough fuel e2 ->
  (Rabs (n1 - n2) <= 0.000000009)%R -> (Rabs (s1 - s2) <= 0.000000009)%R -> congruent w1 w2 ->
  declared g \/ full_extent 0.000000009 w1 e1 x1 -> declared h \/ full_extent 0.000000009 w2 e2 x2 ->
  snd (eq py_str key_order fuel g h) = Ok true.
Proof.
  intros N1 N2 H1 H2 C O A I. assert (TY : alookup "type" (gd g) = Some (VStr (type_name (cls g)))) by (rewrite (contents_ok d1 g _ N1 H1); reflexivity).
  apply (global_LL py_str key_order fuel d1 d2 g h n1 w1 s1 e1 x1 n2 w2 s2 e2 x2 H1 H2 C).
  - destruct A as [A _]. congruence.
  - exact (base_alike py_str key_order g h I TY (o_grid g O) (o_flags g O) (o_shape g O) A).
Qed.
Theorem C28_global_gaussian py_str key_order fuel d1 d2 g h n1 w1 s1 e1 x1 n2 w2 s2 e2 x2 :
  NoDup (akeys d1) -> NoDup (akeys d2) ->
  from_dict d1 = Ok g -> from_dict d2 = Ok h -> cls g = RGG -> ordinary g -> alike g h -> incl key_order COMPARE_KEYS ->
  limits g n1 w1 s1 e1 -> limits h n2 w2 s2 e2 -> increment g x1 -> increment h x2 ->
  enough fuel w1 -> enough fuel e1 -> enough fuel w2 -> enough fuel e2 -> congruent w1 w2 ->
  declared g \/ full_extent 0.000000009 w1 e1 x1 -> declared h \/ full_extent 0.000000009 w2 e2 x2 ->
  snd (eq py_str key_order fuel g h) = Ok true.
Proof.
  intros N1 N2 H1 H2 C O A I. assert (TY : alookup "type" (gd g) = Some (VStr (type_name (cls g)))) by (rewrite (contents_ok d1 g _ N1 H1); reflexivity).
  apply (global_RGG py_str key_order fuel d1 d2 g h n1 w1 s1 e1 x1 n2 w2 s2 e2 x2 H1 H2 C).
  - destruct A as [A _]. congruence.
  - exact (base_alike py_str key_order g h I TY (o_grid g O) (o_flags g O) (o_shape g O) A).
Qed.
Lemma int_number z : Z.abs z <= 2 ^ 52 -> number (VInt z) (IZR z).
Proof. intros H. exists (NI z). split; [reflexivity|]. split; [cbn; lia|]. split; [reflexivity|]. rewrite <- abs_IZR. apply IZR_le. lia. Qed.
(** 1 degree: the default, and the area 90/-360/-90/-1. *)
Example C28_example : exists g h,
  from_dict one_degree = Ok g /\
  from_dict [("grid", VList [VInt 1; VInt 1]); ("area", VList [VInt 90; VInt (-360); VInt (-90); VInt (-1)])] = Ok h /\
  alike g h /\ limits g 90 0 (-90) 359 /\ limits h 90 (-360) (-90) (-1) /\ increment g 1 /\ increment h 1 /\
  congruent 0 (-360) /\ full_extent 0.000000009 0 359 1 /\ full_extent 0.000000009 (-360) (-1) 1.
Proof.
  eexists. eexists. split; [vm_compute; reflexivity|]. split; [vm_compute; reflexivity|].
  split. { split; [reflexivity|]. intros k A B. cbn. rewrite (proj2 (String.eqb_neq k "area") A), (proj2 (String.eqb_neq k "global") B). reflexivity. }
  split. { do 4 eexists. split; [reflexivity|]. split; [apply (int_number 90); lia|]. split; [apply (int_number 0); lia|]. split; [apply (int_number (-90)); lia|apply (int_number 359); lia]. }
  split. { do 4 eexists. split; [reflexivity|]. split; [apply (int_number 90); lia|]. split; [apply (int_number (-360)); lia|]. split; [apply (int_number (-90)); lia|apply (int_number (-1)); lia]. }
  split. { cbn. do 3 eexists. split; [reflexivity|]. split; [apply (int_number 1); lia|]. rewrite Rabs_pos_eq; lra. }
  split. { cbn. do 3 eexists. split; [reflexivity|]. split; [apply (int_number 1); lia|]. rewrite Rabs_pos_eq; lra. }
  split; [exists 1; lra|].
  split; [exists 1; right; rewrite Rabs_pos_eq; lra|exists 1; right; rewrite Rabs_pos_eq; lra].
Qed.

(** ** C29: what a match implies *)
Section C29.
  Variables (py_str : val -> string) (key_order : list string) (fuel : nat).
  Theorem C29_type d1 d2 g h : NoDup (akeys d1) -> NoDup (akeys d2) -> from_dict d1 = Ok g -> from_dict d2 = Ok h ->
    snd (eq py_str key_order fuel g h) = Ok true -> cls g = cls h.
  Proof. intros A B C D H. exact (match_type py_str key_order d1 d2 g h A B C D (eq_true_base _ _ _ _ _ H)). Qed.
  Theorem C29_names g h s t : incl COMPARE_KEYS key_order -> snd (eq py_str key_order fuel g h) = Ok true ->
    alookup "grid" (gd g) = Some (VStr s) -> alookup "grid" (gd h) = Some (VStr t) -> lower s = lower t.
  Proof. intros I H. exact (match_names py_str key_order g h s t I (eq_true_base _ _ _ _ _ H)). Qed.
  Theorem C29_increments g h x1 x2 y1 y2 a1 a2 b1 b2 : incl COMPARE_KEYS key_order -> snd (eq py_str key_order fuel g h) = Ok true ->
    alookup "grid" (gd g) = Some (VList [x1; x2]) -> alookup "grid" (gd h) = Some (VList [y1; y2]) ->
    small_number x1 a1 -> small_number x2 a2 -> small_number y1 b1 -> small_number y2 b2 ->
    (Rabs (a1 - b1) <= 0.000001 + 0.00001 * Rabs b1 + 0.000000001)%R /\
    (Rabs (a2 - b2) <= 0.000001 + 0.00001 * Rabs b2 + 0.000000001)%R.
  Proof. intros I H. exact (match_increments py_str key_order g h x1 x2 y1 y2 a1 a2 b1 b2 I (eq_true_base _ _ _ _ _ H)). Qed.
  Theorem C29_flags g h k z y : incl COMPARE_KEYS key_order -> snd (eq py_str key_order fuel g h) = Ok true -> In k flags ->
    flag g k z -> flag h k y -> z = y.
  Proof. intros I H. exact (match_flags py_str key_order g h k z y I (eq_true_base _ _ _ _ _ H)). Qed.
  Theorem C29_shape g h v u : snd (eq py_str key_order fuel g h) = Ok true ->
    alookup "shape" (gd g) = Some v -> alookup "shape" (gd h) = Some u -> py_eq v u = true.
  Proof. intros H. exact (match_shapes py_str key_order g h v u (eq_true_base _ _ _ _ _ H)). Qed.
  Theorem C29_limits_lat_lon d1 d2 g h n1 w1 s1 e1 x1 n2 w2 s2 e2 x2 :
    from_dict d1 = Ok g -> from_dict d2 = Ok h -> cls g = LL -> cls h = LL ->
    limits g n1 w1 s1 e1 -> limits h n2 w2 s2 e2 -> increment g x1 -> (x1 <= 360)%R -> increment h x2 -> (x2 <= 360)%R ->
    enough fuel w1 -> enough fuel e1 -> enough fuel w2 -> enough fuel e2 ->
    snd (eq py_str key_order fuel g h) = Ok true ->
    (Rabs (n1 - n2) < 0.000000011 /\ Rabs (s1 - s2) < 0.000000011 /\
    ((Rabs (w1 - w2) < 0.000000011 /\ Rabs (e1 - e2) < 0.000000011) \/
     ((declared g \/ full_extent 0.000000021 w1 e1 x1) /\ (declared h \/ full_extent 0.000000021 w2 e2 x2) /\
      near_congruent 0.000000011 w1 w2)))%R.
  Proof. exact (match_LL py_str key_order fuel d1 d2 g h n1 w1 s1 e1 x1 n2 w2 s2 e2 x2). Qed.
  (** For reduced Gaussian grids the northern and southern limits are missing. *)
  Theorem C29_limits_gaussian_partial d1 d2 g h n1 w1 s1 e1 x1 n2 w2 s2 e2 x2 :
    from_dict d1 = Ok g -> from_dict d2 = Ok h -> cls g = RGG -> cls h = RGG ->
    limits g n1 w1 s1 e1 -> limits h n2 w2 s2 e2 -> increment g x1 -> increment h x2 ->
    enough fuel w1 -> enough fuel e1 -> enough fuel w2 -> enough fuel e2 ->
    snd (eq py_str key_order fuel g h) = Ok true ->
    ((Rabs (n1 - n2) < 0.1201 /\ Rabs (w1 - w2) < 0.1201 /\ Rabs (s1 - s2) < 0.1201 /\ Rabs (e1 - e2) < 0.1201) \/
     ((declared g \/ full_extent 0.000000021 w1 e1 x1) /\ (declared h \/ full_extent 0.000000021 w2 e2 x2) /\
      near_congruent 0.1201 w1 w2))%R.
  Proof. exact (match_RGG py_str key_order fuel d1 d2 g h n1 w1 s1 e1 x1 n2 w2 s2 e2 x2). Qed.
  (** [healpix_grid g o]: a HEALPix specification H<n>, n between 1 and 1000000, with order [o]. *)
  Definition healpix_grid (g : gspec) (o : string) : Prop :=
    cls g = HP /\ order_name g o /\ In o ["ring"; "nested"] /\
    exists c ds, alookup "grid" (gd g) = Some (VStr (String c (of_chars ds))) /\ In c ["H"; "h"]%char /\ ds <> [] /\
      Forall (fun c => is_digit c = true) ds /\ 1 <= digits_val ds <= 1000000.
  Theorem C29_order g h o o' : healpix_grid g o -> healpix_grid h o' ->
    snd (eq py_str key_order fuel g h) = Ok true -> o = o'.
  Proof.
    intros (C1 & O1 & I1 & c1 & ds1 & G1 & A1 & B1 & D1 & E1) (C2 & O2 & I2 & c2 & ds2 & G2 & A2 & B2 & D2 & E2) H.
    pose proof (eq_true_base _ _ _ _ _ H) as B. unfold eq in H. rewrite B, C1 in H. cbn [snd] in H.
    rewrite (order_spec g o c1 ds1 O1 I1 G1 A1 B1 D1 E1), (order_spec h o' c2 ds2 O2 I2 G2 A2 B2 D2 E2) in H.
    cbn [bind py_eq] in H. assert (X : String.eqb o o' = true) by congruence. apply String.eqb_eq. exact X.
  Qed.
End C29.
(** A band around the equator matches the whole globe. *)
Definition gaussian (n s : Z) : dict := [("grid", VStr "O320"); ("area", VList [VInt n; VInt 0; VInt s; VInt 360])].
Theorem C29_band_refuted : matches 10 (gaussian 90 (-90)) (gaussian 10 (-10)) = Ok true.
Proof. vm_compute. reflexivity. Qed.

(** ** C70: comparing again gives the same answer *)
Theorem C70_repeatable_partial py_str key_order fuel g h g' h' b :
  eq py_str key_order fuel g h = (g', h', Ok b) -> snd (eq py_str key_order fuel g' h') = Ok b /\ gd g' = gd g /\ gd h' = gd h.
Proof. exact (eq_again py_str key_order fuel g h g' h' b). Qed.
(** After an exception the memo is left at False: the second comparison answers. *)
Definition bad (e : Z) : dict := [("type", VStr "reduced_gg"); ("grid", VStr "bad"); ("area", VList [VInt 90; VInt 0; VInt (-90); VInt e])].
Theorem C70_after_exception_refuted : exists g h g' h',
  from_dict (bad 359) = Ok g /\ from_dict (bad 358) = Ok h /\
  eq (fun _ => "") COMPARE_KEYS 10 g h = (g', h', Raise ValueError) /\
  snd (eq (fun _ => "") COMPARE_KEYS 10 g' h') = Ok false.
Proof.
  do 4 eexists. split; [vm_compute; reflexivity|]. split; [vm_compute; reflexivity|].
  split; [vm_compute; reflexivity|vm_compute; reflexivity].
Qed.
Example C70_example : exists g h g' h', from_dict one_degree = Ok g /\
  from_dict [("grid", VList [VInt 1; VInt 1]); ("area", VList [VInt 90; VInt (-360); VInt (-90); VInt (-1)])] = Ok h /\
  eq (fun _ => "") COMPARE_KEYS 10 g h = (g', h', Ok true).
Proof. do 4 eexists. split; [vm_compute; reflexivity|]. split; [vm_compute; reflexivity|vm_compute; reflexivity]. Qed.

Print Assumptions C23_contents.
Print Assumptions C23_key_order.
Print Assumptions C23_key_order_matching.
Print Assumptions C23_table.
Print Assumptions C23_tuples.
Print Assumptions C23_idempotent.
Print Assumptions C24_at_most_one.
Print Assumptions C24_inferred_partial.
Print Assumptions C24_refused_partial.
Print Assumptions C24_no_grid.
Print Assumptions C24_explicit.
Print Assumptions C24_explicit_unknown.
Print Assumptions C24_newline_refuted.
Print Assumptions C25_self_match.
Print Assumptions C26_symmetric_partial.
Print Assumptions C26_named.
Print Assumptions C26_symmetric_refuted.
Print Assumptions C26_transitive_refuted.
Print Assumptions C26_transitive_shape_refuted.
Print Assumptions C27_normalise_partial.
Print Assumptions C27_exact_partial.
Print Assumptions C27_never_ends_refuted.
Print Assumptions C27_inexact_refuted.
Print Assumptions C27_overflow_refuted.
Print Assumptions C28_global_lat_lon.
Print Assumptions C28_global_gaussian.
Print Assumptions C29_type.
Print Assumptions C29_names.
Print Assumptions C29_increments.
Print Assumptions C29_flags.
Print Assumptions C29_shape.
Print Assumptions C29_order.
Print Assumptions C29_limits_lat_lon.
Print Assumptions C29_limits_gaussian_partial.
Print Assumptions C29_band_refuted.
Print Assumptions C70_repeatable_partial.
Print Assumptions C70_after_exception_refuted.
