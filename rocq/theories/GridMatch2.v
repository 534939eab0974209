(** Matching, continued: global areas. *)
From Coq Require Import Reals Psatz.
From Verif Require Import PyBase ListLemmas PyStr Float64 GridSpec GridVocab GridProofs GridProofs2 FloatReal GridLon GridMatchSpec GridReal GridMatch.
From Flocq Require Import Core.
Set Default Proof Using "Type".
Local Open Scope string_scope.
Local Open Scope list_scope.
Local Open Scope Z_scope.
Local Open Scope R_scope.

Lemma fresh_flags d g : from_dict d = Ok g -> cls g = LL \/ cls g = RGG -> global_flags (gd g) = Ok (ew g).
Proof.
  intros H C. destruct (from_cls d g H) as (m & _ & Hm & _). destruct C as [C|C]; rewrite C in Hm; cbn [init] in Hm.
  - unfold init_LL in Hm. destruct (_ : result dict) as [d1|x|] in Hm; try discriminate. cbn [bind] in Hm.
    destruct (global_flags _) as [f|x|] eqn:E in Hm; try discriminate. inversion Hm; subst g. exact E.
  - unfold init_RGG in Hm. destruct (global_flags _) as [f|x|] eqn:E in Hm; try discriminate. inversion Hm; subst g. exact E.
Qed.

(** ** The increment *)
Lemma digits_upper ds : Forall (fun c => is_digit c = true) ds -> map to_upper ds = ds.
Proof.
  induction 1 as [|c ds Hc _ IH]; cbn; [reflexivity|]. rewrite IH. f_equal. unfold to_upper.
  replace (is_lower c) with false; [reflexivity|]. symmetry. unfold is_digit, is_lower in *.
  apply andb_prop in Hc. destruct Hc as [A B]. apply Z.leb_le in A, B. apply andb_false_intro1. apply Z.leb_gt. lia.
Qed.
Lemma increment_ok g x : increment g x -> x <= 360 -> dx_ok g x /\ 0 <= x.
Proof.
  unfold increment, dx_ok, dx. destruct (cls g); try contradiction.
  - intros (v & r & y & E & (a & Ea & Ga & Ra & Ba) & ->) L. nums. split; [|apply Rabs_pos]. unfold dget. rewrite E. cbn [bind index elems nth_error].
    rewrite Ea. exists (nabs a). split; [reflexivity|]. split; [apply nabs_good, Ga|]. rewrite nabs_real, Ra.
    split; [split; [apply Rabs_pos|exact L]|]. replace (Rabs y - Rabs y) with 0 by ring. rewrite Rabs_R0. unfold U. lra.
  - intros (c & ds & E & Ic & Nd & Fd & Rd & ->) _. set (k := (if octahedral c then 16 else 0)%Z).
    assert (Hk : (0 <= k <= 16)%Z) by (unfold k; destruct (octahedral c); lia).
    set (m := (4 * digits_val ds + k)%Z). assert (Hm : (4 <= m <= 4000016)%Z) by (unfold m; lia).
    assert (Q : 0 <= 360 / IZR m <= 90).
    { assert (4 <= IZR m) by (apply IZR_le; lia). split.
      - apply Rmult_le_pos; [lra|]. apply Rlt_le, Rinv_0_lt_compat. lra.
      - apply Rmult_le_reg_r with (IZR m); [lra|]. unfold Rdiv. rewrite Rmult_assoc, Rinv_l by lra. lra. }
    split; [|lra]. unfold inspect_RGG, dget. rewrite E. cbn [bind].
    assert (M : RGG_match (String c (of_chars ds)) = true).
    { apply RGG_match_spec. destruct ds as [|d0 ds]; [contradiction|]. exists c, d0, (of_chars ds). inversion Fd; subst. auto. }
    rewrite M. unfold upper. rewrite chars_of_chars. change (chars (String c (of_chars ds))) with (c :: chars (of_chars ds)).
    rewrite chars_of_chars. cbn [map]. rewrite digits_upper by exact Fd. rewrite py_int_digits by assumption.
    replace ((digits_val ds <? 1)%Z) with false by (symmetry; apply Z.ltb_ge; lia).
    replace ((1000000 <? digits_val ds)%Z) with false by (symmetry; apply Z.ltb_ge; lia). cbn [orb bind].
    replace (Ascii.eqb (to_upper c) "O") with (octahedral c) by (cbn in Ic; intuition (subst; reflexivity)).
    fold k. fold m. destruct FULL_real as [[VF FF] RF]. destruct (of_Z_exact m) as [A B]; [lia|].
    assert (P : 4 <= IZR m) by (apply IZR_le; lia).
    destruct (fdiv_real FULL_GLOBE (of_Z m) VF (valid_of_Z m) FF) as [FD RD]; rewrite ?B, ?RF.
    + lra.
    + apply HUGE_big. rewrite Rabs_pos_eq by lra. apply Rle_trans with 90; [lra|apply IZR_le; lia].
    + rewrite B, RF in RD. eexists. split; [reflexivity|]. split; [split; [apply valid_fdiv; [exact VF|apply valid_of_Z]|exact FD]|].
      cbn [N2R]. rewrite RD. split; [|apply rnd_err; rewrite Rabs_pos_eq; lra].
      apply rnd_range; [apply double_0|apply double_360|lra].
Qed.

(** ** is_global_ew *)
Definition same_obj (g g' : gspec) : Prop := cls g' = cls g /\ gd g' = gd g.

Lemma nsub_abs_zero_eps : 0 < 0.0000000101. Proof. lra. Qed.

Lemma truthy_counts v : truthy v = true <-> counts_as_true v.
Proof.
  split.
  - destruct v as [|[]|z|f|[|c s]|[|x l]|[|x l]]; cbn; intros E; try discriminate E; constructor.
    + intros ->. discriminate E.
    + intros s ->. discriminate E.
  - intros [|z N|f N| | |]; cbn; auto; [destruct (Z.eqb_spec z 0); [contradiction|reflexivity]|]. destruct f; auto. exfalso. eapply N. reflexivity.
Qed.
Lemma ew_real fuel d g n w s e x : from_dict d = Ok g -> cls g = LL \/ cls g = RGG ->
  limits g n w s e -> increment g x -> x <= 360 -> enough fuel w -> enough fuel e ->
  exists g' b, is_global_ew fuel g = (g', Ok b) /\ same_obj g g' /\
    (declared g \/ full_extent 0.000000009 w e x -> b = true) /\
    (b = true -> declared g \/ full_extent 0.000000021 w e x).
Proof.
  intros H C (vn & vw & vs & ve & EA & Nn & Nw & Ns & Ne) HI HX Fw Fe.
  destruct (increment_ok g x HI HX) as [DX X0].
  pose proof (fresh_flags d g H C) as GF. unfold global_flags, dget in GF. rewrite EA in GF. cbn [bind] in GF.
  assert (DL : truthy (match alookup "global" (gd g) with Some v => v | None => VInt 0 end) = true <-> declared g).
  { unfold declared. destruct (alookup "global" (gd g)) as [v|]; split.
    - intros T. exists v. split; [reflexivity|]. apply truthy_counts, T.
    - intros (v' & E & T). inversion E; subst. apply truthy_counts, T.
    - discriminate.
    - intros (v' & E & T). discriminate. }
  unfold is_global_ew. destruct (ew g) as [b|] eqn:Eew.
  - assert (b = true /\ (declared g \/ full_extent 0.000000021 w e x)) as [-> T].
    { destruct (truthy _) eqn:Et in GF.
      - split; [congruence|]. left. apply DL, Et.
      - destruct (same_area (VList [vn; vw; vs; ve]) DEFAULT_AREA DEGREE_EPS) as [[]| |] eqn:ES; try discriminate. cbn [bind] in GF.
        split; [congruence|]. right. unfold same_area in ES. cbn [elems bind DEFAULT_AREA List.length Nat.eqb all_same] in ES.
        assert (NI0 : forall z, (Z.abs z <= 1000)%Z -> number (VInt z) (IZR z)).
        { intros z Hz. exists (NI z). split; [reflexivity|]. split; [cbn; lia|]. split; [reflexivity|]. rewrite <- abs_IZR. apply IZR_le. lia. }
        destruct DEG_real as [GD [BD1 BD2]].
        destruct (same_coord_real vn (VInt 90) n 90 DEGREE_EPS Nn (NI0 90%Z ltac:(lia)) GD) as ([] & E1 & _); rewrite E1 in ES; cbn [bind] in ES; [|discriminate].
        destruct (same_coord_real vw (VInt 0) w 0 DEGREE_EPS Nw (NI0 0%Z ltac:(lia)) GD) as ([] & E2 & R2); rewrite E2 in ES; cbn [bind] in ES; [|discriminate].
        destruct (same_coord_real vs (VInt (-90)) s (-90) DEGREE_EPS Ns (NI0 (-90)%Z ltac:(lia)) GD) as ([] & E3 & _); rewrite E3 in ES; cbn [bind] in ES; [|discriminate].
        destruct (same_coord_real ve (VInt 360) e 360 DEGREE_EPS Ne (NI0 360%Z ltac:(lia)) GD) as ([] & E4 & R4); rewrite E4 in ES; cbn [bind] in ES; [|discriminate].
        destruct R2 as [R2 _], R4 as [R4 _]. specialize (R2 eq_refl). specialize (R4 eq_refl).
        apply lt_rnd in R2; [|apply (good_double _ GD)]. apply lt_rnd in R4; [|apply (good_double _ GD)].
        apply Rabs_def2 in R2, R4. exists 1%Z. left. apply Rabs_le. lra. }
    exists g, true. split; [reflexivity|]. split; [split; reflexivity|]. auto.
  - assert (ND : ~ declared g).
    { intros D. apply DL in D. rewrite D in GF. congruence. }
    assert (AA : forall k v, nth_error [vn; vw; vs; ve] k = Some v -> area_at g k = Ok v).
    { intros k v Ek. unfold area_at, dget, index. rewrite EA. cbn [bind elems]. rewrite Ek. reflexivity. }
    rewrite (AA 1%nat vw eq_refl), (AA 3%nat ve eq_refl). cbn [bind].
    destruct (normalise_number fuel vw w Nw Fw) as (bw & Ebw & Gbw & Rbw).
    destruct (normalise_number fuel ve e Ne Fe) as (be & Ebe & Gbe & Rbe).
    rewrite Ebw. cbn [bind]. rewrite Ebe. cbn [bind].
    destruct (spans_real g bw be w e x Gbw Gbe) as (b & Eb & B1 & B2).
    + rewrite Rbw. apply norm_range.
    + rewrite Rbe. apply norm_range.
    + rewrite Rbw. apply norm_near.
    + rewrite Rbe. apply norm_near.
    + exact DX.
    + rewrite Eb. exists (set_ew g b), b.
      assert (R : (match cls g with
        | LL | RGG => (set_ew g b, Ok b)
        | _ => (g, Raise NotADirectoryError) end) = (set_ew g b, Ok b)) by (destruct C as [-> | ->]; reflexivity).
      split; [exact R|]. split; [split; reflexivity|]. split.
      * intros [D|F]; [contradiction|apply B1, F].
      * intros T. right. destruct (B2 T) as (k & [K|K]); exists k; [left|right]; apply abs_U in K; apply Rabs_le; lra.
Qed.

Lemma both_real fuel eps d1 d2 g h n1 w1 s1 e1 x1 n2 w2 s2 e2 x2 :
  from_dict d1 = Ok g -> from_dict d2 = Ok h -> cls g = LL \/ cls g = RGG -> cls h = LL \/ cls h = RGG ->
  limits g n1 w1 s1 e1 -> limits h n2 w2 s2 e2 -> increment g x1 -> x1 <= 360 -> increment h x2 -> x2 <= 360 ->
  enough fuel w1 -> enough fuel e1 -> enough fuel w2 -> enough fuel e2 -> good (NF eps) -> 0 < F2Rv eps <= 1 ->
  exists g' h' b, both_global fuel g h eps = (g', h', Ok b) /\
    (declared g \/ full_extent 0.000000009 w1 e1 x1 -> declared h \/ full_extent 0.000000009 w2 e2 x2 -> congruent w1 w2 -> b = true) /\
    (b = true -> (declared g \/ full_extent 0.000000021 w1 e1 x1) /\ (declared h \/ full_extent 0.000000021 w2 e2 x2) /\
                 near_congruent (F2Rv eps + 0.000000000001) w1 w2).
Proof.
  intros H1 H2 C1 C2 L1 L2 I1 X1 I2 X2 F1 F2 F3 F4 Ge Be. unfold both_global.
  destruct (ew_real fuel d1 g n1 w1 s1 e1 x1) as (g' & b & -> & S1 & A1 & A2); try assumption.
  destruct b; [|eexists; eexists; exists false; split; [reflexivity|]; split; [intros Q; specialize (A1 Q); discriminate|discriminate]].
  destruct (ew_real fuel d2 h n2 w2 s2 e2 x2) as (h' & b & -> & S2 & B1 & B2); try assumption.
  destruct b; [|eexists; eexists; exists false; split; [reflexivity|]; split; [intros _ Q; specialize (B1 Q); discriminate|discriminate]].
  destruct L1 as (vn & vw & vs & ve & EA & Nn & Nw & Ns & Ne), L2 as (vn2 & vw2 & vs2 & ve2 & EA2 & Nn2 & Nw2 & Ns2 & Ne2).
  unfold area_at, dget, index. rewrite EA, EA2. cbn [bind elems nth_error].
  destruct (normalise_number fuel vw w1 Nw F1) as (bw & Ebw & Gbw & Rbw).
  destruct (normalise_number fuel vw2 w2 Nw2 F3) as (bv & Ebv & Gbv & Rbv).
  rewrite Ebw. cbn [bind]. rewrite Ebv. cbn [bind].
  pose proof (norm_range w1) as N1. pose proof (norm_range w2) as N2. rewrite <- Rbw in N1. rewrite <- Rbv in N2.
  destruct (nsub_rnd bw bv Gbw Gbv) as (dd & Ed & Gd & Rd).
  { apply Rabs_le. change (IZR (2 ^ 53)) with 9007199254740992. lra. }
  rewrite Ed. cbn [bind]. eexists; eexists; eexists. split; [reflexivity|]. split.
  - intros _ _ CG. apply nltb_real; [apply nabs_good, Gd|exact Ge|]. rewrite nabs_real, Rd, Rbw, Rbv, (norm_congruent _ _ CG).
    replace (_ - _) with 0 by ring. rewrite rnd_0, Rabs_R0. cbn. lra.
  - intros T. split; [apply A2; reflexivity|]. split; [apply B2; reflexivity|].
    apply nltb_real in T; [|apply nabs_good, Gd|exact Ge]. rewrite nabs_real, Rd in T. cbn [N2R] in T.
    apply lt_rnd in T; [|exact (good_double _ Ge)]. apply Rabs_def2 in T.
    destruct (norm_near w1) as (i & Hi), (norm_near w2) as (j & Hj). rewrite <- Rbw in Hi. rewrite <- Rbv in Hj.
    apply abs_U in Hi, Hj. exists (j - i)%Z. rewrite minus_IZR. apply Rabs_le. unfold U in *. lra.
Qed.

(** ** Matching of areas *)
Section Match.
  Variables (py_str : val -> string) (key_order : list string).

  Lemma same_area_real g h eps n1 w1 s1 e1 n2 w2 s2 e2 : limits g n1 w1 s1 e1 -> limits h n2 w2 s2 e2 -> good (NF eps) ->
    exists a1 a2 b, alookup "area" (gd g) = Some a1 /\ alookup "area" (gd h) = Some a2 /\ same_area a1 a2 eps = Ok b /\
      (b = true -> Rabs (n1 - n2) < F2Rv eps /\ Rabs (w1 - w2) < F2Rv eps /\ Rabs (s1 - s2) < F2Rv eps /\ Rabs (e1 - e2) < F2Rv eps).
  Proof.
    intros (vn & vw & vs & ve & EA & Nn & Nw & Ns & Ne) (vn2 & vw2 & vs2 & ve2 & EA2 & Nn2 & Nw2 & Ns2 & Ne2) Ge.
    exists (VList [vn; vw; vs; ve]), (VList [vn2; vw2; vs2; ve2]).
    destruct (same_coord_real vn vn2 n1 n2 eps Nn Nn2 Ge) as (b1 & E1 & R1).
    destruct (same_coord_real vw vw2 w1 w2 eps Nw Nw2 Ge) as (b2 & E2 & R2).
    destruct (same_coord_real vs vs2 s1 s2 eps Ns Ns2 Ge) as (b3 & E3 & R3).
    destruct (same_coord_real ve ve2 e1 e2 eps Ne Ne2 Ge) as (b4 & E4 & R4).
    exists (b1 && b2 && b3 && b4). split; [exact EA|]. split; [exact EA2|]. split.
    - unfold same_area. cbn [elems bind List.length Nat.eqb all_same]. rewrite E1, E2, E3, E4. cbn [bind].
      destruct b1, b2, b3, b4; reflexivity.
    - intros T. apply andb_prop in T. destruct T as [T T4]. apply andb_prop in T. destruct T as [T T3].
      apply andb_prop in T. destruct T as [T1 T2]. pose proof (good_double _ Ge) as D. cbn [N2R] in D.
      split; [apply lt_rnd; [exact D|apply R1, T1]|]. split; [apply lt_rnd; [exact D|apply R2, T2]|].
      split; [apply lt_rnd; [exact D|apply R3, T3]|apply lt_rnd; [exact D|apply R4, T4]].
  Qed.

  (** Two ways of writing one global grid match. *)
  Lemma global_LL fuel d1 d2 g h n1 w1 s1 e1 x1 n2 w2 s2 e2 x2 :
    from_dict d1 = Ok g -> from_dict d2 = Ok h -> cls g = LL -> cls h = LL ->
    eq_base py_str key_order g h = Ok true ->
    limits g n1 w1 s1 e1 -> limits h n2 w2 s2 e2 -> increment g x1 -> x1 <= 360 -> increment h x2 -> x2 <= 360 ->
    enough fuel w1 -> enough fuel e1 -> enough fuel w2 -> enough fuel e2 ->
    Rabs (n1 - n2) <= 0.000000009 -> Rabs (s1 - s2) <= 0.000000009 -> congruent w1 w2 ->
    declared g \/ full_extent 0.000000009 w1 e1 x1 -> declared h \/ full_extent 0.000000009 w2 e2 x2 ->
    snd (eq py_str key_order fuel g h) = Ok true.
  Proof.
    intros H1 H2 C1 C2 HB L1 L2 I1 X1 I2 X2 F1 F2 F3 F4 HN HS HC D1 D2. unfold eq. rewrite HB, C1.
    destruct DEG_real as [GD [B1 B2]].
    destruct (same_area_real g h DEGREE_EPS _ _ _ _ _ _ _ _ L1 L2 GD) as (a1 & a2 & b & E1 & E2 & E3 & _).
    unfold dget at 1 2. rewrite E1, E2. cbn [bind]. rewrite E3. destruct b; [reflexivity|].
    destruct L1 as (vn & vw & vs & ve & EA & Nn & Nw & Ns & Ne) eqn:EL1, L2 as (vn2 & vw2 & vs2 & ve2 & EA2 & Nn2 & Nw2 & Ns2 & Ne2) eqn:EL2.
    unfold area_at, dget, index. rewrite EA, EA2. cbn [bind elems nth_error].
    destruct (same_coord_real vn vn2 n1 n2 DEGREE_EPS Nn Nn2 GD) as (b1 & -> & R1).
    destruct (same_coord_real vs vs2 s1 s2 DEGREE_EPS Ns Ns2 GD) as (b3 & -> & R3). cbn [bind].
    assert (b1 = true) as -> by (apply R1; eapply rnd_lt; [exact HN|lra|unfold U; lra]).
    assert (b3 = true) as -> by (apply R3; eapply rnd_lt; [exact HS|lra|unfold U; lra]).
    destruct (both_real fuel DEGREE_EPS d1 d2 g h n1 w1 s1 e1 x1 n2 w2 s2 e2 x2) as (g' & h' & b & -> & T & _); auto.
    - lra.
    - cbn. rewrite T; auto.
  Qed.
  Lemma global_RGG fuel d1 d2 g h n1 w1 s1 e1 x1 n2 w2 s2 e2 x2 :
    from_dict d1 = Ok g -> from_dict d2 = Ok h -> cls g = RGG -> cls h = RGG ->
    eq_base py_str key_order g h = Ok true ->
    limits g n1 w1 s1 e1 -> limits h n2 w2 s2 e2 -> increment g x1 -> increment h x2 ->
    enough fuel w1 -> enough fuel e1 -> enough fuel w2 -> enough fuel e2 -> congruent w1 w2 ->
    declared g \/ full_extent 0.000000009 w1 e1 x1 -> declared h \/ full_extent 0.000000009 w2 e2 x2 ->
    snd (eq py_str key_order fuel g h) = Ok true.
  Proof.
    intros H1 H2 C1 C2 HB L1 L2 I1 I2 F1 F2 F3 F4 HC D1 D2. unfold eq. rewrite HB, C1.
    assert (SM : forall g x, cls g = RGG -> increment g x -> x <= 360).
    { clear. intros g x C I. unfold increment in I. rewrite C in I. destruct I as (c & ds & _ & _ & _ & _ & R & ->).
      set (m := (4 * digits_val ds + (if octahedral c then 16 else 0))%Z).
      assert (4 <= IZR m) by (apply IZR_le; unfold m; destruct (octahedral c); lia).
      apply Rmult_le_reg_r with (IZR m); [lra|]. unfold Rdiv. rewrite Rmult_assoc, Rinv_l by lra. lra. }
    destruct RGGEPS_real as [GD [B1 B2]].
    destruct (same_area_real g h RGG_EPS _ _ _ _ _ _ _ _ L1 L2 GD) as (a1 & a2 & b & E1 & E2 & E3 & _).
    unfold dget at 1 2. rewrite E1, E2. cbn [bind]. rewrite E3. destruct b; [reflexivity|].
    destruct (both_real fuel RGG_EPS d1 d2 g h n1 w1 s1 e1 x1 n2 w2 s2 e2 x2) as (g' & h' & b & -> & T & _); eauto.
    - lra.
    - cbn. rewrite T; auto.
  Qed.

  (** What a match says of the areas. *)
  Lemma match_LL fuel d1 d2 g h n1 w1 s1 e1 x1 n2 w2 s2 e2 x2 :
    from_dict d1 = Ok g -> from_dict d2 = Ok h -> cls g = LL -> cls h = LL ->
    limits g n1 w1 s1 e1 -> limits h n2 w2 s2 e2 -> increment g x1 -> x1 <= 360 -> increment h x2 -> x2 <= 360 ->
    enough fuel w1 -> enough fuel e1 -> enough fuel w2 -> enough fuel e2 ->
    snd (eq py_str key_order fuel g h) = Ok true ->
    Rabs (n1 - n2) < 0.000000011 /\ Rabs (s1 - s2) < 0.000000011 /\
    ((Rabs (w1 - w2) < 0.000000011 /\ Rabs (e1 - e2) < 0.000000011) \/
     ((declared g \/ full_extent 0.000000021 w1 e1 x1) /\ (declared h \/ full_extent 0.000000021 w2 e2 x2) /\
      near_congruent 0.000000011 w1 w2)).
  Proof.
    intros H1 H2 C1 C2 L1 L2 I1 X1 I2 X2 F1 F2 F3 F4. unfold eq. destruct (eq_base py_str key_order g h) as [[]| |]; try discriminate.
    rewrite C1. destruct DEG_real as [GD [B1 B2]].
    destruct (same_area_real g h DEGREE_EPS _ _ _ _ _ _ _ _ L1 L2 GD) as (a1 & a2 & b & E1 & E2 & E3 & A).
    unfold dget at 1 2. rewrite E1, E2. cbn [bind]. rewrite E3. destruct b.
    { intros _. destruct (A eq_refl) as (P1 & P2 & P3 & P4). split; [lra|]. split; [lra|]. left. split; lra. }
    pose proof L1 as (vn & vw & vs & ve & EA & Nn & Nw & Ns & Ne). pose proof L2 as (vn2 & vw2 & vs2 & ve2 & EA2 & Nn2 & Nw2 & Ns2 & Ne2).
    unfold area_at, dget, index. rewrite EA, EA2. cbn [bind elems nth_error].
    destruct (same_coord_real vn vn2 n1 n2 DEGREE_EPS Nn Nn2 GD) as (b1 & -> & R1).
    destruct (same_coord_real vs vs2 s1 s2 DEGREE_EPS Ns Ns2 GD) as (b3 & -> & R3). cbn [bind].
    destruct b1; [|discriminate]. destruct b3; [|discriminate].
    destruct R1 as [R1 _], R3 as [R3 _]. specialize (R1 eq_refl). specialize (R3 eq_refl).
    apply lt_rnd in R1; [|apply (good_double _ GD)]. apply lt_rnd in R3; [|apply (good_double _ GD)].
    destruct (both_real fuel DEGREE_EPS d1 d2 g h n1 w1 s1 e1 x1 n2 w2 s2 e2 x2) as (g' & h' & b & -> & _ & T); auto; [lra|].
    cbn [snd]. intros Q. assert (b = true) as -> by congruence. destruct (T eq_refl) as (T1 & T2 & (k & T3)).
    split; [lra|]. split; [lra|]. right. split; [exact T1|]. split; [exact T2|]. exists k. lra.
  Qed.
  Lemma match_RGG fuel d1 d2 g h n1 w1 s1 e1 x1 n2 w2 s2 e2 x2 :
    from_dict d1 = Ok g -> from_dict d2 = Ok h -> cls g = RGG -> cls h = RGG ->
    limits g n1 w1 s1 e1 -> limits h n2 w2 s2 e2 -> increment g x1 -> increment h x2 ->
    enough fuel w1 -> enough fuel e1 -> enough fuel w2 -> enough fuel e2 ->
    snd (eq py_str key_order fuel g h) = Ok true ->
    (Rabs (n1 - n2) < 0.1201 /\ Rabs (w1 - w2) < 0.1201 /\ Rabs (s1 - s2) < 0.1201 /\ Rabs (e1 - e2) < 0.1201) \/
     ((declared g \/ full_extent 0.000000021 w1 e1 x1) /\ (declared h \/ full_extent 0.000000021 w2 e2 x2) /\
      near_congruent 0.1201 w1 w2).
  Proof.
    intros H1 H2 C1 C2 L1 L2 I1 I2 F1 F2 F3 F4. unfold eq. destruct (eq_base py_str key_order g h) as [[]| |]; try discriminate.
    assert (SM : forall g x, cls g = RGG -> increment g x -> x <= 360).
    { clear. intros g x C I. unfold increment in I. rewrite C in I. destruct I as (c & ds & _ & _ & _ & _ & R & ->).
      set (m := (4 * digits_val ds + (if octahedral c then 16 else 0))%Z).
      assert (4 <= IZR m) by (apply IZR_le; unfold m; destruct (octahedral c); lia).
      apply Rmult_le_reg_r with (IZR m); [lra|]. unfold Rdiv. rewrite Rmult_assoc, Rinv_l by lra. lra. }
    rewrite C1. destruct RGGEPS_real as [GD [B1 B2]].
    destruct (same_area_real g h RGG_EPS _ _ _ _ _ _ _ _ L1 L2 GD) as (a1 & a2 & b & E1 & E2 & E3 & A).
    unfold dget at 1 2. rewrite E1, E2. cbn [bind]. rewrite E3. destruct b.
    { intros _. destruct (A eq_refl) as (P1 & P2 & P3 & P4). left. repeat split; lra. }
    destruct (both_real fuel RGG_EPS d1 d2 g h n1 w1 s1 e1 x1 n2 w2 s2 e2 x2) as (g' & h' & b & -> & _ & T); eauto; [lra|].
    cbn [snd]. intros Q. assert (b = true) as -> by congruence. destruct (T eq_refl) as (T1 & T2 & (k & T3)).
    right. split; [exact T1|]. split; [exact T2|]. exists k. lra.
  Qed.
End Match.
