(** C141, C142: missing values (not-a-number) and copied values in regridding with precomputed weights
    (backends/precomputed.py:22-35, 38-50), in doubles. *)
From Coq Require Import Reals Psatz.
From Verif Require Import PyBase Float64 FloatReal Regrid RegridSpec RegridProofs RegridFloat.
From Verif Require Props_Regrid Props_RegridFloat.
From Verif Require Import Props_RegridFloat.
From Flocq Require Import Core IEEE754.BinarySingleNaN.
Local Open Scope list_scope.
Local Open Scope nat_scope.

(** The target point number [i] has a stored weight for a source point that satisfies [Q]. *)
Definition uses (z : csr f64) (i : nat) (values : array f64) (Q : f64 -> Prop) : Prop :=
  exists jdx, valid (shape values) jdx /\ In (offset (shape values) jdx) (map fst (row z i)) /\ Q (item values jdx).
Definition missing (x : f64) : Prop := x = S754_nan.
(** The field with [c] at every missing point. *)
Definition filled (c : f64) (values : array f64) : array f64 :=
  mkArr (shape values) (fun jdx => match item values jdx with S754_nan => c | x => x end).

Section Missing.
  Context {grid : Type}.
  Notation regrid := (@regrid f64 (of_Z 0) fadd fmul grid).

  Lemma add_nan_l x : fadd S754_nan x = S754_nan. Proof. destruct x; reflexivity. Qed.
  Lemma add_nan_r x : fadd x S754_nan = S754_nan. Proof. destruct x; reflexivity. Qed.
  Lemma mul_nan_l x : fmul S754_nan x = S754_nan. Proof. destruct x; reflexivity. Qed.
  Lemma mul_nan_r x : fmul x S754_nan = S754_nan. Proof. destruct x; reflexivity. Qed.

  Lemma fold_nan {B} (f : B -> f64) l s : (s = S754_nan \/ exists b, In b l /\ f b = S754_nan) ->
    fold_left (fun s b => fadd s (f b)) l s = S754_nan.
  Proof.
    revert s. induction l as [|b l IH]; intros s [->|(c & I & E)]; cbn [fold_left].
    - reflexivity.
    - destruct I.
    - apply IH. left. apply add_nan_l.
    - destruct I as [<-|I]; apply IH; [left; rewrite E; apply add_nan_r|right; exists c; auto].
  Qed.

  Lemma computed z sh values g r g' idx : proper_csr z -> regrid (Ok (Some (z, sh))) values g = Ok (r, g') -> valid sh idx ->
    prod (shape values) = n_cols z /\
    item r idx = fold_left (fun s p => fadd s (fmul (snd p) (item values (nth (fst p) (indices (shape values)) [])))) (row z (offset sh idx)) (of_Z 0).
  Proof.
    intros P H V. destruct (Props_Regrid.C38_returns _ _ _ _ _ _ _ _ H) as (-> & z0 & sh0 & E & E1 & E2). inversion E; subst z0 sh0.
    destruct (Props_Regrid.C36_computed (of_Z 0) fadd fmul z sh values g P E1 E2) as (q & Q & _ & I). rewrite H in Q. inversion Q; subst q. auto.
  Qed.

  (** A missing source point makes every target point that has a stored weight for it missing,
      whatever the weight and the other points are. *)
  Theorem C141_spreads z sh values g r g' idx : proper_csr z -> regrid (Ok (Some (z, sh))) values g = Ok (r, g') -> valid sh idx ->
    uses z (offset sh idx) values missing -> item r idx = S754_nan.
  Proof.
    intros P H V (jdx & Vj & I & M). destruct (computed z sh values g r g' idx P H V) as [_ ->].
    apply in_map_iff in I. destruct I as (p & E & I).
    apply (fold_nan (fun p => fmul (snd p) (item values (nth (fst p) (indices (shape values)) [])))). right. exists p. split; [exact I|].
    rewrite E, nth_indices by exact Vj. rewrite M. apply mul_nan_r.
  Qed.

  (** Every other target point has, bit for bit, the value it has whatever is put at the missing points. *)
  Theorem C141_kept z sh values c g r g' idx : proper_csr z -> regrid (Ok (Some (z, sh))) values g = Ok (r, g') -> valid sh idx ->
    ~ uses z (offset sh idx) values missing ->
    exists r', regrid (Ok (Some (z, sh))) (filled c values) g = Ok (r', g') /\ item r idx = item r' idx.
  Proof.
    intros P H V N. destruct (Props_Regrid.C38_returns _ _ _ _ _ _ _ _ H) as (-> & z0 & sh0 & E & E1 & E2). inversion E; subst z0 sh0.
    destruct (Props_Regrid.C36_computed (of_Z 0) fadd fmul z sh (filled c values) g P E1 E2) as (q & Q & _).
    exists q. split; [exact Q|].
    refine (Props_Regrid.C72_local (of_Z 0) fadd fmul z sh values (filled c values) g r q idx P eq_refl H Q V _).
    intros p jdx I Vj E3. cbn. destruct (item values jdx) as [| | |] eqn:X; try reflexivity.
    exfalso. apply N. exists jdx. split; [exact Vj|]. split; [rewrite E3; apply in_map; exact I|exact X].
  Qed.

  (** A missing result has a cause: a missing or infinite source point, a weight that is no finite
      number, or products too large to be added. *)
  Theorem C141_cause z sh values g r g' idx : proper_csr z -> regrid (Ok (Some (z, sh))) values g = Ok (r, g') -> valid sh idx ->
    (forall jdx, valid (shape values) jdx -> is_float64 (item values jdx) = true) ->
    Forall (fun p => is_float64 (snd p) = true) (row z (offset sh idx)) ->
    item r idx = S754_nan ->
    let n := List.length (row z (offset sh idx)) in
    let M := rsum (map (fun p => Rabs (F2Rv (fst p) * F2Rv (snd p))) (terms z (offset sh idx) values)) in
    uses z (offset sh idx) values (fun x => finite x = false) \/
    Exists (fun p => finite (snd p) = false) (row z (offset sh idx)) \/
    (HUGE < (1 + u) ^ S n * (M + INR n * eta))%R.
  Proof.
    intros P H V VF VW Z n M.
    destruct (computed z sh values g r g' idx P H V) as [EC _].
    pose proof (row_cols z (offset sh idx) P) as C. rewrite <- EC in C. rewrite Forall_forall in C, VW.
    destruct (Exists_dec (fun p => finite (snd p) = false) (row z (offset sh idx)) (fun p => bool_dec (finite (snd p)) false)) as [W|W]; [auto|].
    destruct (Exists_dec (fun p => finite (item values (nth (fst p) (indices (shape values)) [])) = false) (row z (offset sh idx))
      (fun p => bool_dec _ false)) as [X|X].
    - left. apply Exists_exists in X. destruct X as (p & I & F). pose proof (C p I) as L. destruct (offset_onto _ _ L) as (j & Vj & E).
      exists j. split; [exact Vj|]. split; [rewrite E; apply in_map; exact I|]. rewrite <- E, nth_indices in F by exact Vj. exact F.
    - right. right. apply Rnot_le_lt. intros B.
      destruct (C36_rounding z sh values g r g' idx P H V) as [F _].
      + unfold numbers, terms. apply Forall_map. apply Forall_forall. intros p I. cbn [fst snd].
        pose proof (C p I) as L. destruct (offset_onto _ _ L) as (j & Vj & E).
        repeat split.
        * exact (VW p I).
        * destruct (finite (snd p)) eqn:FE; [reflexivity|]. exfalso. apply W. apply Exists_exists. exists p. auto.
        * rewrite <- E, nth_indices by exact Vj. apply VF. exact Vj.
        * destruct (finite (item values (nth (fst p) (indices (shape values)) []))) eqn:FE; [reflexivity|]. exfalso. apply X. apply Exists_exists. exists p. auto.
      + replace (List.length (terms z (offset sh idx) values)) with n by (unfold terms, n; rewrite map_length; reflexivity). exact B.
      + rewrite Z in F. discriminate F.
  Qed.

  (** So for finite weights and ordinary values the missing results are exactly those that use a
      missing point: [X] bounds the values that are not missing and [T] the weights of the row. *)
  Theorem C141_exactly z sh values g r g' idx X T : proper_csr z -> regrid (Ok (Some (z, sh))) values g = Ok (r, g') -> valid sh idx ->
    (forall jdx, valid (shape values) jdx -> is_float64 (item values jdx) = true /\
       (item values jdx = S754_nan \/ finite (item values jdx) = true /\ (Rabs (F2Rv (item values jdx)) <= X)%R)) ->
    Forall (fun p => is_float64 (snd p) = true /\ finite (snd p) = true) (row z (offset sh idx)) ->
    let n := List.length (row z (offset sh idx)) in
    (0 <= X)%R -> (rsum (map (fun p => Rabs (F2Rv (snd p))) (row z (offset sh idx))) <= T)%R ->
    ((1 + u) ^ S n * (T * X + INR n * eta) <= HUGE)%R ->
    (item r idx = S754_nan <-> uses z (offset sh idx) values missing).
  Proof.
    intros P H V VF VW n X0 TB B. split; [|intros U; exact (C141_spreads z sh values g r g' idx P H V U)].
    intros Z. destruct (computed z sh values g r g' idx P H V) as [EC _].
    destruct (C141_cause z sh values g r g' idx P H V) as [U|[E|L]].
    - intros j Vj. apply VF. exact Vj.
    - eapply Forall_impl; [|exact VW]. intros p A. apply A.
    - exact Z.
    - destruct U as (j & Vj & I & F). exists j. split; [exact Vj|]. split; [exact I|]. destruct (VF j Vj) as [_ [M|[F' _]]]; [exact M|]. congruence.
    - exfalso. rewrite Forall_forall in VW. apply Exists_exists in E. destruct E as (p & I & F). destruct (VW p I) as [_ F']. congruence.
    - exfalso. fold n in L. pose proof (row_cols z (offset sh idx) P) as C. rewrite <- EC in C.
      assert (M : (rsum (map (fun p => Rabs (F2Rv (fst p) * F2Rv (snd p))) (terms z (offset sh idx) values))
                   <= X * rsum (map (fun p => Rabs (F2Rv (snd p))) (row z (offset sh idx))))%R).
      { unfold terms. clear - C VF X0. induction (row z (offset sh idx)) as [|[c w] l IH]; cbn [map rsum fold_right fst snd]; [lra|].
        inversion C as [|? ? C1 C2]; subst. specialize (IH C2). unfold rsum in IH. rewrite map_map in *. cbn [fst snd] in *.
        rewrite Rabs_mult. destruct (offset_onto _ _ C1) as (j & Vj & <-). rewrite nth_indices by exact Vj.
        assert (A : (Rabs (F2Rv (item values j)) <= X)%R).
        { destruct (VF j Vj) as [_ [M|[_ A]]]; [rewrite M; cbn; rewrite Rabs_R0; exact X0|exact A]. }
        pose proof (Rabs_pos (F2Rv w)) as W0. nra. }
      assert (X * rsum (map (fun p => Rabs (F2Rv (snd p))) (row z (offset sh idx))) <= T * X)%R as M2 by (rewrite (Rmult_comm T); apply Rmult_le_compat_l; assumption).
      apply Rlt_not_le in L. apply L. eapply Rle_trans; [|exact B]. apply Rmult_le_compat_l; [pose proof (pow_ge_1 (S n)); lra|lra].
  Qed.

  (** ** C142: a single weight of one copies the value *)
  Definition unsigned_zero (x : f64) : f64 := match x with S754_zero _ => S754_zero false | x => x end.
  Definition is_zero (x : f64) : Prop := exists s, x = S754_zero s.

  Lemma mul_one x : is_float64 x = true -> fmul (of_Z 1) x = x.
  Proof.
    intros Vx. destruct x as [s|s| |s m e]; try (destruct s; reflexivity); try reflexivity.
    destruct (is_B _ (valid_of_Z 1)) as [o Eo]. destruct (is_B _ Vx) as [b Eb].
    rewrite Eo, Eb at 1. rewrite fmul_eq. rewrite Eb.
    assert (Fb : is_finite b = true) by (rewrite <- B_finite, <- Eb; reflexivity).
    destruct (of_Z_exact 1 ltac:(lia)) as [Fo Ro]. rewrite Eo, B_finite in Fo. rewrite Eo, B_real in Ro.
    pose proof (Bmult_correct 53 1024 FloatReal.Hprec FloatReal.Hmax mode_NE o b) as K.
    assert (RG : rnd (B2R b) = B2R b) by (apply rnd_double; rewrite <- B_real; apply real_double, B_valid).
    rewrite Ro, Rmult_1_l in K. unfold rnd in RG. cbn [round_mode] in K. rewrite RG in K.
    rewrite Rlt_bool_true in K by apply abs_B2R_lt_emax.
    destruct K as (K1 & K2 & K3). rewrite Fo, Fb in K2. cbn in K2. f_equal. apply B2R_Bsign_inj; [exact K2|exact Fb|exact K1|].
    rewrite K3.
    - assert (So : Bsign o = false).
      { assert (Q : match of_Z 1 with S754_finite s _ _ => s = false | _ => False end) by reflexivity. rewrite Eo in Q. destruct o; cbn in Q; try contradiction. exact Q. }
      rewrite So. destruct (Bsign b); reflexivity.
    - destruct (Bmult mode_NE o b); cbn in *; congruence.
  Qed.

  Lemma add_zero_l s x : fadd (S754_zero s) x = match x with S754_zero s' => if Bool.eqb s s' then S754_zero s else S754_zero false | x => x end.
  Proof. destruct x; reflexivity. Qed.

  (** If the only weight of a target point is one, its value is the value of that source point,
      whatever it is (also missing or infinite); zero loses its sign. *)
  Theorem C142_copied_partial z sh values g r g' idx jdx : proper_csr z -> regrid (Ok (Some (z, sh))) values g = Ok (r, g') -> valid sh idx ->
    valid (shape values) jdx -> is_float64 (item values jdx) = true ->
    row z (offset sh idx) = [(offset (shape values) jdx, of_Z 1)] ->
    item r idx = unsigned_zero (item values jdx).
  Proof.
    intros P H V Vj F E. destruct (computed z sh values g r g' idx P H V) as [_ ->]. rewrite E. cbn [fold_left fst snd].
    rewrite nth_indices by exact Vj. rewrite mul_one by exact F. destruct (item values jdx) as [[]| | |]; reflexivity.
  Qed.

  Lemma mul_zero w x : is_zero w -> finite x = true -> is_zero (fmul w x).
  Proof. intros [s ->] F. destruct x as [s'|s'| |s' m e]; try discriminate F; eexists; reflexivity. Qed.
  Lemma fold_zeros {B} (f : B -> f64) l x : (forall b, In b l -> is_zero (f b)) -> (forall s, x = S754_zero s -> s = false) ->
    fold_left (fun s b => fadd s (f b)) l x = x.
  Proof.
    intros Z N. induction l as [|b l IH]; cbn [fold_left]; [reflexivity|]. destruct (Z b (or_introl eq_refl)) as [s E].
    replace (fadd x (f b)) with x; [apply IH; intros c I; apply Z; right; exact I|]. rewrite E.
    destruct x as [s'|s'| |s' m e]; try reflexivity. rewrite (N s' eq_refl). destruct s; reflexivity.
  Qed.

  (** Weights of zero beside it change nothing, if the values they stand for are finite. *)
  Theorem C142_zeros_partial z sh values g r g' idx jdx before after : proper_csr z -> regrid (Ok (Some (z, sh))) values g = Ok (r, g') -> valid sh idx ->
    valid (shape values) jdx -> is_float64 (item values jdx) = true ->
    row z (offset sh idx) = before ++ (offset (shape values) jdx, of_Z 1) :: after ->
    Forall (fun p => is_zero (snd p)) (before ++ after) ->
    (forall k, valid (shape values) k -> In (offset (shape values) k) (map fst (before ++ after)) -> finite (item values k) = true) ->
    item r idx = unsigned_zero (item values jdx).
  Proof.
    intros P H V Vj F E Z FV. destruct (computed z sh values g r g' idx P H V) as [EC ->].
    pose proof (row_cols z (offset sh idx) P) as C. rewrite E in *. rewrite <- EC in C. rewrite Forall_forall in C, Z.
    set (f := fun p : nat * f64 => fmul (snd p) (item values (nth (fst p) (indices (shape values)) []))).
    assert (ZT : forall p, In p (before ++ after) -> is_zero (f p)).
    { intros p I. apply mul_zero; [exact (Z p I)|].
      assert (L : fst p < prod (shape values)) by (apply C; apply in_app_iff in I; apply in_app_iff; cbn; tauto).
      destruct (offset_onto _ _ L) as (k & Vk & Ek). rewrite <- Ek, nth_indices by exact Vk. apply FV; [exact Vk|]. rewrite Ek. apply in_map. exact I. }
    rewrite fold_left_app. cbn [fold_left]. change (fun (s : f64) (p : nat * f64) => fadd s (fmul (snd p) (item values (nth (fst p) (indices (shape values)) [])))) with (fun s p => fadd s (f p)).
    rewrite (fold_zeros f before); [|intros p I; apply ZT; apply in_app_iff; auto|intros s Q; change (of_Z 0) with (S754_zero false) in Q; inversion Q; reflexivity].
    cbn [fst snd]. rewrite nth_indices by exact Vj. rewrite mul_one by exact F.
    replace (fadd (of_Z 0) (item values jdx)) with (unsigned_zero (item values jdx)) by (destruct (item values jdx) as [[]| | |]; reflexivity).
    apply fold_zeros; [intros p I; apply ZT; apply in_app_iff; auto|]. intros s Q. destruct (item values jdx); inversion Q; reflexivity.
  Qed.

  (** A field of classes stays a field of classes: with one weight of one for every target point,
      every result is one of the values (none of which is a negative zero). *)
  Theorem C142_classes z sh values g r g' (cls : f64 -> Prop) : proper_csr z -> regrid (Ok (Some (z, sh))) values g = Ok (r, g') ->
    (forall jdx, valid (shape values) jdx -> cls (item values jdx) /\ is_float64 (item values jdx) = true /\ item values jdx <> S754_zero true) ->
    (forall i, i < n_rows z -> exists c, row z i = [(c, of_Z 1)]) ->
    forall idx, valid sh idx -> cls (item r idx).
  Proof.
    intros P H VF R idx V. destruct (Props_Regrid.C38_returns _ _ _ _ _ _ _ _ H) as (_ & z0 & sh0 & E & E1 & E2). inversion E; subst z0 sh0.
    pose proof (offset_lt _ _ V) as L. rewrite E2 in L. destruct (R _ L) as [c Rc].
    pose proof (row_cols z (offset sh idx) P) as C. rewrite Rc, <- E1 in C. inversion C as [|? ? C1 _]; subst. cbn [fst] in C1.
    destruct (offset_onto _ _ C1) as (j & Vj & Ej). rewrite <- Ej in Rc. destruct (VF j Vj) as (K & F & N).
    rewrite (C142_copied_partial z sh values g r g' idx j P H V Vj F Rc). destruct (item values j) as [[]| | |]; cbn; try exact K. congruence.
  Qed.
End Missing.

(** ** C141, C142 are false as worded *)
Definition m_csr : csr f64 := mkCsr 2 2 [0; 2; 3] [0; 1; 1] [of_Z 0; of_Z 1; of_Z 1].
Definition m_field (a b : f64) : array f64 := mkArr [2] (fun idx => match idx with [0] => a | _ => b end).
Definition m_max : f64 := S754_finite false 9007199254740991 971.
Lemma m_proper : proper_csr m_csr.
Proof.
  constructor; try reflexivity.
  - intros i L. cbn in L. destruct i as [|[|i]]; cbn; lia.
  - repeat (constructor; [cbn; lia|]). constructor.
Qed.
(** A stored weight of zero is enough for a missing value to spread, though the weight in the
    matrix is zero; the value with weight one is lost. *)
Theorem C141_zero_refuted : exists r, regrid (of_Z 0) fadd fmul (Ok (Some (m_csr, [2]))) (m_field S754_nan (of_Z 7)) tt = Ok (r, tt) /\
  weight_real m_csr 0 0 = 0%R /\ item r [0] = S754_nan /\ item r [1] = of_Z 7.
Proof. eexists. split; [reflexivity|]. split; [change (weight_real m_csr 0 0) with (F2Rv (of_Z 0) + 0)%R; destruct (of_Z_exact 0 ltac:(lia)) as [_ ->]; lra|]. split; vm_compute; reflexivity. Qed.
(** A constant field, without missing values, can have a missing result although the weights sum
    to one. *)
Definition o_csr : csr f64 := mkCsr 1 3 [0; 3] [0; 1; 2] [of_Z 2; of_Z (-2); of_Z 1].
Theorem C141_overflow_refuted : exists r, regrid (of_Z 0) fadd fmul (Ok (Some (o_csr, [1]))) (mkArr [3] (fun _ => m_max)) tt = Ok (r, tt) /\
  finite m_max = true /\ is_float64 m_max = true /\ total o_csr 0 = 1%R /\ item r [0] = S754_nan.
Proof.
  eexists. split; [reflexivity|]. split; [reflexivity|]. split; [reflexivity|]. split; [|vm_compute; reflexivity].
  unfold total. cbn [row o_csr map rsum fold_right snd]. change (row o_csr 0) with [(0, of_Z 2); (1, of_Z (-2)); (2, of_Z 1)]. cbn [map fold_right snd rsum].
  destruct (of_Z_exact 2 ltac:(lia)) as [_ ->]. destruct (of_Z_exact (-2) ltac:(lia)) as [_ ->]. destruct (of_Z_exact 1 ltac:(lia)) as [_ ->]. lra.
Qed.
(** Zero loses its sign, and a weight of zero for an infinite value spoils the copy. *)
Theorem C142_zero_sign_refuted : exists r, regrid (of_Z 0) fadd fmul (Ok (Some (m_csr, [2]))) (m_field (of_Z 7) (S754_zero true)) tt = Ok (r, tt) /\
  row m_csr 1 = [(1, of_Z 1)] /\ item r [1] = S754_zero false.
Proof. eexists. split; [reflexivity|]. split; vm_compute; reflexivity. Qed.
Theorem C142_infinite_refuted : exists r, regrid (of_Z 0) fadd fmul (Ok (Some (m_csr, [2]))) (m_field (S754_infinity false) (of_Z 7)) tt = Ok (r, tt) /\
  row m_csr 0 = [(0, of_Z 0); (1, of_Z 1)] /\ item r [0] = S754_nan /\ item r [1] = of_Z 7.
Proof. eexists. split; [reflexivity|]. repeat split; vm_compute; reflexivity. Qed.

(** ** Hypotheses are met: a field with one missing point, of which one target point has a weight *)
Definition w_csr : csr f64 := mkCsr 2 3 [0; 2; 4] [0; 1; 1; 2] [lit 1 2; lit 1 2; lit 1 4; lit 3 4].
Definition w_field : array f64 := mkArr [3] (fun idx => match idx with [0] => S754_nan | [1] => of_Z 8 | _ => of_Z 12 end).
Lemma w_proper : proper_csr w_csr.
Proof.
  constructor; try reflexivity.
  - intros i L. cbn in L. destruct i as [|[|i]]; cbn; lia.
  - repeat (constructor; [cbn; lia|]). constructor.
Qed.
Example C141_met : exists r, regrid (of_Z 0) fadd fmul (Ok (Some (w_csr, [2]))) w_field tt = Ok (r, tt) /\
  uses w_csr 0 w_field missing /\ ~ uses w_csr 1 w_field missing /\ item r [0] = S754_nan /\ item r [1] = of_Z 11.
Proof.
  eexists. split; [reflexivity|]. unfold uses, missing. split; [|split; [|split; vm_compute; reflexivity]].
  - exists [0]. split; [repeat constructor|]. split; [left; reflexivity|reflexivity].
  - intros (jdx & V & I & M). destruct jdx as [|j [|]]; cbn in V; inversion V; subst; try (match goal with X : Forall2 _ _ (_ :: _) |- _ => inversion X end).
    destruct j as [|[|j]]; vm_compute in I, M; intuition congruence.
Qed.
(** The hypotheses of [C141_exactly], with values up to 12 and weights that sum to one. *)
Example C141_exactly_met i : i < 2 ->
  (forall jdx, valid (shape w_field) jdx -> is_float64 (item w_field jdx) = true /\
     (item w_field jdx = S754_nan \/ finite (item w_field jdx) = true /\ (Rabs (F2Rv (item w_field jdx)) <= 12)%R)) /\
  Forall (fun p => is_float64 (snd p) = true /\ finite (snd p) = true) (row w_csr (offset [2%nat] [i])) /\
  (rsum (map (fun p => Rabs (F2Rv (snd p))) (row w_csr (offset [2%nat] [i]))) <= 1)%R /\
  ((1 + u) ^ S (List.length (row w_csr (offset [2%nat] [i]))) * (1 * 12 + INR (List.length (row w_csr (offset [2%nat] [i]))) * eta) <= HUGE)%R.
Proof.
  intros L.
  assert (U : (u = 1 / 9007199254740992)%R) by (unfold u; change (-53)%Z with (- (53))%Z; rewrite bpow_opp, <- IZR_Zpower by lia; change (radix2 ^ 53)%Z with 9007199254740992%Z; lra).
  assert (R : row w_csr (offset [2%nat] [i]) = [(0, lit 1 2); (1, lit 1 2)]%nat \/ row w_csr (offset [2%nat] [i]) = [(1, lit 1 4); (2, lit 3 4)]).
  { destruct i as [|[|i]]; [left; reflexivity|right; reflexivity|lia]. }
  split; [|split; [|split]].
  - intros jdx V. destruct jdx as [|j [|]]; cbn in V; inversion V; subst; try (match goal with X : Forall2 _ _ (_ :: _) |- _ => inversion X end).
    destruct j as [|[|j]]; [split; [reflexivity|left; reflexivity]| |]; (split; [reflexivity|right; split; [reflexivity|]]); cbn [item w_field];
      (destruct (of_Z_exact 8 ltac:(lia)) as [_ ->] || destruct (of_Z_exact 12 ltac:(lia)) as [_ ->]); rewrite Rabs_pos_eq; lra.
  - destruct R as [-> | ->]; repeat (constructor; [split; reflexivity|]); constructor.
  - destruct R as [-> | ->]; cbn [map rsum fold_right snd]; real_value (lit 1 2); real_value (lit 1 4); real_value (lit 3 4); rewrite ?E, ?E0, ?E1, !Rabs_pos_eq; lra.
  - assert (N : List.length (row w_csr (offset [2%nat] [i])) = 2) by (destruct R as [-> | ->]; reflexivity). rewrite N.
    assert (H : (IZR (2 ^ 13) <= HUGE)%R) by (unfold HUGE; change (2 ^ 13)%Z with (radix2 ^ 13)%Z; rewrite IZR_Zpower by lia; apply bpow_le; lia).
    assert (E5 : (eta <= 1)%R) by (unfold eta; change 1%R with (bpow radix2 0); apply bpow_le; lia). pose proof eta_pos as E6.
    eapply Rle_trans; [|exact H]. change (IZR (2 ^ 13)) with 8192%R. change (INR 2) with (1 + 1)%R. cbn [pow].
    assert (P2 : ((1 + u) * ((1 + u) * ((1 + u) * 1)) <= 16)%R) by (rewrite U; lra).
    apply Rle_trans with (16 * (1 * 12 + (1 + 1) * eta))%R; [apply Rmult_le_compat_r; lra|lra].
Qed.
(** A nearest-neighbour matrix beside weights of zero, and a field of classes. *)
Example C142_met : exists r, regrid (of_Z 0) fadd fmul (Ok (Some (m_csr, [2]))) (m_field (of_Z 7) (lit 3 10)) tt = Ok (r, tt) /\
  row m_csr 0 = [(0, of_Z 0)] ++ (offset [2] [1], of_Z 1) :: [] /\ row m_csr 1 = [(offset [2] [1], of_Z 1)] /\
  item r [0] = lit 3 10 /\ item r [1] = lit 3 10.
Proof. eexists. split; [reflexivity|]. repeat split; vm_compute; reflexivity. Qed.

Print Assumptions C141_spreads.
Print Assumptions C141_kept.
Print Assumptions C141_cause.
Print Assumptions C141_exactly.
Print Assumptions C141_zero_refuted.
Print Assumptions C141_overflow_refuted.
Print Assumptions C142_copied_partial.
Print Assumptions C142_zeros_partial.
Print Assumptions C142_classes.
Print Assumptions C142_zero_sign_refuted.
Print Assumptions C142_infinite_refuted.
