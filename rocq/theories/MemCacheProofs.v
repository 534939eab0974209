(** Lemmas about the memory-cache model. *)
From Verif Require Import PyBase ListLemmas MemCache.
From Coq Require Import Permutation Sorted.

(** String order facts used by the tie-break of the largest policy. *)
Lemma string_compare_refl a : String.compare a a = Eq.
Proof.
  induction a as [|c a IH]; cbn; [reflexivity|].
  unfold Ascii.compare. rewrite N.compare_refl. exact IH.
Qed.

Lemma str_leb_refl a : str_leb a a = true.
Proof. unfold str_leb, String.leb. now rewrite string_compare_refl. Qed.

Lemma str_leb_total a b : str_leb a b = true \/ str_leb b a = true.
Proof. unfold str_leb. apply String.leb_total. Qed.

Lemma ascii_compare_trans_lt a b c :
  Ascii.compare a b = Lt -> Ascii.compare b c = Lt -> Ascii.compare a c = Lt.
Proof. unfold Ascii.compare. rewrite !N.compare_lt_iff. lia. Qed.

Lemma string_compare_trans a b c x :
  String.compare a b = x -> String.compare b c = x -> x <> Eq -> String.compare a c = x.
Proof.
  revert b c; induction a as [|ca a IH]; intros [|cb b] [|cc c]; cbn; intros H1 H2 Hx;
    try congruence.
  destruct (Ascii.compare ca cb) eqn:E1; destruct (Ascii.compare cb cc) eqn:E2;
    try (apply Ascii.compare_eq_iff in E1; subst);
    try (apply Ascii.compare_eq_iff in E2; subst);
    try (rewrite E1 + idtac; rewrite ?E2).
  - unfold Ascii.compare. rewrite N.compare_refl. eauto.
  - congruence.
  - congruence.
  - congruence.
  - subst x. rewrite (ascii_compare_trans_lt _ _ _ E1 E2). reflexivity.
  - congruence.
  - congruence.
  - congruence.
  - subst x. assert (Ascii.compare ca cc = Gt) as ->; [|reflexivity].
    unfold Ascii.compare in *. rewrite N.compare_gt_iff in *. lia.
Qed.

Lemma str_leb_trans a b c : str_leb a b = true -> str_leb b c = true -> str_leb a c = true.
Proof.
  unfold str_leb, String.leb. intros H1 H2.
  destruct (String.compare a b) eqn:E1; try discriminate.
  - apply String.compare_eq_iff in E1. subst. exact H2.
  - destruct (String.compare b c) eqn:E2; try discriminate.
    + apply String.compare_eq_iff in E2. subst. rewrite E1. reflexivity.
    + rewrite (string_compare_trans _ _ _ _ E1 E2) by discriminate. reflexivity.
Qed.

Lemma pair_leb_refl a : pair_leb a a = true.
Proof. unfold pair_leb. rewrite str_leb_refl. lia. Qed.

Lemma pair_leb_trans a b c : pair_leb a b = true -> pair_leb b c = true -> pair_leb a c = true.
Proof.
  unfold pair_leb. destruct a as [a1 a2], b as [b1 b2], c as [c1 c2]; cbn [fst snd].
  rewrite !orb_true_iff, !andb_true_iff, !Z.ltb_lt, !Z.eqb_eq.
  intros [H1|[H1 S1]] [H2|[H2 S2]]; try (left; lia).
  right; split; [lia|]. eapply str_leb_trans; eassumption.
Qed.

Lemma pair_leb_total a b : pair_leb a b = true \/ pair_leb b a = true.
Proof.
  unfold pair_leb. destruct a as [a1 a2], b as [b1 b2]; cbn [fst snd].
  rewrite !orb_true_iff, !andb_true_iff, !Z.ltb_lt, !Z.eqb_eq.
  destruct (Z.lt_trichotomy a1 b1) as [|[|]]; [tauto| |tauto].
  destruct (str_leb_total a2 b2); [left|right]; right; (split; [lia|assumption]).
Qed.

Lemma pair_leb_size a b : pair_leb a b = true -> fst a <= fst b.
Proof. unfold pair_leb. lia. Qed.

Arguments curr_mem_of {W} l : simpl never.

Section Proofs.
  Variables Req Ent W : Type.
  Variable key_of : Req -> string.
  Variable est_size : Ent -> Z.
  Variable size_of : W -> Z.

  Notation state := (MemCache.state W).
  Notation item := (MemCache.item W).
  Notation op := (MemCache.op Req Ent W).
  Notation out := (MemCache.out Req Ent W).
  Notation inventory := (MemCache.inventory Req Ent W).
  Notation get := (MemCache.get key_of est_size size_of).
  Notation step := (MemCache.step key_of est_size size_of).
  Notation run := (MemCache.run key_of est_size size_of).
  Notation create_with_pre_check := (MemCache.create_with_pre_check (Req:=Req) (W:=W) est_size).
  Implicit Types (s : state) (l : list (string * item)).

  Definition nonneg l := Forall (fun p : string * item => 0 <= it_size (snd p)) l.

  Definition Inv s :=
    curr_mem s = curr_mem_of (items s) /\ NoDup (akeys (items s)) /\ nonneg (items s).

  Lemma cm_app l1 l2 : curr_mem_of (l1 ++ l2) = curr_mem_of l1 + curr_mem_of l2.
  Proof. unfold curr_mem_of. rewrite map_app. apply zsum_app. Qed.

  Lemma cm_cons k it l : curr_mem_of ((k, it) :: l) = it_size it + curr_mem_of l.
  Proof. reflexivity. Qed.

  Lemma cm_nonneg l : nonneg l -> 0 <= curr_mem_of l.
  Proof.
    intros H. apply zsum_nonneg. rewrite Forall_map. exact H.
  Qed.

  Lemma cm_perm l1 l2 : Permutation l1 l2 -> curr_mem_of l1 = curr_mem_of l2.
  Proof. intros H. apply zsum_perm, Permutation_map, H. Qed.

  Lemma nonneg_perm l1 l2 : Permutation l1 l2 -> nonneg l1 -> nonneg l2.
  Proof. intros H1 H2. eapply Permutation_Forall; eassumption. Qed.

  (** *** lru *)
  Lemma lru_reduce_spec l c t :
    c = curr_mem_of l ->
    exists pre l' c',
      lru_reduce l c t = (l', c') /\ l = pre ++ l' /\ c' = curr_mem_of l' /\
      (c' < t \/ l' = []) /\
      (forall pre' k it, pre = pre' ++ [(k, it)] -> it_size it + c' >= t).
  Proof.
    revert c; induction l as [|[k it] l IH]; intros c Hc.
    - exists [], [], c. cbn. repeat split; auto.
      intros pre' k it E. destruct pre'; discriminate.
    - cbn [lru_reduce]. destruct (c >=? t) eqn:E.
      + rewrite cm_cons in Hc.
        destruct (IH (c - it_size it)) as (pre & l' & c' & E1 & E2 & E3 & E4 & E5); [lia|].
        exists ((k, it) :: pre), l', c'. rewrite E1. repeat split; auto.
        * cbn. now rewrite E2.
        * intros pre' k' it' Ep. destruct pre as [|x pre].
          -- destruct pre' as [|y pre']; [|destruct pre'; discriminate].
             cbn in Ep. inversion Ep; subst k' it'. cbn [app] in E2. subst l. lia.
          -- destruct pre' as [|y pre']; [discriminate|].
             cbn in Ep. inversion Ep; subst. eapply E5. eassumption.
      + exists [], ((k, it) :: l), c. repeat split; auto; try lia.
        intros pre' k' it' Ep. destruct pre'; discriminate.
  Qed.

  (** *** largest *)
  Lemma max_pair_spec a l :
    (max_pair a l = a \/ exists k it, In (k, it) l /\ max_pair a l = (it_size it, k)) /\
    pair_leb a (max_pair a l) = true /\
    (forall k it, In (k, it) l -> pair_leb (it_size it, k) (max_pair a l) = true).
  Proof.
    revert a; induction l as [|[k it] l IH]; intros a; cbn [max_pair].
    - repeat split; [auto | apply pair_leb_refl | intros ? ? []].
    - destruct (pair_leb a (it_size it, k)) eqn:E;
        [destruct (IH (it_size it, k)) as (H1 & H2 & H3) | destruct (IH a) as (H1 & H2 & H3)].
      + repeat split.
        * right. destruct H1 as [H1|(k' & it' & HI & H1)].
          -- exists k, it. cbn; auto.
          -- exists k', it'. cbn; auto.
        * eapply pair_leb_trans; eassumption.
        * intros k' it' [HE|HI]; [inversion HE; subst; exact H2 | auto].
      + assert (pair_leb (it_size it, k) a = true) as E'
          by (destruct (pair_leb_total a (it_size it, k)); congruence).
        repeat split.
        * destruct H1 as [H1|(k' & it' & HI & H1)]; [auto|].
          right. exists k', it'. cbn; auto.
        * exact H2.
        * intros k' it' [HE|HI]; [inversion HE; subst | auto].
          eapply pair_leb_trans; eassumption.
  Qed.

  Lemma largest_spec l sz k :
    largest l = Some (sz, k) ->
    (exists it, In (k, it) l /\ it_size it = sz) /\
    (forall k' it', In (k', it') l -> pair_leb (it_size it', k') (sz, k) = true).
  Proof.
    destruct l as [|[k0 it0] l]; cbn [largest]; [discriminate|].
    intros H. injection H as H.
    destruct (max_pair_spec (it_size it0, k0) l) as (H1 & H2 & H3).
    rewrite H in *. split.
    - destruct H1 as [H1|(k' & it' & HI & H1)]; inversion H1; subst.
      + exists it0. cbn; auto.
      + exists it'. cbn; auto.
    - intros k' it' [HE|HI]; [inversion HE; subst; exact H2 | auto].
  Qed.

  Lemma largest_none l : largest l = None -> l = [].
  Proof. destruct l as [|[? ?] ?]; cbn; [auto|discriminate]. Qed.

  (** [ev]: the evicted items, last evicted first. *)
  Lemma largest_reduce_spec n l c t :
    (List.length l <= n)%nat -> NoDup (akeys l) -> nonneg l -> c = curr_mem_of l ->
    exists ev l' c',
      largest_reduce n l c t = (l', c') /\
      Permutation l (ev ++ l') /\ c' = curr_mem_of l' /\ (c' < t \/ l' = []) /\
      NoDup (akeys l') /\ nonneg l' /\
      (forall k it, In (k, it) l' <-> In (k, it) l /\ ~ In (k, it) ev) /\
      (forall k it k' it', In (k, it) ev -> In (k', it') l' ->
         pair_leb (it_size it', k') (it_size it, k) = true) /\
      (forall k it ev', ev = (k, it) :: ev' -> it_size it + c' >= t).
  Proof.
    revert l c; induction n as [|n IH]; intros l c Hn ND NN Hc.
    - destruct l; [|cbn in Hn; lia].
      exists [], [], c. cbn. repeat split; auto; try constructor; try tauto.
      intros; discriminate.
    - cbn [largest_reduce]. destruct (largest l) as [[sz k]|] eqn:EL.
      2:{ apply largest_none in EL. subst l.
          exists [], [], c. cbn. repeat split; auto; try constructor; try tauto.
          intros; discriminate. }
      destruct (largest_spec _ _ _ EL) as [(it & HI & Hsz) Hmax].
      destruct (c >=? t) eqn:E.
      2:{ exists [], l, c. cbn. repeat split; auto; try lia; try tauto.
          intros; discriminate. }
      assert (HL : alookup k l = Some it) by (apply In_alookup; auto).
      pose proof (aremove_perm k l it ND HL) as HP.
      assert (Hc2 : c - sz = curr_mem_of (aremove k l)).
      { rewrite Hc, (cm_perm _ _ HP), cm_cons. lia. }
      assert (NN2 : nonneg (aremove k l)).
      { apply (nonneg_perm _ _ HP) in NN. inversion NN; assumption. }
      pose proof (cm_nonneg _ NN2) as Hge.
      replace (if c - sz <? 0 then 0 else c - sz) with (c - sz)
        by (destruct (Z.ltb_spec (c - sz) 0); lia).
      destruct (IH (aremove k l) (c - sz)) as
        (ev & l' & c' & E1 & E2 & E3 & E4 & E5 & E6 & E7 & E8 & E9).
      + apply Permutation_length in HP. cbn in HP. lia.
      + apply aremove_NoDup; auto.
      + exact NN2.
      + exact Hc2.
      + exists (ev ++ [(k, it)]), l', c'. rewrite E1. repeat split; auto.
        * rewrite HP, E2. rewrite <- app_assoc. cbn.
          apply Permutation_middle.
        * apply E7 in H. destruct H as [H _]. apply aremove_In in H. tauto.
        * rewrite in_app_iff. apply E7 in H. destruct H as [H Hn']. apply aremove_In in H.
          intros [Hx|[Hx|[]]]; [tauto|]. inversion Hx; subst; tauto.
        * intros [H1 H2]. rewrite in_app_iff in H2. apply E7. split; [|tauto].
          apply aremove_In. split; [exact H1|]. intros ->.
          apply H2. right. left. f_equal.
          apply (In_alookup _ _ _ ND) in H1. congruence.
        * intros k1 it1 k2 it2 H1 H2. rewrite in_app_iff in H1.
          destruct H1 as [H1|[H1|[]]].
          -- eapply E8; eassumption.
          -- inversion H1; subst. apply Hmax.
             apply E7 in H2. destruct H2 as [H2 _]. apply aremove_In in H2. tauto.
        * intros k1 it1 ev' Hev. destruct ev as [|x ev].
          -- cbn in Hev. injection Hev as Hk Hit _. subst k1 it1. cbn in E2.
             assert (curr_mem_of l' = c - it_size it)
               by (rewrite Hsz, Hc2; symmetry; apply cm_perm; exact E2).
             lia.
          -- cbn in Hev. inversion Hev; subst. eapply E9. reflexivity.
  Qed.

  (** *** [check], [_reduce] *)
  Definition well_conf s : Prop :=
    match pol s with
    | POff => max_mem s = Some 0 /\ strict s = false
    | PUnlimited => max_mem s = None /\ strict s = false
    | _ => exists m, max_mem s = Some m /\ 0 < m
    end.

  Definition bounded s : Prop :=
    match pol s with
    | POff => items s = []
    | PUnlimited => True
    | _ => forall m, max_mem s = Some m -> curr_mem s < m \/ items s = []
    end.

  Lemma check_fields p s s' r :
    check p s = (s', r) ->
    items s' = items s /\ curr_mem s' = curr_mem s /\ hits s' = hits s /\
    misses s' = misses s /\ pol s' = pol s.
  Proof. destruct p; cbn; intros H; inversion H; subst; cbn; auto. Qed.

  Lemma reduce_inv tgt s s' r : Inv s -> reduce_ tgt s = (s', r) -> Inv s' /\ pol s' = pol s.
  Proof.
    intros (I1 & I2 & I3) H. unfold reduce_ in H.
    destruct (check (pol s) s) as [s1 rc] eqn:EC.
    destruct (check_fields _ _ _ _ EC) as (F1 & F2 & F3 & F4 & F5).
    assert (Inv s1) as Is1 by (unfold Inv; rewrite F1, F2; auto).
    destruct rc as [u|e|].
    2,3: inversion H; subst; auto.
    destruct (has_cache (pol s1)) eqn:Eh; cbn [negb] in H.
    2:{ inversion H; subst. split; [|cbn; congruence].
        unfold Inv; cbn. repeat split; constructor. }
    destruct (pol s1) eqn:EP; try discriminate.
    - inversion H; subst. split; [|cbn; congruence].
      unfold Inv; cbn. rewrite F1. repeat split; auto.
    - set (t := match tgt with Some t => Some t | None => max_mem s1 end) in *.
      destruct t as [t|].
      2:{ inversion H; subst. split; [|cbn; congruence]. unfold Inv; cbn; rewrite F1; auto. }
      destruct (lru_reduce_spec (items s1) (curr_mem_of (items s1)) t eq_refl)
        as (pre & l' & c' & E1 & E2 & E3 & E4 & E5).
      rewrite E1 in H. inversion H; subst s' r. split; [|cbn; congruence].
      unfold Inv; cbn. rewrite F1 in E2. rewrite E2 in I2, I3. repeat split; auto.
      + rewrite akeys_app in I2. revert I2. generalize (akeys pre) (akeys l').
        intros a b. induction a as [|x a IH]; cbn; auto.
        intros HN. inversion HN; auto.
      + apply Forall_app in I3. tauto.
    - set (t := match tgt with Some t => Some t | None => max_mem s1 end) in *.
      destruct t as [t|].
      2:{ inversion H; subst. split; [|cbn; congruence]. unfold Inv; cbn; rewrite F1; auto. }
      rewrite <- F1 in I2, I3.
      destruct (largest_reduce_spec (List.length (items s1)) (items s1)
                  (curr_mem_of (items s1)) t (le_n _) I2 I3 eq_refl)
        as (ev & l' & c' & E1 & E2 & E3 & E4 & E5 & E6 & _).
      rewrite E1 in H. inversion H; subst s' r. split; [|cbn; congruence].
      unfold Inv; cbn. auto.
  Qed.

  (** Complete description of [_reduce] on a well configured cache. *)
  Lemma reduce_limited tgt s m :
    has_limit (pol s) = true -> max_mem s = Some m -> 0 < m ->
    exists s', reduce_ tgt s = (s', Ok tt) /\ max_mem s' = max_mem s /\
      strict s' = strict s /\ pol s' = pol s /\ hits s' = hits s /\ misses s' = misses s /\
      let t := match tgt with Some t => t | None => m end in
      (pol s = PLru -> (items s', curr_mem s') = lru_reduce (items s) (curr_mem_of (items s)) t) /\
      (pol s = PLargest ->
         (items s', curr_mem s') =
         largest_reduce (List.length (items s)) (items s) (curr_mem_of (items s)) t).
  Proof.
    intros HL HM Hm. unfold reduce_.
    destruct (pol s) eqn:EP; try discriminate; cbn [check]; rewrite HM;
      (destruct (Z.leb_spec m 0); [lia|]); rewrite EP; cbn [has_cache negb];
      replace (match tgt with Some t => Some t | None => Some m end)
        with (Some (match tgt with Some t => t | None => m end)) by (destruct tgt; reflexivity).
    - destruct (lru_reduce _ _ _) as [l c] eqn:E. eexists. split; [reflexivity|].
      cbn. rewrite HM. repeat split; auto; intros; discriminate.
    - destruct (largest_reduce _ _ _ _) as [l c] eqn:E. eexists. split; [reflexivity|].
      cbn. rewrite HM. repeat split; auto; intros; discriminate.
  Qed.

  Lemma reduce_bound tgt s m s' r :
    Inv s -> has_limit (pol s) = true -> max_mem s = Some m -> 0 < m ->
    reduce_ tgt s = (s', r) ->
    r = Ok tt /\ max_mem s' = max_mem s /\ strict s' = strict s /\ pol s' = pol s /\
    hits s' = hits s /\ misses s' = misses s /\
    (curr_mem s' < match tgt with Some t => t | None => m end \/ items s' = []) /\
    (forall p, In p (items s') -> In p (items s)) /\
    curr_mem s' <= curr_mem s.
  Proof.
    intros (I1 & I2 & I3) HL HM Hm HR.
    destruct (reduce_limited tgt s m HL HM Hm) as (s2 & E & F1 & F2 & F3 & F4 & F5 & G1 & G2).
    rewrite E in HR. inversion HR; subst s2 r.
    split; [reflexivity|]. do 5 (split; [assumption|]).
    set (t := match tgt with Some t => t | None => m end) in *.
    destruct (pol s) eqn:EP; try discriminate.
    - specialize (G1 eq_refl).
      destruct (lru_reduce_spec (items s) (curr_mem_of (items s)) t eq_refl)
        as (pre & l' & c' & E1 & E2 & E3 & E4 & E5).
      rewrite E1 in G1. inversion G1 as [[Hi Hcm]]. rewrite Hi, Hcm.
      repeat split; auto.
      + intros p Hp. rewrite E2, in_app_iff. auto.
      + rewrite I1, E2, cm_app. rewrite E2 in I3. apply Forall_app in I3.
        destruct I3 as [I3 _]. apply cm_nonneg in I3. lia.
    - specialize (G2 eq_refl).
      destruct (largest_reduce_spec (List.length (items s)) (items s)
                  (curr_mem_of (items s)) t (le_n _) I2 I3 eq_refl)
        as (ev & l' & c' & E1 & E2 & E3 & E4 & E5 & E6 & E7 & _).
      rewrite E1 in G2. inversion G2 as [[Hi Hcm]]. rewrite Hi, Hcm.
      repeat split; auto.
      + intros [k it] Hp. apply E7 in Hp. tauto.
      + rewrite I1, (cm_perm _ _ E2), cm_app.
        apply (nonneg_perm _ _ E2) in I3. apply Forall_app in I3.
        destruct I3 as [I3 _]. apply cm_nonneg in I3. lia.
  Qed.

  (** *** pre-check *)
  Lemma pre_check_inv i r s s' cl d :
    Inv s -> create_with_pre_check i r s = (s', cl, d) -> Inv s' /\ pol s' = pol s.
  Proof.
    intros HI H. unfold MemCache.create_with_pre_check in H.
    destruct (i_find i r) as [[e|]|e|]; try (inversion H; subst; auto; fail).
    destruct (max_mem s) as [m|]; try (inversion H; subst; auto; fail).
    destruct ((est_size e >? m - curr_mem s) && (est_size e <=? m)).
    - destruct (reduce_ (Some (m - est_size e)) s) as [s1 rr] eqn:E.
      destruct (reduce_inv _ _ _ _ HI E) as [HI1 HP1].
      destruct rr; [destruct (_ && _)| |]; inversion H; subst; auto.
    - destruct (_ && _); inversion H; subst; auto.
  Qed.

  Lemma aset_inv s k w :
    (forall w', 0 <= size_of w') ->
    Inv s -> alookup k (items s) = None ->
    Inv (mkState (aset k (mkItem w (size_of w)) (items s)) (max_mem s)
           (curr_mem s + size_of w) (hits s) (misses s + 1) (strict s) (pol s)).
  Proof.
    intros Hsz (I1 & I2 & I3) HN. apply alookup_None in HN.
    unfold Inv; cbn. rewrite aset_notin by assumption.
    rewrite cm_app, akeys_app. cbn. repeat split.
    - unfold curr_mem_of at 2. cbn. lia.
    - apply NoDup_snoc; assumption.
    - apply Forall_app; split; [assumption|]. constructor; [apply Hsz|constructor].
  Qed.

  Lemma move_to_end_inv s k it :
    Inv s -> alookup k (items s) = Some it ->
    curr_mem_of (move_to_end k it (items s)) = curr_mem_of (items s) /\
    NoDup (akeys (move_to_end k it (items s))) /\ nonneg (move_to_end k it (items s)).
  Proof.
    intros (I1 & I2 & I3) HL. unfold move_to_end.
    pose proof (aremove_perm _ _ _ I2 HL) as HP.
    assert (Permutation (items s) (aremove k (items s) ++ [(k, it)])) as HP2.
    { eapply Permutation_trans; [exact HP|]. apply Permutation_cons_append. }
    repeat split.
    - symmetry. apply cm_perm, HP2.
    - rewrite akeys_app. cbn. apply NoDup_snoc; [apply aremove_NoDup; auto|].
      rewrite aremove_keys_in. tauto.
    - eapply nonneg_perm; eassumption.
  Qed.

  Lemma get_inv i r s s' cl d :
    (forall w, 0 <= size_of w) -> Inv s -> get i r s = (s', cl, d) -> Inv s' /\ pol s' = pol s.
  Proof.
    intros Hsz HI H. unfold MemCache.get in H.
    destruct (has_cache (pol s)) eqn:Eh; cbn [negb] in H.
    2:{ inversion H; subst; auto. }
    destruct (alookup (key_of r) (items s)) as [it|] eqn:EL.
    - inversion H; subst. destruct (move_to_end_inv _ _ _ HI EL) as (A & B & C).
      split; [|reflexivity]. unfold Inv; cbn. rewrite A. destruct HI as [-> _]. auto.
    - destruct (if has_limit (pol s) then _ else _) as [[s1 calls] data] eqn:E1.
      assert (Inv s1 /\ pol s1 = pol s /\ alookup (key_of r) (items s1) = None) as (HI1 & HP1 & HN1).
      { destruct (has_limit (pol s)) eqn:Ehl.
        2:{ inversion E1; subst; auto. }
        pose proof (pre_check_inv _ _ _ _ _ _ HI E1) as [A B]. split; [exact A|]. split; [exact B|].
        apply alookup_None. apply alookup_None in EL. intros Hin. apply EL.
        rewrite akeys_map in *. apply in_map_iff in Hin. destruct Hin as ([k it] & Ek & Hin).
        cbn in Ek. subst k.
        assert (In (key_of r, it) (items s)).
        { clear - E1 Hin HI. unfold MemCache.create_with_pre_check in E1.
          destruct (i_find i r) as [[e|]|e|]; try (inversion E1; subst; auto; fail).
          destruct (max_mem s) as [m|] eqn:EM; try (inversion E1; subst; auto; fail).
          destruct ((est_size e >? m - curr_mem s) && (est_size e <=? m)).
          2:{ destruct (_ && _); inversion E1; subst; auto. }
          destruct (reduce_ (Some (m - est_size e)) s) as [s2 rr] eqn:E.
          assert (s1 = s2) as ->
            by (destruct rr; [destruct (_ && _)| |]; inversion E1; subst; auto).
          unfold reduce_ in E.
          destruct (check (pol s) s) as [s3 rc] eqn:EC.
          destruct (check_fields _ _ _ _ EC) as (F1 & F2 & F3 & F4 & F5).
          destruct HI as (J1 & J2 & J3). rewrite <- F1 in J2, J3 |- *.
          destruct rc; try (inversion E; subst; auto; fail).
          destruct (negb _); [inversion E; subst; destruct Hin|].
          destruct (pol s3); try (inversion E; subst; auto; fail).
          - destruct (lru_reduce_spec (items s3) (curr_mem_of (items s3)) (m - est_size e) eq_refl)
              as (pre & l' & c' & X1 & X2 & _).
            rewrite X1 in E. inversion E; subst. cbn in Hin. rewrite X2, in_app_iff. auto.
          - destruct (largest_reduce_spec (List.length (items s3)) (items s3)
                  (curr_mem_of (items s3)) (m - est_size e) (le_n _) J2 J3 eq_refl)
              as (ev & l' & c' & X1 & _ & _ & _ & _ & _ & X7 & _).
            rewrite X1 in E. inversion E; subst. cbn in Hin. apply X7 in Hin. tauto. }
        apply (in_map fst) in H0. exact H0. }
      destruct data as [[w|]|e|].
      + cbn [it_size] in H.
        destruct (reduce_ None _) as [s3 rr] eqn:E3.
        pose proof (aset_inv s1 (key_of r) w Hsz HI1 HN1) as HI2.
        destruct (reduce_inv _ _ _ _ HI2 E3) as [HI3 HP3]. cbn in HP3.
        destruct rr; inversion H; subst; split; auto; congruence.
      + inversion H; subst. split; [|assumption]. destruct HI1 as (A & B & C).
        unfold Inv; cbn; auto.
      + inversion H; subst; auto.
      + inversion H; subst; auto.
  Qed.

  Lemma update_pre_inv c s : Inv s -> Inv (fst (update c s)).
  Proof.
    intros HI. unfold update.
    set (ch1 := negb _). set (s1 := mkState (items s) _ _ _ _ _ _).
    set (ch2 := negb _). set (s2 := mkState (items s1) _ _ _ _ _ _).
    assert (Inv s2) as HI2 by exact HI.
    clearbody s2 ch2 s1 ch1. clear s1 HI s.
    destruct (String.eqb _ _).
    - destruct (_ || _); cbn; [|assumption].
      destruct (reduce_ None s2) as [s4 r4] eqn:E. cbn. eapply reduce_inv; eassumption.
    - destruct (make_policy (c_policy c)) as [p|]; [|assumption].
      destruct (check p s2) as [s' rc] eqn:EC.
      destruct (check_fields _ _ _ _ EC) as (F1 & F2 & F3 & F4 & F5).
      assert (Inv s') by (unfold Inv; rewrite F1, F2; exact HI2).
      destruct rc; try assumption.
      destruct (_ || _); cbn; [|exact H].
      destruct (reduce_ None _) as [s4 r4] eqn:E. cbn. eapply reduce_inv; [|eassumption]. exact H.
  Qed.

  Lemma step_inv s o : (forall w, 0 <= size_of w) -> Inv s -> Inv (fst (step s o)).
  Proof.
    intros Hsz HI. destruct o as [i r|c| |]; cbn.
    - destruct (MemCache.get _ _ _ i r s) as [[s' cl] d] eqn:E. cbn.
      eapply get_inv; eassumption.
    - pose proof (update_pre_inv c s HI) as H. destruct (update c s); exact H.
    - unfold Inv; cbn. repeat split; constructor.
    - exact HI.
  Qed.

  Lemma run_inv s ops : (forall w, 0 <= size_of w) -> Inv s -> Inv (fst (run s ops)).
  Proof.
    intros Hsz. revert s; induction ops as [|o ops IH]; intros s HI; cbn; [exact HI|].
    pose proof (step_inv s o Hsz HI) as H1. destruct (step s o) as [s1 x]. cbn in H1.
    specialize (IH s1 H1). destruct (run s1 ops) as [s2 xs]. exact IH.
  Qed.

  Lemma fresh_inv : Inv (@fresh W).
  Proof. unfold Inv; cbn. repeat split; constructor. Qed.

  Lemma init_inv c : Inv (fst (@init W c)).
  Proof. apply update_pre_inv, fresh_inv. Qed.

  (** *** The global invariant of histories whose updates succeed *)
  Definition GInv s := Inv s /\ well_conf s /\ bounded s.

  Hypothesis size_nonneg : forall w, 0 <= size_of w.

  Lemma pre_check_limited i r s m s1 cl d :
    Inv s -> has_limit (pol s) = true -> max_mem s = Some m -> 0 < m ->
    create_with_pre_check i r s = (s1, cl, d) ->
    Inv s1 /\ max_mem s1 = max_mem s /\ strict s1 = strict s /\ pol s1 = pol s /\
    hits s1 = hits s /\ misses s1 = misses s /\
    (forall p, In p (items s1) -> In p (items s)) /\ curr_mem s1 <= curr_mem s /\
    (forall x, d = Ok x -> create i r = Ok x) /\
    (forall e, d = Raise e ->
       create i r = Raise e \/
       (e = WeightsTooLarge /\ strict s = true /\
        exists ent, i_find i r = Ok (Some ent) /\ est_size ent > m)) /\
    (d = OutOfFuel -> create i r = OutOfFuel) /\ cl <> [].
  Proof.
    intros HI HL HM Hm H.
    pose proof HI as (I1 & I2 & I3).
    pose proof (cm_nonneg _ I3) as Hge.
    unfold MemCache.create_with_pre_check in H. unfold create.
    destruct (i_find i r) as [[e|]|e|] eqn:EF; cbn [bind create_from_entry].
    2,3,4: inversion H; subst; repeat (split; [solve [auto; try lia; try discriminate]|]);
      repeat split; try discriminate; try congruence; try lia; auto;
      try (intros ? HH; inversion HH; subst; auto).
    rewrite HM in H.
    assert (exists s2, (if (est_size e >? m - curr_mem s) && (est_size e <=? m)
             then reduce_ (Some (m - est_size e)) s else (s, Ok tt)) = (s2, Ok tt) /\
             Inv s2 /\ max_mem s2 = max_mem s /\ strict s2 = strict s /\ pol s2 = pol s /\
             hits s2 = hits s /\ misses s2 = misses s /\
             (forall p, In p (items s2) -> In p (items s)) /\ curr_mem s2 <= curr_mem s /\
             (est_size e <= m -> est_size e <= m - curr_mem s2)) as
      (s2 & E2 & J1 & J2 & J3 & J4 & J5 & J6 & J7 & J8 & J9).
    { destruct (est_size e >? m - curr_mem s) eqn:C1; [destruct (est_size e <=? m) eqn:C2|]; cbn [andb].
      - destruct (reduce_ (Some (m - est_size e)) s) as [s2 rr] eqn:ER.
        destruct (reduce_bound _ _ _ _ _ HI HL HM Hm ER)
          as (-> & K2 & K3 & K4 & K5 & K6 & K7 & K8 & K9).
        destruct (reduce_inv _ _ _ _ HI ER) as [K10 _].
        exists s2. repeat (split; [assumption || reflexivity|]).
        intros _. destruct K7 as [K7|K7]; [lia|].
        destruct K10 as (K10 & _). rewrite K7 in K10. unfold curr_mem_of in K10. cbn in K10. lia.
      - exists s. repeat (split; [solve [auto; lia]|]). lia.
      - exists s. repeat (split; [solve [auto; lia]|]). lia. }
    rewrite E2 in H.
    destruct (strict s2 && (m - curr_mem s2 <? est_size e)) eqn:ES; inversion H; subst s1 cl d.
    - repeat (split; [solve [auto]|]).
      assert (strict s = true) by (rewrite <- J3; destruct (strict s2); [reflexivity|discriminate]).
      split; [discriminate|]. split; [|split; [discriminate|discriminate]].
      intros e' He'. inversion He'; subst. right. repeat split; auto.
      exists e. split; [reflexivity|].
      destruct (Z_le_gt_dec (est_size e) m); [|lia].
      rewrite J3, H0 in ES. cbn in ES. lia.
    - repeat (split; [solve [auto]|]). discriminate.
  Qed.

  Lemma get_ginv i r s s' cl d :
    GInv s -> get i r s = (s', cl, d) ->
    GInv s' /\ max_mem s' = max_mem s /\ strict s' = strict s /\ pol s' = pol s.
  Proof.
    intros (HI & HW & HB) H.
    destruct (get_inv _ _ _ _ _ _ size_nonneg HI H) as [HI' HP'].
    unfold MemCache.get in H.
    destruct (has_cache (pol s)) eqn:Eh; cbn [negb] in H.
    2:{ inversion H; subst; repeat split; auto; try apply HI. }
    destruct (alookup (key_of r) (items s)) as [it|] eqn:EL.
    { inversion H; subst; cbn in *. repeat split; auto; try apply HI'.
      unfold bounded in *; cbn in *. destruct (pol s); auto; try discriminate.
      - intros m Hm. destruct (HB m Hm) as [|E]; [auto|]. rewrite E in EL. discriminate.
      - intros m Hm. destruct (HB m Hm) as [|E]; [auto|]. rewrite E in EL. discriminate. }
    destruct (has_limit (pol s)) eqn:Ehl.
    - assert (exists m, max_mem s = Some m /\ 0 < m) as (m & HM & Hm)
        by (unfold well_conf in HW; destruct (pol s); try discriminate; exact HW).
      destruct (create_with_pre_check i r s) as [[s1 cl1] d1] eqn:E1.
      destruct (pre_check_limited _ _ _ _ _ _ _ HI Ehl HM Hm E1)
        as (J1 & J2 & J3 & J4 & J5 & J6 & J7 & J8 & _).
      assert (Hb1 : curr_mem s1 < m \/ items s1 = []).
      { unfold bounded in HB.
        assert (curr_mem s < m \/ items s = []) as [Hb|Hb]
            by (destruct (pol s); try discriminate; apply HB; exact HM).
        - left; lia.
        - right. destruct (items s1) as [|p l]; [reflexivity|].
          exfalso. specialize (J7 p (or_introl eq_refl)). rewrite Hb in J7. destruct J7. }
      assert (GInv s1) as HG1.
      { split; [exact J1|]. split.
        - unfold well_conf in *. rewrite J4, J2, J3. exact HW.
        - unfold bounded. rewrite J4, J2.
          destruct (pol s); try discriminate; intros m' Hm'; congruence. }
      destruct d1 as [[w|]|e|].
      + cbn [it_size] in H.
        destruct (reduce_ None _) as [s3 rr] eqn:E3.
        assert (alookup (key_of r) (items s1) = None) as HN.
        { apply alookup_None. apply alookup_None in EL. intros Hin. apply EL.
          rewrite akeys_map in *. apply in_map_iff in Hin. destruct Hin as (p & Ep & Hin).
          apply in_map_iff. exists p. auto. }
        pose proof (aset_inv s1 (key_of r) w size_nonneg J1 HN) as HI2.
        assert (Ehl2 : has_limit (pol s1) = true) by (rewrite J4; exact Ehl).
        rewrite HM in J2.
        destruct (reduce_bound _ _ m _ _ HI2 Ehl2 J2 Hm E3)
          as (-> & K2 & K3 & K4 & K5 & K6 & K7 & K8 & K9). cbn in K2, K3, K4, K7.
        inversion H; subst s' cl d.
        split; [|repeat split; congruence].
        split; [exact HI'|]. split.
        * unfold well_conf in *. rewrite K4, J4, K2, K3, J3, J2, <- HM. exact HW.
        * unfold bounded. rewrite K4, J4, K2, J2.
          destruct (pol s); try discriminate; intros m' Hm'; inversion Hm'; subst; exact K7.
      + inversion H; subst; cbn. split; [|repeat split; congruence].
        destruct HG1 as (G1 & G2 & G3). split; [exact HI'|]. split; [exact G2|exact G3].
      + inversion H; subst. split; [exact HG1|repeat split; congruence].
      + inversion H; subst. split; [exact HG1|repeat split; congruence].
    - assert (pol s = PUnlimited) as EP by (destruct (pol s); try discriminate; reflexivity).
      unfold well_conf in HW. rewrite EP in HW. destruct HW as [HM HS].
      destruct (create i r) as [[w|]|e|].
      + unfold reduce_ in H. cbn in H. rewrite EP in H. cbn in H.
        inversion H; subst s' cl d. cbn. rewrite EP, HM, HS.
        split; [|auto]. split; [exact HI'|]. split; cbn; [unfold well_conf; cbn; auto|exact I].
      + inversion H; subst s' cl d; cbn. split; [|auto]. split; [exact HI'|]. split.
        * unfold well_conf; cbn. rewrite EP. auto.
        * unfold bounded; cbn. rewrite EP. exact I.
      + inversion H; subst; cbn. split; [|auto]. split; [exact HI'|]. split.
        * unfold well_conf; cbn. rewrite EP. auto.
        * unfold bounded; cbn. rewrite EP. exact I.
      + inversion H; subst; cbn. split; [|auto]. split; [exact HI'|]. split.
        * unfold well_conf; cbn. rewrite EP. auto.
        * unfold bounded; cbn. rewrite EP. exact I.
  Qed.
End Proofs.
