(** Strict mode, statistics, off/unlimited, unusable limits, isolation. *)
From Verif Require Import PyBase ListLemmas MemCache MemCacheSpec MemCacheProofs MemCacheProofs2 MemCacheProofs3.
From Coq Require Import Permutation Sorted.

Section Proofs.
  Variables Req Ent W : Type.
  Variable key_of : Req -> string.
  Variable est_size : Ent -> Z.
  Variable size_of : W -> Z.
  Hypothesis size_nonneg : forall w, 0 <= size_of w.

  Notation state := (MemCache.state W).
  Notation item := (MemCache.item W).
  Notation op := (MemCache.op Req Ent W).
  Notation out := (MemCache.out Req Ent W).
  Notation inventory := (MemCache.inventory Req Ent W).
  Notation get := (MemCache.get key_of est_size size_of).
  Notation step := (MemCache.step key_of est_size size_of).
  Notation run := (MemCache.run key_of est_size size_of).
  Notation create_with_pre_check := (MemCache.create_with_pre_check (Req:=Req) (W:=W) est_size).
  Notation after := (MemCacheSpec.after (Req:=Req) key_of est_size size_of).
  Notation trace := (MemCacheSpec.trace (Req:=Req) key_of est_size size_of).
  Notation updates_ok := (MemCacheSpec.updates_ok (Req:=Req) key_of est_size size_of).
  Notation GInv := (MemCacheProofs.GInv W).
  Notation Inv := (MemCacheProofs.Inv W).
  Implicit Types (s : state).

  Lemma limited_conf s : GInv s -> limited s -> exists m, max_mem s = Some m /\ 0 < m.
  Proof.
    intros (_ & HW & _) [E|E]; unfold well_conf in HW; rewrite E in HW; exact HW.
  Qed.

  (** *** strict *)
  Lemma strict_refuses i r s m e s' cl d :
    GInv s -> limited s -> strict s = true -> max_mem s = Some m ->
    ~ held s (key_of r) -> i_find i r = Ok (Some e) ->
    get i r s = (s', cl, d) ->
    (est_size e > m -> s' = s /\ cl = [CFind r] /\ d = Raise WeightsTooLarge) /\
    (est_size e <= m -> cl = [CFind r; CLoad e] /\ d = create i r).
  Proof.
    intros HG HL HS HM HK HF H.
    destruct (limited_conf _ HG HL) as (m' & HM' & Hm). assert (m' = m) by congruence. subst m'.
    assert (EL : alookup (key_of r) (items s) = None) by (apply alookup_None; exact HK).
    assert (Ehl : has_limit (pol s) = true) by (destruct HL as [E|E]; rewrite E; reflexivity).
    assert (Ehc : has_cache (pol s) = true) by (destruct HL as [E|E]; rewrite E; reflexivity).
    unfold MemCache.get in H. rewrite Ehc, EL, Ehl in H. cbn [negb] in H.
    pose proof HG as (HI & HW & HB).
    destruct (create_with_pre_check i r s) as [[s1 cl1] d1] eqn:E1.
    destruct (pre_check_limited _ _ _ key_of _ _ _ _ _ _ _ _ HI Ehl HM Hm E1)
        as (J1 & J2 & J3 & J4 & J5 & J6 & J7 & J8 & J9 & J10 & J11 & J12).
    pose proof E1 as E1'.
    unfold MemCache.create_with_pre_check in E1. rewrite HF, HM in E1.
    split; intros HE.
    - replace ((est_size e >? m - curr_mem s) && (est_size e <=? m)) with false in E1 by lia.
      rewrite HS in E1. cbn [andb] in E1.
      destruct HI as (I1 & I2 & I3). apply cm_nonneg in I3.
      replace (m - curr_mem s <? est_size e) with true in E1 by lia.
      inversion E1; subst. inversion H; subst. auto.
    - assert (Hcl : cl1 = [CFind r; CLoad e] /\ d1 = create i r).
      { destruct (if (est_size e >? m - curr_mem s) && (est_size e <=? m)
             then reduce_ (Some (m - est_size e)) s else (s, Ok tt)) as [s2 rr] eqn:ER.
        assert (rr = Ok tt /\ est_size e <= m - curr_mem s2) as [-> Hc].
        { destruct (est_size e >? m - curr_mem s) eqn:C1; [destruct (est_size e <=? m) eqn:C2|]; cbn [andb] in ER.
          - destruct (reduce_bound _ _ _ _ _ _ HI Ehl HM Hm ER)
              as (-> & K2 & K3 & K4 & K5 & K6 & K7 & K8 & K9).
            split; [reflexivity|]. destruct K7 as [K7|K7]; [lia|].
            destruct (reduce_inv _ _ _ _ _ HI ER) as [(K10 & _) _].
            rewrite K7 in K10. unfold curr_mem_of in K10. cbn in K10. lia.
          - lia.
          - inversion ER; subst. split; [reflexivity|lia]. }
        replace (strict s2 && (m - curr_mem s2 <? est_size e)) with false in E1
          by (destruct (strict s2); lia).
        inversion E1; subst. split; [reflexivity|].
        unfold create. rewrite HF. reflexivity. }
      destruct Hcl as [-> ->].
      destruct (create i r) as [[w|]|x|] eqn:EC; try (inversion H; subst; auto; fail).
      destruct (reduce_ None _) as [s3 rr] eqn:E3.
      assert (HN : alookup (key_of r) (items s1) = None)
        by (eapply sub_lookup_none; [eapply pre_check_sub; exact E1'|exact EL]).
      pose proof (aset_inv _ _ s1 (key_of r) w size_nonneg J1 HN) as HI2.
      assert (Ehl2 : has_limit (pol s1) = true) by (rewrite J4; exact Ehl).
      rewrite HM in J2.
      destruct (reduce_bound _ _ _ m _ _ HI2 Ehl2 J2 Hm E3) as (-> & _).
      inversion H; subst. auto.
  Qed.

  (** *** statistics *)
  Lemma reduce_stats tgt s s' r : reduce_ tgt s = (s', r) ->
    has_cache (pol s) = true -> hits s' = hits s /\ misses s' = misses s.
  Proof.
    unfold reduce_. intros H HC.
    destruct (check (pol s) s) as [s1 rc] eqn:EC.
    destruct (check_fields _ _ _ _ _ EC) as (F1 & F2 & F3 & F4 & F5).
    rewrite <- F3, <- F4. rewrite <- F5 in HC.
    destruct rc as [u|e|]; try (inversion H; subst; auto).
    rewrite HC in H1. cbn [negb] in H1.
    set (t := match tgt with Some t => Some t | None => max_mem s1 end) in *.
    destruct (pol s1), t as [t|]; try (inversion H1; subst; auto; fail).
    - destruct (lru_reduce _ _ _). inversion H1; subst. auto.
    - destruct (largest_reduce _ _ _ _). inversion H1; subst. auto.
  Qed.

  Definition SInv (t : bool * Z * Z) s : Prop :=
    t = (has_cache (pol s), hits s, misses s) /\ (pol s = POff -> hits s = 0 /\ misses s = 0).

  Lemma policy_off p : policy_name p = "off"%string <-> p = POff.
  Proof. destruct p; cbn; split; congruence. Qed.

  Lemma update_stats c s s' :
    GInv s -> (pol s = POff -> hits s = 0 /\ misses s = 0) ->
    update c s = (s', Ok tt) ->
    if String.eqb (c_policy c) "off" then hits s' = 0 /\ misses s' = 0
    else hits s' = hits s /\ misses s' = misses s.
  Proof.
    intros HG HO H. unfold update in H.
    set (ch1 := negb (optZ_eqb (max_mem s) (c_max c))) in *.
    set (s1 := mkState (items s) _ _ _ _ _ _) in *.
    set (ch2 := negb (Bool.eqb (strict s1) (c_strict c))) in *.
    set (s2 := mkState (items s1) _ _ _ _ _ _) in *.
    assert (hits s2 = hits s /\ misses s2 = misses s /\ pol s2 = pol s) as (A1 & A2 & A3) by auto.
    clearbody ch2 s2. 
    destruct (String.eqb_spec (policy_name (pol s2)) (c_policy c)) as [EQ|NE].
    - rewrite <- EQ, A3. destruct (String.eqb_spec (policy_name (pol s)) "off") as [E|E].
      + apply policy_off in E. destruct (HO E) as [O1 O2].
        destruct (_ || _).
        * unfold reduce_ in H. rewrite A3, E in H. cbn in H. rewrite A3, E in H. cbn in H.
          inversion H; subst. auto.
        * inversion H; subst. lia.
      + destruct (_ || _).
        * apply reduce_stats in H; [lia|]. rewrite A3. destruct (pol s); try reflexivity. exfalso; apply E; reflexivity.
        * inversion H; subst. lia.
    - destruct (make_policy (c_policy c)) as [p|] eqn:EM; [|discriminate H].
      pose proof (make_policy_name _ _ EM) as HPN.
      destruct (check p s2) as [s3 rc] eqn:EC.
      destruct (check_fields _ _ _ _ _ EC) as (F1 & F2 & F3 & F4 & F5).
      destruct rc as [u|e|]; try discriminate H.
      replace (ch1 || ch2 || true) with true in H by (destruct ch1, ch2; reflexivity).
      rewrite <- HPN. destruct (String.eqb_spec (policy_name p) "off") as [E|E].
      + apply policy_off in E. subst p. unfold reduce_ in H. cbn in H. inversion H; subst; cbn. auto.
      + apply reduce_stats in H; cbn in *; [lia|]. destruct p; try reflexivity. exfalso; apply E; reflexivity.
  Qed.

  Lemma step_stats t s o s' x :
    GInv s -> SInv t s -> step s o = (s', x) -> upd_ok _ _ _ x -> SInv (tally1 t (o, x)) s'.
  Proof.
    intros HG [HT HO] H HU. subst t. destruct o as [i r|c| |]; cbn in H.
    - destruct (MemCache.get _ _ _ i r s) as [[s2 cl] d] eqn:E. inversion H; subst s2 x.
      destruct (get_ginv _ _ _ _ _ _ size_nonneg _ _ _ _ _ _ HG E) as (_ & _ & _ & HP).
      cbn [tally1 fst snd].
      destruct (get_effect_ok _ _ _ _ _ _ size_nonneg _ _ _ _ _ _ HG E) as [A B|it A B C D E' F|s1 cl A B C D E' F G|s1 cl w A B C D E' F G|cl d0 A B C D E' F G].
      + subst s'. rewrite A. cbn. split; [rewrite A; reflexivity|exact HO].
      + rewrite A. cbn. split; [rewrite HP, A, E', F; reflexivity|]. intros HX. rewrite HP in HX. rewrite HX in A. discriminate.
      + rewrite A. destruct cl as [|c0 cl]; [congruence|]. cbn.
        split; [rewrite HP, A, E', F; reflexivity|]. intros HX. rewrite HP in HX. rewrite HX in A. discriminate.
      + rewrite A. destruct cl as [|c0 cl]; [congruence|]. cbn.
        split; [rewrite HP, A, E', F; reflexivity|]. intros HX. rewrite HP in HX. rewrite HX in A. discriminate.
      + rewrite A. destruct cl as [|c0 cl]; [congruence|].
        split; [|intros HX; rewrite HP in HX; rewrite HX in A; discriminate].
        rewrite HP, A, E', F. destruct d0; cbn in D; try discriminate; reflexivity.
    - destruct (update c s) as [s2 d] eqn:E. inversion H; subst. cbn in HU. subst d.
      pose proof (update_stats _ _ _ HG HO E) as HS.
      destruct (update_ok _ _ _ _ HG E) as [_ [HP _]].
      cbn [tally1 fst snd]. destruct (String.eqb_spec (c_policy c) "off") as [EO|EO].
      + rewrite EO in HP. apply policy_off in HP. destruct HS as [S1 S2].
        split; [rewrite HP, S1, S2; reflexivity|auto].
      + destruct HS as [S1 S2]. rewrite <- HP in EO.
        assert (pol s' <> POff) as HN by (intros X; apply EO, policy_off, X).
        split; [rewrite S1, S2; destruct (pol s'); try reflexivity; congruence|tauto].
    - inversion H; subst. cbn. split; auto.
    - inversion H; subst. cbn. split; auto.
  Qed.

  Lemma run_stats t s ops :
    GInv s -> SInv t s -> (forall x, In x (snd (run s ops)) -> upd_ok _ _ _ x) ->
    SInv (fold_left tally1 (combine ops (snd (run s ops))) t) (fst (run s ops)).
  Proof.
    revert t s; induction ops as [|o ops IH]; intros t s HG HT HU; cbn in *; [exact HT|].
    pose proof (step_ginv _ _ _ key_of est_size size_of size_nonneg s o HG) as H1.
    destruct (step s o) as [s1 x] eqn:E. cbn in H1.
    assert (upd_ok _ _ _ x) as HX.
    { apply HU. destruct (run s1 ops). cbn. auto. }
    pose proof (step_stats t s o s1 x HG HT E HX) as HT1.
    specialize (IH (tally1 t (o, x)) s1). destruct (run s1 ops) as [s2 xs]. cbn in *. apply IH; auto.
  Qed.

  Lemma stats c ops : updates_ok c ops ->
    tally c (trace c ops) =
      (has_cache (pol (after c ops)), hits (after c ops), misses (after c ops)).
  Proof.
    intros H. pose proof H as H'. apply updates_ok_outs in H'. destruct H' as [H1 H2].
    unfold tally, MemCacheSpec.trace, MemCacheSpec.after.
    apply run_stats; auto.
    - unfold init in *. destruct (update c fresh) as [s r] eqn:E. cbn in *. subst r.
      eapply update_ok; [apply fresh_ginv|eassumption].
    - unfold init in *. destruct (update c fresh) as [s r] eqn:E. cbn in *. subst r.
      pose proof (update_stats _ _ _ (fresh_ginv _) ltac:(discriminate) E) as HS.
      destruct (update_ok _ _ _ _ (fresh_ginv _) E) as [_ [HP _]].
      assert (hits s = 0 /\ misses s = 0) as [S1 S2] by (destruct (String.eqb _ _); auto).
      split; [|auto]. rewrite S1, S2, <- HP. destruct (pol s); reflexivity.
  Qed.

  (** *** off / unlimited *)
  Lemma off_nothing c ops : updates_ok c ops -> pol (after c ops) = POff ->
    items (after c ops) = [] /\ curr_mem (after c ops) = 0 /\
    forall i r, get i r (after c ops) = (after c ops, create_calls i r, create i r).
  Proof.
    intros HU HP.
    pose proof (after_ginv _ _ _ key_of est_size size_of size_nonneg c ops HU) as HG.
    assert (items (after c ops) = []) as HE by (apply off_items; [exact HG|rewrite HP; reflexivity]).
    split; [exact HE|]. split.
    - destruct HG as ((I & _) & _). rewrite I, HE. reflexivity.
    - intros i r. unfold MemCache.get. rewrite HP. reflexivity.
  Qed.

  Definition keeps_policy (o : op) : Prop :=
    match o with OpClear => False | OpUpdate c => c_policy c = "unlimited"%string | _ => True end.

  Lemma unlimited_step s o s' x :
    Inv s -> pol s = PUnlimited -> keeps_policy o -> step s o = (s', x) ->
    pol s' = PUnlimited /\ (forall p, In p (items s) -> In p (items s')).
  Proof.
    intros (_ & ND & _) HP HK H. destruct o as [i r|c| |]; cbn in H, HK; try tauto.
    - destruct (MemCache.get _ _ _ i r s) as [[s2 cl] d] eqn:E. inversion H; subst s2 x.
      unfold MemCache.get in E. rewrite HP in E. cbn [has_cache negb has_limit] in E.
      destruct (alookup (key_of r) (items s)) as [it|] eqn:EL.
      + inversion E; subst. cbn. split; [reflexivity|]. intros [k it'] Hin.
        unfold move_to_end. rewrite in_app_iff. cbn.
        destruct (string_dec k (key_of r)) as [->|N].
        * right. left. apply (In_alookup _ _ _ ND) in Hin. congruence.
        * left. apply aremove_In. auto.
      + destruct (create i r) as [[w|]|e|]; try (inversion E; subst; cbn; auto; fail).
        unfold reduce_ in E. cbn in E. rewrite HP in E. cbn in E. inversion E; subst; cbn.
        split; [reflexivity|]. intros p Hp. rewrite aset_notin by (apply alookup_None; exact EL).
        rewrite in_app_iff. auto.
    - unfold update in H. cbn [pol] in H. rewrite HP, HK in H. cbn [policy_name] in H.
      rewrite String.eqb_refl in H. destruct (_ || _); inversion H; subst; cbn; auto.
    - inversion H; subst. auto.
  Qed.

  Lemma unlimited_run s ops :
    Inv s -> pol s = PUnlimited -> (forall o, In o ops -> keeps_policy o) ->
    pol (fst (run s ops)) = PUnlimited /\ (forall p, In p (items s) -> In p (items (fst (run s ops)))).
  Proof.
    revert s; induction ops as [|o ops IH]; intros s HI HP HK; cbn; [auto|].
    pose proof (step_inv _ _ _ key_of est_size size_of s o size_nonneg HI) as HI1.
    destruct (step s o) as [s1 x] eqn:E. cbn in HI1.
    destruct (unlimited_step s o s1 x HI HP (HK o (or_introl eq_refl)) E) as [HP1 HS1].
    specialize (IH s1 HI1 HP1 (fun o' Ho' => HK o' (or_intror Ho'))).
    destruct (run s1 ops) as [s2 xs]. cbn in *. destruct IH as [A B]. split; auto.
  Qed.

  Lemma after_app c ops1 ops2 : after c (ops1 ++ ops2) = fst (run (after c ops1) ops2).
  Proof.
    unfold MemCacheSpec.after. rewrite run_app.
    destruct (run (fst (init c)) ops1) as [s1 xs]. cbn.
    destruct (run s1 ops2) as [s2 ys]. reflexivity.
  Qed.

  Lemma unlimited_keeps c ops1 ops2 :
    pol (after c ops1) = PUnlimited -> (forall o, In o ops2 -> keeps_policy o) ->
    forall k z, holds (after c ops1) k z -> holds (after c (ops1 ++ ops2)) k z.
  Proof.
    intros HP HK k z (it & Hin & Hz). exists it. split; [|exact Hz]. rewrite after_app.
    eapply unlimited_run; eauto. eapply after_inv. exact size_nonneg.
  Qed.

  Lemma unlimited_adds i r s s' cl w :
    pol s = PUnlimited -> get i r s = (s', cl, Ok (Some w)) -> held s' (key_of r).
  Proof.
    intros HP E. unfold MemCache.get in E. rewrite HP in E. cbn [has_cache negb has_limit] in E.
    unfold held. destruct (alookup (key_of r) (items s)) as [it|] eqn:EL.
    - inversion E; subst. cbn. unfold move_to_end. rewrite akeys_app, in_app_iff. cbn. auto.
    - destruct (create i r) as [[w1|]|e|]; try (inversion E; fail).
      unfold reduce_ in E. cbn in E. rewrite HP in E. cbn in E. inversion E; subst; cbn.
      rewrite aset_notin by (apply alookup_None; exact EL). rewrite akeys_app, in_app_iff. cbn. auto.
  Qed.

  (** *** unusable limits *)
  Lemma bad_limit c s :
    GInv s -> (c_policy c = "lru" \/ c_policy c = "largest")%string ->
    match c_max c with
    | None => snd (update c s) = Raise TypeError
    | Some m => m <= 0 -> snd (update c s) = Raise ValueError
    end.
  Proof.
    intros (HI & HW & HB) HC. unfold update.
    set (ch1 := negb (optZ_eqb (max_mem s) (c_max c))) in *.
    set (s1 := mkState (items s) _ _ _ _ _ _) in *.
    set (ch2 := negb (Bool.eqb (strict s1) (c_strict c))) in *.
    set (s2 := mkState (items s1) _ _ _ _ _ _) in *.
    assert (max_mem s2 = c_max c) as HM2.
    { cbn. unfold ch1. destruct (optZ_eqb (max_mem s) (c_max c)) eqn:E; cbn; [|reflexivity].
      apply optZ_eqb_eq in E. exact E. }
    assert (HP : pol s2 = pol s) by reflexivity.
    assert (Hch : (pol s = PLru \/ pol s = PLargest) ->
       match c_max c with Some m => m <= 0 -> ch1 = true | None => ch1 = true end).
    { intros HL. assert (exists m, max_mem s = Some m /\ 0 < m) as (m & E & Hm)
        by (unfold well_conf in HW; destruct HL as [HL|HL]; rewrite HL in HW; exact HW).
      unfold ch1. rewrite E. destruct (c_max c) as [m'|]; [|reflexivity].
      intros Hle. cbn. lia. }
    clearbody ch1 ch2 s2. clear s1.
    destruct (String.eqb_spec (policy_name (pol s2)) (c_policy c)) as [EQ|NE].
    - assert (HL : pol s = PLru \/ pol s = PLargest).
      { rewrite <- HP. destruct HC as [HC|HC]; rewrite HC in EQ; destruct (pol s2); try discriminate; auto. }
      specialize (Hch HL). destruct (c_max c) as [m|].
      + intros Hle. rewrite (Hch Hle). cbn [orb]. unfold reduce_. rewrite HP.
        destruct HL as [HL|HL]; rewrite HL; cbn; rewrite HM2;
          (destruct (Z.leb_spec m 0); [reflexivity|lia]).
      + rewrite Hch. cbn [orb]. unfold reduce_. rewrite HP.
        destruct HL as [HL|HL]; rewrite HL; cbn; rewrite HM2; reflexivity.
    - destruct (c_max c) as [m|].
      + intros Hle. destruct HC as [HC|HC]; rewrite HC; cbn; rewrite HM2;
          (destruct (Z.leb_spec m 0); [reflexivity|lia]).
      + destruct HC as [HC|HC]; rewrite HC; cbn; rewrite HM2; reflexivity.
  Qed.

  Lemma good_limit c s :
    Inv s -> (c_policy c = "off" \/ c_policy c = "unlimited" \/
      (exists m, c_max c = Some m /\ 0 < m /\ (c_policy c = "lru" \/ c_policy c = "largest")))%string ->
    snd (update c s) = Ok tt.
  Proof.
    intros HI HC. unfold update.
    set (ch1 := negb (optZ_eqb (max_mem s) (c_max c))) in *.
    set (s1 := mkState (items s) _ _ _ _ _ _) in *.
    set (ch2 := negb (Bool.eqb (strict s1) (c_strict c))) in *.
    set (s2 := mkState (items s1) _ _ _ _ _ _) in *.
    assert (max_mem s2 = c_max c) as HM2.
    { cbn. unfold ch1. destruct (optZ_eqb (max_mem s) (c_max c)) eqn:E; cbn; [|reflexivity].
      apply optZ_eqb_eq in E. exact E. }
    clearbody ch1 ch2 s2. clear s1.
    assert (Hred : forall st : state, (has_limit (pol st) = true -> exists m, max_mem st = Some m /\ 0 < m) ->
              snd (reduce_ None st) = Ok tt).
    { intros st Hst. destruct (has_limit (pol st)) eqn:EL.
      - destruct (Hst eq_refl) as (m & HM & Hm).
        destruct (reduce_limited _ None st m EL HM Hm) as (st' & E & _). rewrite E. reflexivity.
      - unfold reduce_. destruct (pol st) eqn:EP; try discriminate; cbn; rewrite ?EP; reflexivity. }
    destruct (String.eqb_spec (policy_name (pol s2)) (c_policy c)) as [EQ|NE].
    - destruct (_ || _); [|reflexivity]. apply Hred. intros EL. rewrite HM2.
      destruct HC as [HC|[HC|(m & A & B & HC)]]; [| |eauto];
        rewrite HC in EQ; destruct (pol s2); discriminate.
    - destruct HC as [HC|[HC|(m & A & B & [HC|HC])]]; rewrite HC; cbn [make_policy String.eqb Ascii.eqb Bool.eqb check].
      1,2: destruct (_ || _); [|reflexivity]; apply Hred; cbn; discriminate.
      1,2: rewrite HM2, A; destruct (Z.leb_spec m 0); [lia|];
        (destruct (_ || _); [|reflexivity]); apply Hred; cbn; intros _; exists m; split; [congruence|assumption].
  Qed.

  (** *** isolation after a clear *)
  Lemma isolated_after_clear i c ops1 ops2 r s' cl d :
    (forall r1 r2, key_of r1 = key_of r2 -> create i r1 = create i r2) ->
    only_inventory i ops2 ->
    get i r (after c (ops1 ++ OpClear :: ops2)) = (s', cl, d) ->
    forall x, d = Ok x -> create i r = Ok x.
  Proof.
    intros HK HO H.
    assert (Inv (after c (ops1 ++ OpClear :: ops2))) as HI by (apply after_inv; exact size_nonneg).
    assert (faithful _ _ _ key_of i (after c (ops1 ++ OpClear :: ops2))) as HF.
    { rewrite after_app. cbn [MemCache.run MemCache.step].
      pose proof (run_faithful _ _ _ key_of est_size size_of size_nonneg i (clear (after c ops1)) ops2 HK HO) as HR.
      destruct (run (clear (after c ops1)) ops2) as [s2 xs]. cbn in *. apply HR.
      - split; [reflexivity|]. split; constructor.
      - intros k it []. }
    destruct (get_faithful _ _ _ key_of est_size size_of size_nonneg _ _ _ _ _ _ HK HI HF H) as [_ R]. exact R.
  Qed.

  Lemma follows_config c0 c ops :
    updates_ok c0 (ops ++ [OpUpdate c]) ->
    let s := after c0 (ops ++ [OpUpdate c]) in
    f_policy (info s) = c_policy c /\
    match c_policy c with
    | "off"%string => f_maxsize (info s) = Some 0
    | "unlimited"%string => f_maxsize (info s) = None
    | _ => f_maxsize (info s) = c_max c /\ strict s = c_strict c
    end.
  Proof.
    intros HU s. unfold s. rewrite after_snoc. cbn [MemCache.step].
    assert (updates_ok c0 ops /\ snd (update c (after c0 ops)) = Ok tt) as [HU0 HR].
    { destruct HU as [A B]. rewrite trace_snoc in B. split.
      - split; [exact A|]. intros o r Hin. apply (B o r). rewrite in_app_iff. auto.
      - apply (B (OpUpdate c)). rewrite in_app_iff. right. left. cbn.
        destruct (update c (after c0 ops)); reflexivity. }
    pose proof (after_ginv _ _ _ key_of est_size size_of size_nonneg c0 ops HU0) as HG.
    destruct (update c (after c0 ops)) as [s' r'] eqn:E. cbn in HR. subst r'. cbn [fst].
    destruct (update_ok _ _ _ _ HG E) as [_ [P Q]].
    unfold info; cbn [f_policy f_maxsize]. split; [exact P|].
    rewrite <- P. destruct (pol s'); cbn; tauto.
  Qed.
End Proofs.
