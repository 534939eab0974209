(** What the memory cache keeps while threads change settings. *)
From Verif Require Import PyBase ListLemmas MemCache MemCacheProofs MemCacheProofs2 MemCacheProofs4
  MemCacheConc MemCacheConcProofs SettingsConc.
Set Default Proof Using "Type".

(** A configuration the memory cache accepts (configuration.rst, memcache.py:51-170). *)
Definition known (c : mconf) : Prop :=
  (c_policy c = "off" \/ c_policy c = "unlimited" \/ c_policy c = "lru" \/ c_policy c = "largest")%string.
Definition fits (c : mconf) : Prop :=
  (c_policy c = "off" \/ c_policy c = "unlimited" \/
   (exists m, c_max c = Some m /\ 0 < m /\ (c_policy c = "lru" \/ c_policy c = "largest")))%string.

Section Mem.
  Variables Req Ent W : Type.
  Variable key_of : Req -> string.
  Variable est_size : Ent -> Z.
  Variable size_of : W -> Z.
  Notation state := (MemCache.state W).
  Notation get := (MemCache.get (Req:=Req) (Ent:=Ent) (W:=W) key_of est_size size_of).
  Notation Inv := (MemCacheProofs.Inv W).
  Notation GInv := (MemCacheProofs.GInv W).
  Implicit Types (s : state).

  (** Bounded wherever the limit is usable. *)
  Definition tame s : Prop :=
    Inv s /\
    match pol s with
    | POff => items s = []
    | PUnlimited => True
    | _ => forall m, max_mem s = Some m -> 0 < m -> curr_mem s < m \/ items s = []
    end.

  (** The settings [c] are the ones the cache works with. *)
  Definition in_force (c : mconf) s : Prop :=
    policy_name (pol s) = c_policy c /\
    match pol s with
    | POff => items s = []
    | PUnlimited => True
    | _ => max_mem s = c_max c /\ strict s = c_strict c /\
           forall m, c_max c = Some m -> curr_mem s < m \/ items s = []
    end.

  Lemma fits_known c : fits c -> known c.
  Proof. unfold fits, known. intros [H|[H|(m & _ & _ & [H|H])]]; auto. Qed.

  Lemma reduce_keeps tgt s :
    has_limit (pol s) = true ->
    max_mem (fst (reduce_ tgt s)) = max_mem s /\ strict (fst (reduce_ tgt s)) = strict s.
  Proof.
    intros HL. unfold reduce_. destruct (pol s) eqn:EP; try discriminate; cbn [check].
    - destruct (max_mem s) as [m|] eqn:EM; [|auto]. destruct (m <=? 0); [auto|].
      rewrite EP. cbn [has_cache negb]. rewrite ?EM.
      destruct tgt; destruct (lru_reduce _ _ _); cbn; auto.
    - destruct (max_mem s) as [m|] eqn:EM; [|auto]. destruct (m <=? 0); [auto|].
      rewrite EP. cbn [has_cache negb]. rewrite ?EM.
      destruct tgt; destruct (largest_reduce _ _ _ _); cbn; auto.
  Qed.

  Lemma reduce_tame s : Inv s -> tame (fst (reduce_ None s)).
  Proof.
    intros HI. destruct (reduce_ None s) as [s' r] eqn:E. cbn [fst].
    destruct (reduce_inv _ _ _ _ _ HI E) as [HI' HP].
    split; [exact HI'|]. rewrite HP.
    destruct (has_limit (pol s)) eqn:HL.
    - assert (forall m, max_mem s' = Some m -> 0 < m -> curr_mem s' < m \/ items s' = []) as HX.
      { intros m HM Hm.
        destruct (reduce_keeps None s HL) as [K _]. rewrite E in K. cbn in K. rewrite K in HM.
        destruct (reduce_bound _ _ _ _ _ _ HI HL HM Hm E) as (_ & _ & _ & _ & _ & _ & K7 & _).
        exact K7. }
      destruct (pol s); try discriminate; exact HX.
    - destruct (pol s) eqn:EP; try discriminate; [|exact I].
      unfold reduce_ in E. rewrite EP in E. cbn in E. rewrite EP in E. cbn in E.
      inversion E; subst. reflexivity.
  Qed.

  Lemma reduce_force c s :
    Inv s -> fits c -> policy_name (pol s) = c_policy c ->
    (has_limit (pol s) = true -> max_mem s = c_max c /\ strict s = c_strict c) ->
    in_force c (fst (reduce_ None s)).
  Proof.
    intros HI HF HP HC. pose proof (reduce_tame s HI) as [_ HT].
    pose proof (reduce_pol W None s) as HQ. rewrite HQ in HT.
    split; [rewrite HQ; exact HP|]. rewrite HQ.
    destruct (has_limit (pol s)) eqn:HL.
    - destruct (HC eq_refl) as [HC1 HC2].
      destruct (reduce_keeps None s HL) as [K1 K2].
      assert (exists m, c_max c = Some m /\ 0 < m) as (m & HM & Hm).
      { destruct HF as [HF|[HF|(m & HF & Hm & _)]].
        - rewrite HF in HP. destruct (pol s); discriminate.
        - rewrite HF in HP. destruct (pol s); discriminate.
        - exists m. auto. }
      rewrite K1, HC1, HM in HT.
      destruct (pol s); try discriminate; rewrite K1, K2, HC1, HC2;
        (split; [reflexivity|]); (split; [reflexivity|]); intros m' E; rewrite HM in E;
        inversion E; subst m'; apply HT; auto.
    - destruct (pol s); try discriminate; auto.
  Qed.

  (** Whatever three values an update reads, it leaves the cache tame. *)
  Lemma update_tame c s :
    tame s -> known c ->
    tame (fst (update c s)) /\ (fits c -> snd (update c s) = Ok tt /\ in_force c (fst (update c s))).
  Proof.
    intros [HI HT] HK.
    assert (tame (fst (update c s)) /\ (fits c -> in_force c (fst (update c s)))) as [A B].
    2:{ split; [exact A|]. intros HF. split; [apply good_limit; [exact HI|exact HF]|auto]. }
    unfold update.
    set (ch1 := negb (optZ_eqb (max_mem s) (c_max c))) in *.
    set (s1 := mkState (items s) _ _ _ _ _ _) in *.
    set (ch2 := negb (Bool.eqb (strict s1) (c_strict c))) in *.
    set (s2 := mkState (items s1) _ _ _ _ _ _) in *.
    assert (Inv s2) as HI2 by exact HI.
    assert (max_mem s2 = c_max c) as HM2.
    { cbn. unfold ch1. destruct (optZ_eqb (max_mem s) (c_max c)) eqn:E; cbn; [|reflexivity].
      apply optZ_eqb_eq in E. exact E. }
    assert (strict s2 = c_strict c) as HS2.
    { cbn. unfold ch2. cbn. destruct (Bool.eqb (strict s) (c_strict c)) eqn:E; cbn; [|reflexivity].
      apply eqb_prop in E. exact E. }
    assert (pol s2 = pol s) as HP2 by reflexivity.
    assert (items s2 = items s) as HT2 by reflexivity.
    assert (curr_mem s2 = curr_mem s) as HC2 by reflexivity.
    assert (ch1 || ch2 = false -> max_mem s2 = max_mem s) as HM.
    { intros E. cbn. destruct ch1; [discriminate|reflexivity]. }
    clearbody ch1 ch2 s2. clear s1.
    destruct (String.eqb_spec (policy_name (pol s2)) (c_policy c)) as [EQ|NE].
    - rewrite orb_false_r. destruct (ch1 || ch2) eqn:EC.
      + split; [apply reduce_tame; exact HI2|].
        intros HF. apply reduce_force; auto.
      + specialize (HM eq_refl). cbn [fst]. split.
        * split; [exact HI2|]. rewrite HP2, HM, HC2, HT2. exact HT.
        * intros HF. split; [exact EQ|]. rewrite HP2, HM2, HS2, HC2, HT2.
          rewrite HP2 in EQ.
          assert (has_limit (pol s) = true -> exists m, c_max c = Some m /\ 0 < m) as HX.
          { intros HL. destruct HF as [HF|[HF|(m & HF & Hm & _)]].
            - rewrite HF in EQ. destruct (pol s); discriminate.
            - rewrite HF in EQ. destruct (pol s); discriminate.
            - exists m. auto. }
          rewrite <- HM, HM2 in HT.
          destruct (pol s); auto; (destruct HX as (m & Hm & Hp); [reflexivity|]);
            (split; [reflexivity|]); (split; [reflexivity|]); intros m' E; rewrite Hm in E;
            inversion E; subst m'; apply HT; auto.
    - assert (exists p, make_policy (c_policy c) = Some p /\ policy_name p = c_policy c) as (p & EM & EN).
      { destruct HK as [HK|[HK|[HK|HK]]]; rewrite HK; cbn; eauto. }
      rewrite EM. destruct (check p s2) as [s3 rc] eqn:EC.
      destruct (check_fields _ _ _ _ _ EC) as (F1 & F2 & F3 & F4 & F5).
      destruct rc as [u|e|].
      + rewrite orb_true_r. set (s4 := mkState _ _ _ _ _ _ p).
        assert (Inv s4) as HI4 by (unfold MemCacheProofs.Inv; cbn; rewrite F1, F2; exact HI2).
        split; [apply reduce_tame; exact HI4|].
        intros HF. apply reduce_force; auto.
        intros HL. cbn in HL |- *. destruct p; try discriminate; cbn in EC;
          inversion EC; subst; auto.
      + cbn [fst]. assert (s3 = s2 /\ (forall m, max_mem s2 = Some m -> 0 < m -> False)) as [-> HB].
        { destruct p; cbn in EC; inversion EC; subst;
            (split; [reflexivity|]); intros m Hm Hp; rewrite Hm in H1;
            (destruct (Z.leb_spec m 0); [lia|discriminate]). }
        split.
        * split; [exact HI2|]. rewrite HP2. destruct (pol s) eqn:EP; auto.
          -- rewrite HT2. exact HT.
          -- intros m Hm Hp. destruct (HB m Hm Hp).
          -- intros m Hm Hp. destruct (HB m Hm Hp).
        * intros HF. exfalso.
          destruct HF as [HF|[HF|(m & Hm & Hp & _)]].
          -- rewrite HF in EM. cbn in EM. inversion EM; subst. cbn in EC. discriminate.
          -- rewrite HF in EM. cbn in EM. inversion EM; subst. cbn in EC. discriminate.
          -- apply (HB m); [congruence|exact Hp].
      + exfalso. destruct p; cbn in EC; inversion EC; destruct (max_mem s2); try discriminate;
          destruct (_ <=? _); discriminate.
  Qed.

  Lemma get_keeps i r s s' cl d :
    has_limit (pol s) = true -> get i r s = (s', cl, d) ->
    max_mem s' = max_mem s /\ strict s' = strict s.
  Proof.
    intros HL H. unfold MemCache.get in H.
    destruct (has_cache (pol s)); cbn [negb] in H; [|inversion H; subst; auto].
    destruct (alookup _ _); [inversion H; subst; auto|].
    rewrite HL in H.
    destruct (create_with_pre_check _ i r s) as [[s1 cl1] d1] eqn:E1.
    assert (max_mem s1 = max_mem s /\ strict s1 = strict s /\ pol s1 = pol s) as (K1 & K2 & K3).
    { unfold create_with_pre_check in E1.
      destruct (i_find i r) as [[e|]|e|]; try (inversion E1; subst; auto; fail).
      destruct (max_mem s) as [m|] eqn:EM; [|inversion E1; subst; auto].
      destruct (if (est_size e >? m - curr_mem s) && (est_size e <=? m) then _ else _) as [s2 rr] eqn:E2.
      assert (max_mem s2 = Some m /\ strict s2 = strict s /\ pol s2 = pol s) as HX.
      { destruct (_ && _); [|inversion E2; subst; auto].
        destruct (reduce_keeps (Some (m - est_size e)) s HL) as [A B].
        pose proof (reduce_pol W (Some (m - est_size e)) s) as D.
        rewrite E2 in A, B, D. cbn in *. rewrite A, EM. auto. }
      destruct rr; [destruct (strict s2 && _)| |]; inversion E1; subst; exact HX. }
    destruct d1 as [[w|]|e|]; try (inversion H; subst; auto; fail).
    match type of H with context [reduce_ None ?st] =>
      destruct (reduce_keeps None st) as [A B]; [cbn; rewrite K3; exact HL|] end.
    destruct (reduce_ None _) as [s3 rr]. cbn in A, B.
    destruct rr; inversion H; subst; split; congruence.
  Qed.

  Section Sizes.
    Hypothesis size_nonneg : forall w, 0 <= size_of w.

    Lemma get_tame i r s s' cl d :
      tame s -> get i r s = (s', cl, d) ->
      tame s' /\ (forall c, fits c -> in_force c s -> in_force c s').
    Proof using size_nonneg.
      intros [HI HT] H.
      destruct (get_inv _ _ _ _ _ _ _ _ _ _ _ _ size_nonneg HI H) as [HI' HP'].
      destruct (has_limit (pol s)) eqn:HL.
      - destruct (get_keeps _ _ _ _ _ _ HL H) as [K1 K2].
        assert (forall m, max_mem s = Some m -> 0 < m -> curr_mem s' < m \/ items s' = []) as HX.
        { intros m HM Hm.
          assert (GInv s) as HG.
          { split; [exact HI|]. split.
            - unfold well_conf. destruct (pol s); try discriminate; exists m; auto.
            - unfold bounded. destruct (pol s); try discriminate;
                intros m' E; rewrite HM in E; inversion E; subst m'; apply HT; auto. }
          destruct (get_ginv _ _ _ _ _ _ size_nonneg _ _ _ _ _ _ HG H) as ((_ & _ & HB) & _).
          unfold bounded in HB. rewrite HP' in HB.
          destruct (pol s); try discriminate; apply HB; congruence. }
        split.
        + split; [exact HI'|]. rewrite HP', K1. destruct (pol s); try discriminate; exact HX.
        + intros c HF [F1 F2]. split; [rewrite HP'; exact F1|]. rewrite HP', K1, K2.
          assert (exists m, c_max c = Some m /\ 0 < m) as (m & HM & Hm).
          { destruct HF as [HF|[HF|(m & HF & Hm & _)]].
            - rewrite HF in F1. destruct (pol s); discriminate.
            - rewrite HF in F1. destruct (pol s); discriminate.
            - exists m. auto. }
          destruct (pol s); try discriminate; destruct F2 as (G1 & G2 & _);
            (split; [exact G1|]); (split; [exact G2|]); intros m' E; rewrite HM in E;
            inversion E; subst m'; apply HX; congruence.
      - destruct (pol s) eqn:EP; try discriminate.
        + unfold MemCache.get in H. rewrite EP in H. cbn in H. inversion H; subst.
          split; [split; [exact HI'|rewrite HP'; exact HT]|auto].
        + split; [split; [exact HI'|rewrite HP'; exact I]|].
          intros c _ [F1 _]. split; [rewrite HP', <- EP; exact F1|rewrite HP'; exact I].
    Qed.

    Lemma clear_tame s :
      tame s -> tame (clear s) /\ (forall c, fits c -> in_force c s -> in_force c (clear s)).
    Proof using size_nonneg.
      intros [HI HT]. split.
      - split.
        + repeat split; cbn; constructor.
        + cbn. destruct (pol s); auto.
      - intros c _ [F1 F2]. split; [exact F1|]. cbn. destruct (pol s); auto;
          destruct F2 as (G1 & G2 & _); auto.
    Qed.
  End Sizes.
End Mem.
