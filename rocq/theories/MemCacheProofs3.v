(** Eviction order, strict mode, statistics of the memory cache. *)
From Verif Require Import PyBase ListLemmas MemCache MemCacheSpec MemCacheProofs MemCacheProofs2.
From Coq Require Import Permutation Sorted.

(** Subsequences. *)
Inductive sub {A} : list A -> list A -> Prop :=
| sub_nil l : sub [] l
| sub_cons x a b : sub a b -> sub (x :: a) (x :: b)
| sub_skip x a b : sub a b -> sub a (x :: b).

Lemma sub_refl {A} (l : list A) : sub l l.
Proof. induction l; constructor; auto. Qed.

Lemma sub_trans {A} (a b c : list A) : sub a b -> sub b c -> sub a c.
Proof.
  intros H1 H2; revert a H1; induction H2 as [l|x b c H2 IH|x b c H2 IH]; intros a H1.
  - inversion H1; constructor.
  - inversion H1; subst; constructor; auto.
  - constructor; auto.
Qed.

Lemma sub_in {A} (a b : list A) x : sub a b -> In x a -> In x b.
Proof. induction 1; cbn; intuition. Qed.

Lemma sub_suffix {A} (a b : list A) : sub b (a ++ b).
Proof. induction a; cbn; [apply sub_refl|constructor; auto]. Qed.

Lemma sub_app {A} (a b c : list A) : sub a b -> sub (a ++ c) (b ++ c).
Proof.
  induction 1 as [l| |]; cbn; try (constructor; assumption). apply sub_suffix.
Qed.

Lemma sub_sorted {A} (R : A -> A -> Prop) a b : sub a b -> StronglySorted R b -> StronglySorted R a.
Proof.
  induction 1 as [l|x a b H IH|x a b H IH]; intros HS; [constructor| |].
  - inversion HS; subst. constructor; [auto|].
    rewrite Forall_forall in *. intros y Hy. eauto using sub_in.
  - inversion HS; subst. auto.
Qed.

Lemma sub_map {A B} (f : A -> B) a b : sub a b -> sub (map f a) (map f b).
Proof. induction 1; cbn; constructor; auto. Qed.

Lemma sorted_app {A} (R : A -> A -> Prop) a b x y :
  StronglySorted R (a ++ b) -> In x a -> In y b -> R x y.
Proof.
  induction a as [|z a IH]; cbn; intros HS HX HY; [tauto|].
  inversion HS as [|? ? H1 H2]; subst. destruct HX as [->|HX]; [|auto].
  rewrite Forall_forall in H2. apply H2. rewrite in_app_iff. auto.
Qed.

Ltac splits := repeat match goal with |- _ /\ _ => split end.

Section Proofs.
  Variables Req Ent W : Type.
  Variable key_of : Req -> string.
  Variable est_size : Ent -> Z.
  Variable size_of : W -> Z.
  Hypothesis size_nonneg : forall w, 0 <= size_of w.

  Notation state := (MemCache.state W).
  Notation item := (MemCache.item W).
  Notation op := (MemCache.op Req Ent W).
  Notation out := (MemCache.out Req Ent W).
  Notation inventory := (MemCache.inventory Req Ent W).
  Notation get := (MemCache.get key_of est_size size_of).
  Notation step := (MemCache.step key_of est_size size_of).
  Notation run := (MemCache.run key_of est_size size_of).
  Notation create_with_pre_check := (MemCache.create_with_pre_check (Req:=Req) (W:=W) est_size).
  Notation after := (MemCacheSpec.after (Req:=Req) key_of est_size size_of).
  Notation trace := (MemCacheSpec.trace (Req:=Req) key_of est_size size_of).
  Notation updates_ok := (MemCacheSpec.updates_ok (Req:=Req) key_of est_size size_of).
  Notation last_use := (MemCacheSpec.last_use (Req:=Req) (Ent:=Ent) (W:=W) key_of).
  Notation uses := (MemCacheSpec.uses (Req:=Req) (Ent:=Ent) (W:=W) key_of).
  Notation GInv := (MemCacheProofs.GInv W).
  Notation Inv := (MemCacheProofs.Inv W).
  Implicit Types (s : state) (l : list (string * item)).

  Definition newitem (w : W) : item := mkItem w (size_of w).

  Lemma sub_aremove k l : sub (aremove k l) l.
  Proof.
    induction l as [|[k' a] l IH]; cbn; [constructor|].
    destruct (String.eqb k k'); constructor; auto.
  Qed.

  Lemma largest_reduce_sub n l c t : sub (fst (largest_reduce n l c t)) l.
  Proof.
    revert l c; induction n as [|n IH]; intros l c; cbn [largest_reduce].
    - apply sub_refl.
    - destruct (largest l) as [[sz k]|]; [|apply sub_refl].
      destruct (c >=? t); [|apply sub_refl].
      eapply sub_trans; [apply IH|apply sub_aremove].
  Qed.

  Lemma lru_reduce_sub l c t : sub (fst (lru_reduce l c t)) l.
  Proof.
    revert c; induction l as [|[k it] l IH]; intros c; cbn [lru_reduce]; [constructor|].
    destruct (c >=? t); [constructor; apply IH|apply sub_refl].
  Qed.

  Lemma reduce_sub tgt s s' r : reduce_ tgt s = (s', r) -> sub (items s') (items s).
  Proof.
    unfold reduce_. intros H.
    destruct (check (pol s) s) as [s1 rc] eqn:EC.
    destruct (check_fields _ _ _ _ _ EC) as (F1 & F2 & F3 & F4 & F5).
    rewrite <- F1 in *.
    destruct rc as [u|e|]; try (inversion H; subst; apply sub_refl).
    destruct (negb _); [inversion H; subst; constructor|].
    set (t := match tgt with Some t => Some t | None => max_mem s1 end) in *.
    destruct (pol s1), t as [t|]; try (inversion H; subst; apply sub_refl).
    - pose proof (lru_reduce_sub (items s1) (curr_mem_of (items s1)) t) as HS.
      destruct (lru_reduce _ _ _). inversion H; subst. exact HS.
    - pose proof (largest_reduce_sub (List.length (items s1)) (items s1) (curr_mem_of (items s1)) t) as HS.
      destruct (largest_reduce _ _ _ _). inversion H; subst. exact HS.
  Qed.

  Lemma update_sub c s : sub (items (fst (update c s))) (items s).
  Proof.
    unfold update.
    set (ch1 := negb _). set (s1 := mkState (items s) _ _ _ _ _ _).
    set (ch2 := negb _). set (s2 := mkState (items s1) _ _ _ _ _ _).
    change (items s) with (items s2).
    clearbody s2 ch2 s1 ch1. clear s1 s.
    destruct (String.eqb _ _).
    - destruct (_ || _); cbn; [|apply sub_refl].
      destruct (reduce_ None s2) as [s4 r4] eqn:E. cbn. eapply reduce_sub; eassumption.
    - destruct (make_policy (c_policy c)) as [q|]; [|apply sub_refl].
      destruct (check q s2) as [s' rc] eqn:EC.
      destruct (check_fields _ _ _ _ _ EC) as (F1 & F2 & F3 & F4 & F5).
      rewrite <- F1.
      destruct rc; try apply sub_refl.
      destruct (_ || _); cbn; [|apply sub_refl].
      destruct (reduce_ None _) as [s4 r4] eqn:E. cbn. apply reduce_sub in E. exact E.
  Qed.

  Lemma pre_check_sub i r s s' cl d :
    create_with_pre_check i r s = (s', cl, d) -> sub (items s') (items s).
  Proof.
    intros H. unfold MemCache.create_with_pre_check in H.
    destruct (i_find i r) as [[e|]|e|]; cbn; try (inversion H; subst; apply sub_refl).
    destruct (max_mem s) as [m|]; try (inversion H; subst; apply sub_refl).
    destruct ((est_size e >? m - curr_mem s) && (est_size e <=? m)).
    - destruct (reduce_ (Some (m - est_size e)) s) as [s1 rr] eqn:E.
      pose proof (reduce_sub _ _ _ _ E) as HS.
      destruct rr; [destruct (_ && _)| |]; inversion H; subst; auto.
    - destruct (_ && _); inversion H; subst; apply sub_refl.
  Qed.

  (** What a get does to the items, in a well configured cache. *)
  Inductive get_effect (i : inventory) (r : Req) s s' : list (call Req Ent) -> result (option W) -> Prop :=
  | GE_off : has_cache (pol s) = false -> s' = s ->
      get_effect i r s s' (create_calls i r) (create i r)
  | GE_hit it : has_cache (pol s) = true -> alookup (key_of r) (items s) = Some it ->
      items s' = aremove (key_of r) (items s) ++ [(key_of r, it)] ->
      curr_mem s' = curr_mem s -> hits s' = hits s + 1 -> misses s' = misses s ->
      get_effect i r s s' [] (Ok (Some (it_data it)))
  | GE_none s1 cl : has_cache (pol s) = true -> alookup (key_of r) (items s) = None ->
      sub (items s1) (items s) -> items s' = items s1 ->
      hits s' = hits s -> misses s' = misses s + 1 -> cl <> [] ->
      get_effect i r s s' cl (Ok None)
  | GE_load s1 cl w : has_cache (pol s) = true -> alookup (key_of r) (items s) = None ->
      sub (items s1) (items s) -> sub (items s') (items s1 ++ [(key_of r, newitem w)]) ->
      hits s' = hits s -> misses s' = misses s + 1 -> cl <> [] ->
      get_effect i r s s' cl (Ok (Some w))
  | GE_fail cl d : has_cache (pol s) = true -> alookup (key_of r) (items s) = None ->
      sub (items s') (items s) -> is_ok d = false ->
      hits s' = hits s -> misses s' = misses s -> cl <> [] ->
      get_effect i r s s' cl d.

  Lemma sub_lookup_none k l l' : sub l' l -> alookup k l = None -> alookup k l' = None.
  Proof.
    intros HS HN. apply alookup_None. apply alookup_None in HN. intros Hin. apply HN.
    rewrite akeys_map in *. eapply sub_in; [|exact Hin]. apply sub_map. exact HS.
  Qed.

  Lemma get_effect_ok i r s s' cl d :
    GInv s -> get i r s = (s', cl, d) -> get_effect i r s s' cl d.
  Proof.
    intros (HI & HW & HB) H. unfold MemCache.get in H.
    destruct (has_cache (pol s)) eqn:Eh; cbn [negb] in H.
    2:{ inversion H; subst; constructor; auto. }
    destruct (alookup (key_of r) (items s)) as [it|] eqn:EL.
    { inversion H; subst. eapply GE_hit; eauto. }
    destruct (has_limit (pol s)) eqn:Ehl.
    - assert (exists m, max_mem s = Some m /\ 0 < m) as (m & HM & Hm)
        by (unfold well_conf in HW; destruct (pol s); try discriminate; exact HW).
      destruct (create_with_pre_check i r s) as [[s1 cl1] d1] eqn:E1.
      pose proof (pre_check_sub _ _ _ _ _ _ E1) as HS1.
      destruct (pre_check_limited _ _ _ key_of _ _ _ _ _ _ _ _ HI Ehl HM Hm E1)
        as (J1 & J2 & J3 & J4 & J5 & J6 & J7 & J8 & J9 & J10 & J11 & J12).
      destruct d1 as [[w|]|e|].
      + cbn [it_size] in H.
        destruct (reduce_ None _) as [s3 rr] eqn:E3.
        pose proof (sub_lookup_none _ _ _ HS1 EL) as HN.
        pose proof (aset_inv _ _ s1 (key_of r) w size_nonneg J1 HN) as HI2.
        assert (Ehl2 : has_limit (pol s1) = true) by (rewrite J4; exact Ehl).
        rewrite HM in J2.
        destruct (reduce_bound _ _ _ m _ _ HI2 Ehl2 J2 Hm E3)
          as (-> & K2 & K3 & K4 & K5 & K6 & _). cbn in K5, K6.
        apply reduce_sub in E3. cbn in E3. rewrite aset_notin in E3 by (apply alookup_None; exact HN).
        inversion H; subst. eapply GE_load; eauto; congruence.
      + inversion H; subst. eapply GE_none; eauto; cbn; congruence.
      + inversion H; subst. eapply GE_fail; eauto.
      + inversion H; subst. eapply GE_fail; eauto.
    - assert (pol s = PUnlimited) as EP by (destruct (pol s); try discriminate; reflexivity).
      assert (create_calls i r <> []) by discriminate.
      destruct (create i r) as [[w|]|e|].
      + unfold reduce_ in H. cbn in H. rewrite EP in H. cbn in H.
        inversion H; subst. eapply GE_load with (s1 := s); eauto; try apply sub_refl.
        cbn. rewrite aset_notin by (apply alookup_None; exact EL). apply sub_refl.
      + inversion H; subst. eapply GE_none with (s1 := s); eauto. apply sub_refl.
      + inversion H; subst. eapply GE_fail; eauto. apply sub_refl.
      + inversion H; subst. eapply GE_fail; eauto. apply sub_refl.
  Qed.

  Lemma get_hit_items i r s s' cl d it :
    GInv s -> get i r s = (s', cl, d) -> alookup (key_of r) (items s) = Some it ->
    has_cache (pol s) = true -> items s' = aremove (key_of r) (items s) ++ [(key_of r, it)].
  Proof.
    intros HG H EL HC.
    destruct (get_effect_ok _ _ _ _ _ _ HG H) as [A B|it' A B C D E F|s1 cl A B C D E F G|s1 cl w A B C D E F G|cl d0 A B C D E F G];
      congruence.
  Qed.

  (** *** recency *)
  Lemma last_use_snoc k tr x :
    last_use k (tr ++ [x]) = if uses k x then Some (List.length tr) else last_use k tr.
  Proof.
    induction tr as [|y tr IH]; cbn.
    - destruct (uses k x); reflexivity.
    - rewrite IH. destruct (uses k x); reflexivity.
  Qed.

  Lemma last_use_lt k tr n : last_use k tr = Some n -> (n < List.length tr)%nat.
  Proof.
    revert n; induction tr as [|y tr IH]; cbn; intros n H; [discriminate|].
    destruct (last_use k tr) as [n'|].
    - inversion H; subst. specialize (IH n' eq_refl). lia.
    - destruct (uses k y); inversion H; subst. lia.
  Qed.

  Definition recency tr (a b : string) : Prop := earlier (last_use a tr) (last_use b tr).

  Definition RInv tr s :=
    StronglySorted (recency tr) (akeys (items s)) /\
    Forall (fun k => last_use k tr <> None) (akeys (items s)).

  Lemma RInv_sub tr s l' :
    RInv tr s -> sub l' (items s) ->
    StronglySorted (recency tr) (akeys l') /\ Forall (fun k => last_use k tr <> None) (akeys l').
  Proof.
    intros [A B] HS. rewrite akeys_map in *. pose proof (sub_map fst _ _ HS) as HS'. split.
    - eapply sub_sorted; eassumption.
    - rewrite Forall_forall in *. intros k Hk. apply B. eapply sub_in; eassumption.
  Qed.

  Lemma sorted_ext (R1 R2 : string -> string -> Prop) (l : list string) :
    (forall a b, In a l -> In b l -> R1 a b -> R2 a b) -> StronglySorted R1 l -> StronglySorted R2 l.
  Proof.
    induction l as [|x l IH]; intros HR HS; constructor; inversion HS; subst.
    - apply IH; auto. intros a b Ha Hb. apply HR; cbn; auto.
    - rewrite Forall_forall in *. intros y Hy. apply HR; cbn; auto.
  Qed.

  (** Keys other than the one used keep their recency; the used one becomes last. *)
  Lemma recency_snoc tr x k (ks : list string) :
    uses k x = true -> ~ In k ks -> (forall k', uses k' x = true -> k' = k) ->
    StronglySorted (recency tr) ks -> Forall (fun k => last_use k tr <> None) ks ->
    StronglySorted (recency (tr ++ [x])) (ks ++ [k]) /\
    Forall (fun k => last_use k (tr ++ [x]) <> None) (ks ++ [k]).
  Proof.
    intros HU HN HU' HS HF.
    assert (forall k', In k' ks -> last_use k' (tr ++ [x]) = last_use k' tr) as E.
    { intros k' Hk'. rewrite last_use_snoc. destruct (uses k' x) eqn:EU; [|reflexivity].
      apply HU' in EU. subst. tauto. }
    split.
    - assert (StronglySorted (recency (tr ++ [x])) ks) as HS1.
      { eapply sorted_ext; [|exact HS]. intros a b Ha Hb. unfold recency. rewrite !E; auto. }
      clear HS. induction ks as [|y ks IH]; cbn; [repeat constructor|].
      inversion HS1; subst. inversion HF; subst. constructor.
      + apply IH; auto. intros Hin; apply HN; cbn; auto. intros k' Hk'; apply E; cbn; auto.
      + rewrite Forall_app. split; [assumption|]. constructor; [|constructor].
        unfold recency. rewrite (E y) by (cbn; auto). rewrite last_use_snoc, HU.
        destruct (last_use y tr) as [n|] eqn:En; cbn; [|exact I].
        eapply last_use_lt; eassumption.
    - rewrite Forall_app. split.
      + rewrite Forall_forall in *. intros y Hy. rewrite E by assumption. auto.
      + constructor; [|constructor]. rewrite last_use_snoc, HU. discriminate.
  Qed.

  Lemma recency_keep tr x (ks : list string) :
    (forall k, In k ks -> uses k x = false) ->
    StronglySorted (recency tr) ks -> Forall (fun k => last_use k tr <> None) ks ->
    StronglySorted (recency (tr ++ [x])) ks /\ Forall (fun k => last_use k (tr ++ [x]) <> None) ks.
  Proof.
    intros HU HS HF.
    assert (forall k', In k' ks -> last_use k' (tr ++ [x]) = last_use k' tr) as E.
    { intros k' Hk'. rewrite last_use_snoc, HU; auto. }
    split.
    - eapply sorted_ext; [|exact HS]. intros a b Ha Hb. unfold recency. rewrite !E; auto.
    - rewrite Forall_forall in *. intros y Hy. rewrite E by assumption. auto.
  Qed.

  Lemma uses_get k i r cl d :
    uses k (OpGet i r, OutGet cl d) = true <-> key_of r = k /\ is_ok d = true.
  Proof.
    cbn. destruct d; cbn; rewrite ?String.eqb_eq; intuition congruence.
  Qed.

  Lemma off_items s : GInv s -> has_cache (pol s) = false -> items s = [].
  Proof.
    intros (_ & _ & HB) H. unfold bounded in HB. destruct (pol s); try discriminate; auto.
  Qed.

  Lemma step_rinv tr s o s' x :
    GInv s -> RInv tr s -> step s o = (s', x) -> RInv (tr ++ [(o, x)]) s'.
  Proof.
    intros HG HR H. destruct o as [i r|c| |]; cbn in H.
    - destruct (MemCache.get _ _ _ i r s) as [[s2 cl] d] eqn:E. inversion H; subst s2 x.
      pose proof (get_effect_ok _ _ _ _ _ _ HG E) as HE. unfold RInv.
      destruct HE.
      + subst s'. rewrite (off_items _ HG H0). cbn. repeat constructor.
      + rewrite H2. rewrite akeys_app. cbn [akeys].
        destruct (RInv_sub _ _ _ HR (sub_aremove (key_of r) (items s))) as [A B].
        apply recency_snoc; auto.
        * apply uses_get; auto.
        * rewrite aremove_keys_in. tauto.
        * intros k' Hk'. apply uses_get in Hk'. destruct Hk'; congruence.
      + rewrite H3. destruct (RInv_sub _ _ _ HR H2) as [A B].
        apply recency_keep; auto.
        intros k Hk. destruct (uses k _) eqn:EU; [|reflexivity].
        apply uses_get in EU. destruct EU as [EU _]. subst k.
        exfalso. pose proof (sub_lookup_none _ _ _ H2 H1) as HN. apply alookup_None in HN. tauto.
      + destruct (RInv_sub _ _ _ HR H2) as [A B].
        pose proof (sub_lookup_none _ _ _ H2 H1) as HN. apply alookup_None in HN.
        destruct (recency_snoc tr (OpGet i r, OutGet cl (Ok (Some w))) (key_of r) (akeys (items s1)))
          as [C D]; auto.
        * apply uses_get; auto.
        * intros k' Hk'. apply uses_get in Hk'. destruct Hk'; congruence.
        * pose proof (sub_map fst _ _ H3) as HS'. rewrite map_app in HS'. cbn in HS'.
          rewrite akeys_map in *. split.
          -- eapply sub_sorted; eassumption.
          -- rewrite Forall_forall in *. intros k Hk. apply D. eapply sub_in; eassumption.
      + destruct (RInv_sub _ _ _ HR H2) as [A B]. apply recency_keep; auto.
        intros k Hk. destruct (uses k _) eqn:EU; [|reflexivity].
        apply uses_get in EU. destruct EU; congruence.
    - pose proof (update_sub c s) as HS. destruct (update c s) as [s2 d]. inversion H; subst.
      cbn in HS. destruct (RInv_sub _ _ _ HR HS) as [A B]. apply recency_keep; auto.
    - inversion H; subst. cbn. repeat constructor.
    - inversion H; subst. destruct HR as [A B]. apply recency_keep; auto.
  Qed.

  Lemma run_rinv tr s ops :
    GInv s -> (forall x, In x (snd (run s ops)) -> upd_ok _ _ _ x) -> RInv tr s ->
    RInv (tr ++ combine ops (snd (run s ops))) (fst (run s ops)).
  Proof.
    revert tr s; induction ops as [|o ops IH]; intros tr s HG HU HR; cbn in *.
    - rewrite app_nil_r. exact HR.
    - pose proof (step_ginv _ _ _ key_of est_size size_of size_nonneg s o HG) as H1.
      destruct (step s o) as [s1 x] eqn:E. cbn in H1.
      pose proof (step_rinv tr s o s1 x HG HR E) as HR1.
      specialize (IH (tr ++ [(o, x)]) s1). destruct (run s1 ops) as [s2 xs]. cbn in *.
      rewrite <- app_assoc in IH. cbn in IH. apply IH; auto.
  Qed.

  Lemma after_rinv c ops : updates_ok c ops -> RInv (trace c ops) (after c ops).
  Proof.
    intros H. pose proof H as H'. apply updates_ok_outs in H'. destruct H' as [H1 H2].
    unfold MemCacheSpec.after, MemCacheSpec.trace.
    apply (run_rinv [] (fst (init c)) ops); auto.
    - unfold init in *. destruct (update c fresh) as [s r] eqn:E. cbn in *. subst r.
      eapply update_ok; [apply fresh_ginv|eassumption].
    - unfold RInv. rewrite init_items. cbn. repeat constructor.
  Qed.

  Lemma trace_snoc c ops o :
    trace c (ops ++ [o]) = trace c ops ++ [(o, snd (step (after c ops) o))].
  Proof.
    unfold MemCacheSpec.trace, MemCacheSpec.after. rewrite run_app.
    pose proof (run_length _ _ _ key_of est_size size_of (fst (init c)) ops) as HL.
    destruct (run (fst (init c)) ops) as [s1 xs]. cbn in *.
    destruct (step s1 o) as [s2 y]. cbn.
    clear - HL. revert xs HL; induction ops as [|a ops IH]; intros [|x xs] HL; cbn in *; try discriminate; auto.
    f_equal. apply IH. congruence.
  Qed.

  Lemma after_snoc c ops o : after c (ops ++ [o]) = fst (step (after c ops) o).
  Proof.
    unfold MemCacheSpec.after. rewrite run_app.
    destruct (run (fst (init c)) ops) as [s1 xs]. cbn.
    destruct (step s1 o) as [s2 y]. reflexivity.
  Qed.

  (** *** lru *)
  Lemma lru_get_miss i r s m s' cl w :
    GInv s -> pol s = PLru -> max_mem s = Some m -> alookup (key_of r) (items s) = None ->
    get i r s = (s', cl, Ok (Some w)) ->
    exists e pre1 l1 pre2,
      i_find i r = Ok (Some e) /\ items s = pre1 ++ l1 /\
      l1 ++ [(key_of r, newitem w)] = pre2 ++ items s' /\
      (pre1 = [] \/
       (est_size e > m - curr_mem s /\ est_size e <= m /\
        (curr_mem_of l1 < m - est_size e \/ l1 = []) /\
        (forall pre' k it, pre1 = pre' ++ [(k, it)] -> it_size it + curr_mem_of l1 >= m - est_size e))) /\
      (pre1 = [] -> est_size e <= m - curr_mem s \/ est_size e > m \/ items s = []) /\
      (curr_mem s' < m \/ items s' = []) /\
      curr_mem s' = curr_mem_of (items s') /\
      (forall pre' k it, pre2 = pre' ++ [(k, it)] -> it_size it + curr_mem s' >= m).
  Proof.
    intros (HI & HW & HB) HP HM EL H.
    assert (0 < m) as Hm by (unfold well_conf in HW; rewrite HP in HW; destruct HW as (m' & A & B); congruence).
    assert (Ehl : has_limit (pol s) = true) by (rewrite HP; reflexivity).
    unfold MemCache.get in H. rewrite HP in H. cbn [has_cache negb has_limit] in H. rewrite EL in H.
    destruct (create_with_pre_check i r s) as [[s1 cl1] d1] eqn:E1.
    destruct (pre_check_limited _ _ _ key_of _ _ _ _ _ _ _ _ HI Ehl HM Hm E1)
      as (J1 & J2 & J3 & J4 & J5 & J6 & J7 & J8 & J9 & J10 & J11 & J12).
    pose proof (pre_check_sub _ _ _ _ _ _ E1) as HS1.
    pose proof (sub_lookup_none _ _ _ HS1 EL) as HN.
    destruct d1 as [[w1|]|e1|]; try (inversion H; fail).
    cbn [it_size] in H.
    destruct (reduce_ None _) as [s3 rr] eqn:E3.
    pose proof (aset_inv _ _ s1 (key_of r) w1 size_nonneg J1 HN) as HI2.
    assert (Ehl2 : has_limit (pol s1) = true) by (rewrite J4; exact Ehl).
    rewrite HM in J2.
    match type of E3 with reduce_ None ?st = _ =>
      destruct (reduce_limited _ None st m Ehl2 J2 Hm) as (s3' & E3' & _ & _ & _ & _ & _ & G1 & _) end.
    rewrite E3 in E3'. inversion E3'; subst s3' rr.
    inversion H; subst s3 cl1 w1.
    cbn in G1. rewrite J4 in G1. specialize (G1 HP).
    rewrite aset_notin in G1 by (apply alookup_None; exact HN).
    destruct (lru_reduce_spec _ (items s1 ++ [(key_of r, newitem w)])
                (curr_mem_of (items s1 ++ [(key_of r, newitem w)])) m eq_refl)
      as (pre2 & l' & c' & X1 & X2 & X3 & X4 & X5).
    unfold newitem in X1. rewrite X1 in G1. inversion G1 as [[Hi Hc]].
    assert (exists e, i_find i r = Ok (Some e)) as [e He].
    { specialize (J9 _ eq_refl). unfold create in J9.
      destruct (i_find i r) as [[e|]|e|]; cbn in J9; try discriminate. exists e; auto. }
    unfold MemCache.create_with_pre_check in E1. rewrite He, HM in E1.
    destruct (est_size e >? m - curr_mem s) eqn:C1; [destruct (est_size e <=? m) eqn:C2|]; cbn [andb] in E1.
    - destruct (reduce_ (Some (m - est_size e)) s) as [s2 rr] eqn:ER.
      destruct (reduce_limited _ (Some (m - est_size e)) _ m Ehl HM Hm)
        as (s2' & ER' & _ & _ & _ & _ & _ & G2 & _).
      rewrite ER in ER'. inversion ER'; subst s2' rr.
      destruct (_ && _); inversion E1; subst s2 cl.
      specialize (G2 HP).
      destruct (lru_reduce_spec _ (items s) (curr_mem_of (items s)) (m - est_size e) eq_refl)
        as (pre1 & l1 & c1 & Y1 & Y2 & Y3 & Y4 & Y5).
      rewrite Y1 in G2. inversion G2 as [[Hi1 Hc1]].
      rewrite Hi1 in X2. exists e, pre1, l1, pre2. rewrite Hi, Hc.
      splits; auto.
      + destruct pre1 as [|p pre1']; [left; reflexivity|right].
        rewrite <- Y3. splits; try lia; eauto.
      + intros ->. cbn in Y2. rewrite Y2. destruct Y4 as [Y4|Y4]; [|auto].
        left. destruct HI as (I1 & _). rewrite Y2 in I1. lia.
    - destruct (_ && _); inversion E1; subst s1 cl.
      exists e, [], (items s), pre2. rewrite Hi, Hc. splits; auto; try lia; try congruence.
    - destruct (_ && _); inversion E1; subst s1 cl.
      exists e, [], (items s), pre2. rewrite Hi, Hc. splits; auto; try lia; try congruence.
  Qed.

  Lemma lru_order c ops i r s' cl d :
    updates_ok c ops -> pol (after c ops) = PLru ->
    get i r (after c ops) = (s', cl, Ok d) ->
    forall k k', held (after c ops) k -> ~ held s' k -> held s' k' ->
      earlier (last_use k (trace c (ops ++ [OpGet i r]))) (last_use k' (trace c (ops ++ [OpGet i r]))).
  Proof.
    intros HU HP H k k' Hk Hnk Hk'.
    pose proof (after_ginv _ _ _ key_of est_size size_of size_nonneg c ops HU) as HG.
    pose proof (after_rinv c ops HU) as HR.
    rewrite trace_snoc. cbn [MemCache.step]. rewrite H. cbn [snd].
    set (s := after c ops) in *. set (tr := trace c ops) in *.
    unfold held in *.
    assert (exists m, max_mem s = Some m) as [m HM].
    { destruct HG as (_ & HW & _). unfold well_conf in HW. rewrite HP in HW. destruct HW as (m & A & _); eauto. }
    pose proof (get_effect_ok _ _ _ _ _ _ HG H) as HE.
    remember (Ok d) as dd eqn:Ed.
    destruct HE as [A B|it A B C D E F|s1 cl A B C D E F G|s1 cl w A B C D E F G|cl d0 A B C D E F G].
    - rewrite HP in A; discriminate.
    - exfalso. apply Hnk. rewrite C, akeys_app, in_app_iff, aremove_keys_in. cbn.
      destruct (string_dec k (key_of r)); auto.
    - exfalso.
      (* not found: the items do not change *)
      unfold MemCache.get in H. rewrite HP in H. cbn [has_cache negb has_limit] in H. rewrite B in H.
      assert (items s' = items s) as EQ.
      { unfold MemCache.create_with_pre_check in H.
        destruct (i_find i r) as [[e|]|e|]; try (inversion H; subst; reflexivity).
        rewrite HM in H. destruct ((est_size e >? m - curr_mem s) && (est_size e <=? m)).
        - destruct (reduce_ (Some (m - est_size e)) s) as [s2 rr]. destruct rr; try (inversion H; fail).
          destruct (_ && _); [inversion H; fail|]. unfold create_from_entry in H.
          destruct (i_load i e); cbn in H; try (inversion H; fail).
          destruct (reduce_ None _) as [s4 r4]. destruct r4; inversion H.
        - destruct (_ && _); [inversion H; fail|]. unfold create_from_entry in H.
          destruct (i_load i e); cbn in H; try (inversion H; fail).
          destruct (reduce_ None _) as [s4 r4]. destruct r4; inversion H. }
      rewrite EQ in Hnk. tauto.
    - destruct (lru_get_miss _ _ _ _ _ _ _ HG HP HM B H)
        as (e & pre1 & l1 & pre2 & A1 & A2 & A3 & _).
      pose proof (alookup_None (key_of r) (items s)) as [HN _]. specialize (HN B).
      destruct HR as [R1 R2].
      destruct (recency_snoc tr (OpGet i r, OutGet cl (Ok (Some w))) (key_of r) (akeys (items s)))
          as [C' D']; auto.
      { apply uses_get; auto. }
      { intros k0 Hk0. apply uses_get in Hk0. destruct Hk0; congruence. }
      rewrite A2, akeys_app, <- app_assoc in C'.
      change [key_of r] with (akeys [(key_of r, newitem w)]) in C'.
      rewrite <- akeys_app, A3, akeys_app, app_assoc in C'.
      refine (sorted_app _ _ _ k k' C' _ Hk').
      rewrite A2, akeys_app, in_app_iff in Hk. rewrite in_app_iff.
      destruct Hk as [Hk|Hk]; [auto|]. right.
      assert (In k (akeys (pre2 ++ items s'))) as Hx
        by (rewrite <- A3, akeys_app, in_app_iff; auto).
      rewrite akeys_app, in_app_iff in Hx. tauto.
    - subst d0. discriminate D.
  Qed.

  (** The kept items are a suffix of old items followed by the new one, and one more
      item would reach the limit. *)
  Lemma lru_minimal i r s m s' cl w e :
    GInv s -> pol s = PLru -> max_mem s = Some m -> alookup (key_of r) (items s) = None ->
    get i r s = (s', cl, Ok (Some w)) -> i_find i r = Ok (Some e) -> est_size e = size_of w ->
    exists pre, items s ++ [(key_of r, newitem w)] = pre ++ items s' /\
      forall pre' k it, pre = pre' ++ [(k, it)] -> it_size it + curr_mem s' >= m.
  Proof.
    intros HG HP HM EL H HF HE.
    destruct (lru_get_miss _ _ _ _ _ _ _ HG HP HM EL H)
        as (e' & pre1 & l1 & pre2 & A1 & A2 & A3 & A4 & A5 & A6 & A7 & A8).
    assert (e' = e) by congruence. subst e'.
    exists (pre1 ++ pre2). split.
    - rewrite A2, <- app_assoc, A3, app_assoc. reflexivity.
    - intros pre' k it Hp. destruct pre2 as [|p pre2'] eqn:EP2.
      + rewrite app_nil_r in Hp. cbn in A3.
        destruct A4 as [->|(B1 & B2 & B3 & B4)]; [destruct pre'; discriminate|].
        specialize (B4 _ _ _ Hp). rewrite A7, <- A3, cm_app. unfold curr_mem_of at 2; cbn. lia.
      + destruct (exists_last (l := p :: pre2')) as (q & [k2 it2] & Hq); [discriminate|].
        rewrite Hq in Hp. rewrite app_assoc in Hp. apply app_inj_tail in Hp.
        destruct Hp as [_ Hp]. inversion Hp; subst. eapply A8. exact Hq.
  Qed.

  Lemma lru_keeps_new i r s m s' cl w e :
    GInv s -> pol s = PLru -> max_mem s = Some m ->
    get i r s = (s', cl, Ok (Some w)) -> i_find i r = Ok (Some e) -> est_size e = size_of w ->
    size_of w < m -> held s' (key_of r).
  Proof.
    intros HG HP HM H HF HE Hlt.
    destruct (alookup (key_of r) (items s)) as [it|] eqn:EL.
    { assert (HC : has_cache (pol s) = true) by (rewrite HP; reflexivity).
      pose proof (get_hit_items _ _ _ _ _ _ _ HG H EL HC) as HX.
      unfold held. rewrite HX, akeys_app, in_app_iff. cbn. auto. }
    destruct (lru_get_miss _ _ _ _ _ _ _ HG HP HM EL H)
        as (e' & pre1 & l1 & pre2 & A1 & A2 & A3 & A4 & A5 & A6 & A7 & A8).
    assert (e' = e) by congruence. subst e'.
    unfold held.
    destruct (items s') as [|p l'] eqn:Ei.
    - exfalso. destruct (exists_last (l := pre2)) as (q & [k2 it2] & Hq).
      { intros ->. cbn in A3. destruct l1; discriminate. }
      rewrite app_nil_r, Hq in A3. apply app_inj_tail in A3. destruct A3 as [A3 A3'].
      inversion A3'; subst k2 it2. specialize (A8 _ _ _ Hq). cbn in A8.
      rewrite A7 in A8. unfold curr_mem_of in A8. cbn in A8. lia.
    - rewrite akeys_map. assert (p :: l' <> []) as Hne by discriminate.
      destruct (exists_last Hne) as (q & x & Hq). rewrite Hq in A3 |- *.
      rewrite app_assoc in A3. apply app_inj_tail in A3. destruct A3 as [_ <-].
      rewrite map_app, in_app_iff. cbn. auto.
  Qed.

  (** *** largest *)
  Lemma largest_get_miss i r s m s' cl w :
    GInv s -> pol s = PLargest -> max_mem s = Some m -> alookup (key_of r) (items s) = None ->
    get i r s = (s', cl, Ok (Some w)) ->
    exists e ev1 l1 ev2,
      i_find i r = Ok (Some e) /\
      Permutation (items s) (ev1 ++ l1) /\
      Permutation (l1 ++ [(key_of r, newitem w)]) (ev2 ++ items s') /\
      (forall k it k' it', In (k, it) ev1 -> In (k', it') l1 ->
         pair_leb (it_size it', k') (it_size it, k) = true) /\
      (forall k it k' it', In (k, it) ev2 -> In (k', it') (items s') ->
         pair_leb (it_size it', k') (it_size it, k) = true) /\
      (forall k it, In (k, it) ev1 -> it_size it + curr_mem_of l1 >= m - est_size e) /\
      (forall k it, In (k, it) ev2 -> it_size it + curr_mem s' >= m) /\
      (ev1 = [] \/ (est_size e <= m /\ (curr_mem_of l1 < m - est_size e \/ l1 = []))) /\
      (ev1 = [] -> l1 = items s) /\
      curr_mem s' = curr_mem_of (items s') /\
      (ev2 = [] \/ curr_mem_of l1 + size_of w >= m).
  Proof.
    intros (HI & HW & HB) HP HM EL H.
    assert (0 < m) as Hm by (unfold well_conf in HW; rewrite HP in HW; destruct HW as (m' & A & B); congruence).
    assert (Ehl : has_limit (pol s) = true) by (rewrite HP; reflexivity).
    unfold MemCache.get in H. rewrite HP in H. cbn [has_cache negb has_limit] in H. rewrite EL in H.
    destruct (create_with_pre_check i r s) as [[s1 cl1] d1] eqn:E1.
    destruct (pre_check_limited _ _ _ key_of _ _ _ _ _ _ _ _ HI Ehl HM Hm E1)
      as (J1 & J2 & J3 & J4 & J5 & J6 & J7 & J8 & J9 & J10 & J11 & J12).
    pose proof (pre_check_sub _ _ _ _ _ _ E1) as HS1.
    pose proof (sub_lookup_none _ _ _ HS1 EL) as HN.
    destruct d1 as [[w1|]|e1|]; try (inversion H; fail).
    cbn [it_size] in H.
    destruct (reduce_ None _) as [s3 rr] eqn:E3.
    pose proof (aset_inv _ _ s1 (key_of r) w1 size_nonneg J1 HN) as HI2.
    assert (Ehl2 : has_limit (pol s1) = true) by (rewrite J4; exact Ehl).
    rewrite HM in J2.
    match type of E3 with reduce_ None ?st = _ =>
      destruct (reduce_limited _ None st m Ehl2 J2 Hm) as (s3' & E3' & _ & _ & _ & _ & _ & _ & G1) end.
    rewrite E3 in E3'. inversion E3'; subst s3' rr.
    inversion H; subst s3 cl1 w1.
    cbn in G1. rewrite J4 in G1. specialize (G1 HP).
    assert (HN' : ~ In (key_of r) (akeys (items s1))) by (apply alookup_None; exact HN).
    rewrite aset_notin in G1 by exact HN'.
    destruct HI2 as (I21 & I22 & I23). cbn in I21, I22, I23.
    rewrite aset_notin in I21, I22, I23 by exact HN'.
    fold (newitem w) in *.
    set (L := items s1 ++ [(key_of r, newitem w)]) in *.
    (* smallest-evicted fact lifted to all evicted, for any run of largest_reduce *)
    assert (Hall : forall ll t, NoDup (akeys ll) -> nonneg _ ll -> forall l' c',
      largest_reduce (List.length ll) ll (curr_mem_of ll) t = (l', c') ->
      exists ev, Permutation ll (ev ++ l') /\ c' = curr_mem_of l' /\ (c' < t \/ l' = []) /\
       (forall k it k' it', In (k, it) ev -> In (k', it') l' ->
         pair_leb (it_size it', k') (it_size it, k) = true) /\
       (forall k it, In (k, it) ev -> it_size it + c' >= t) /\
       (ev = [] -> l' = ll) /\ (ev = [] \/ curr_mem_of ll >= t)).
    { clear. intros ll t. remember (List.length ll) as n eqn:Hn.
      assert (Hn' : (List.length ll <= n)%nat) by lia. clear Hn. revert ll Hn'.
      induction n as [|n IH]; intros ll Hn ND NN l' c' HR.
      - cbn in HR. inversion HR; subst. exists []. destruct l'; [|cbn in Hn; lia]. cbn.
        splits; auto; try tauto.
      - cbn [largest_reduce] in HR. destruct (largest ll) as [[sz k]|] eqn:EL.
        2:{ apply largest_none in EL. subst ll. inversion HR; subst. exists []. cbn.
            splits; auto; try tauto. }
        destruct (largest_spec _ _ _ _ EL) as [(it & HIn & Hsz) Hmax].
        destruct (curr_mem_of ll >=? t) eqn:E.
        2:{ inversion HR; subst. exists []. cbn. splits; auto; try tauto. left; lia. }
        assert (HLk : alookup k ll = Some it) by (apply In_alookup; auto).
        pose proof (aremove_perm k ll it ND HLk) as HP.
        assert (Hc2 : curr_mem_of ll - sz = curr_mem_of (aremove k ll)).
        { rewrite (cm_perm _ _ _ HP), cm_cons. lia. }
        assert (NN2 : nonneg _ (aremove k ll)).
        { apply (nonneg_perm _ _ _ HP) in NN. inversion NN; assumption. }
        pose proof (cm_nonneg _ _ NN2) as Hge.
        replace (if curr_mem_of ll - sz <? 0 then 0 else curr_mem_of ll - sz)
          with (curr_mem_of (aremove k ll)) in HR
          by (destruct (Z.ltb_spec (curr_mem_of ll - sz) 0); lia).
        destruct (IH (aremove k ll)) with (l' := l') (c' := c')
          as (ev & K1 & K2 & K3 & K4 & K5 & K6 & K7); auto.
        { apply Permutation_length in HP. cbn in HP. lia. }
        { apply aremove_NoDup; auto. }
        exists ((k, it) :: ev). splits; auto.
        + cbn. eapply Permutation_trans; [exact HP|]. constructor. exact K1.
        + intros k1 it1 k2 it2 [Hx|Hx] Hy; [|eauto].
          inversion Hx; subst. apply Hmax.
          assert (In (k2, it2) (aremove k1 ll)) as Hz
            by (eapply Permutation_in; [symmetry; exact K1|]; rewrite in_app_iff; auto).
          apply aremove_In in Hz. tauto.
        + intros k1 it1 [Hx|Hx]; [|eauto]. inversion Hx; subst k1 it1.
          destruct ev as [|[k3 it3] ev'].
          * cbn in K1. rewrite K2, <- (cm_perm _ _ _ K1). lia.
          * assert (In (k3, it3) (aremove k ll)) as Hz
              by (eapply Permutation_in; [symmetry; exact K1|]; cbn; auto).
            apply aremove_In in Hz. destruct Hz as [Hz _]. apply Hmax in Hz.
            apply pair_leb_size in Hz. cbn in Hz.
            specialize (K5 k3 it3 (or_introl eq_refl)). lia.
        + discriminate.
        + right; lia. }
    destruct (Hall L m I22 I23 _ _ (eq_sym G1)) as (ev2 & X1 & X2 & X3 & X4 & X5 & X6 & X7).
    assert (HcL : curr_mem_of L = curr_mem_of (items s1) + size_of w).
    { unfold L. rewrite cm_app. unfold curr_mem_of at 2. cbn. lia. }
    assert (exists e, i_find i r = Ok (Some e)) as [e He].
    { specialize (J9 _ eq_refl). unfold create in J9.
      destruct (i_find i r) as [[e|]|e|]; cbn in J9; try discriminate. exists e; auto. }
    unfold MemCache.create_with_pre_check in E1. rewrite He, HM in E1.
    destruct (est_size e >? m - curr_mem s) eqn:C1; [destruct (est_size e <=? m) eqn:C2|]; cbn [andb] in E1.
    - destruct (reduce_ (Some (m - est_size e)) s) as [s2 rr] eqn:ER.
      destruct (reduce_limited _ (Some (m - est_size e)) _ m Ehl HM Hm)
        as (s2' & ER' & _ & _ & _ & _ & _ & _ & G2).
      rewrite ER in ER'. inversion ER'; subst s2' rr.
      destruct (_ && _); inversion E1; subst s2 cl.
      specialize (G2 HP). destruct HI as (I1 & I2 & I3).
      destruct (Hall (items s) (m - est_size e) I2 I3 _ _ (eq_sym G2))
        as (ev1 & Y1 & Y2 & Y3 & Y4 & Y5 & Y6 & Y7).
      exists e, ev1, (items s1), ev2. splits; auto.
      + intros k it Hin. rewrite <- Y2. eauto.
      + right. split; [lia|]. destruct Y3 as [Y3|Y3]; [left; lia|auto].
      + rewrite <- HcL. destruct X7; [auto|right; lia].
    - destruct (_ && _); inversion E1; subst s1 cl.
      exists e, [], (items s), ev2. splits; auto; try (cbn; intros; tauto).
      rewrite <- HcL. destruct X7; [auto|right; lia].
    - destruct (_ && _); inversion E1; subst s1 cl.
      exists e, [], (items s), ev2. splits; auto; try (cbn; intros; tauto).
      rewrite <- HcL. destruct X7; [auto|right; lia].
  Qed.

  Lemma perm_split_in {A} (l a b : list A) x : Permutation l (a ++ b) -> (In x l <-> In x a \/ In x b).
  Proof.
    intros HP. rewrite <- in_app_iff. split; apply Permutation_in; [|symmetry]; exact HP.
  Qed.

  Lemma nodup_perm_disjoint l a b k (it it' : item) :
    NoDup (akeys l) -> Permutation l (a ++ b) -> In (k, it) a -> In (k, it') b -> False.
  Proof.
    intros ND HP Ha Hb.
    assert (NoDup (akeys (a ++ b))) as ND'.
    { rewrite akeys_map in *. eapply Permutation_NoDup; [|exact ND]. apply Permutation_map, HP. }
    rewrite akeys_app in ND'. apply In_akeys in Ha, Hb.
    revert Ha Hb ND'. generalize (akeys a) (akeys b). intros x y.
    induction x as [|z x IH]; cbn; [tauto|].
    intros [->|Ha] Hb ND'; inversion ND'; subst.
    - apply H1. rewrite in_app_iff. auto.
    - auto.
  Qed.

  Lemma largest_order i r s m s' cl w :
    GInv s -> pol s = PLargest -> max_mem s = Some m ->
    get i r s = (s', cl, Ok (Some w)) ->
    (* among the items held before *)
    (forall k z k' z', holds s k z -> ~ held s' k -> holds s k' z' -> held s' k' ->
       z' < z \/ (z' = z /\ str_leb k' k = true)) /\
    (* the new item is dropped only if nothing kept is larger *)
    (~ held s' (key_of r) -> forall k' z', holds s' k' z' -> z' <= size_of w).
  Proof.
    intros HG HP HM H.
    destruct (alookup (key_of r) (items s)) as [it|] eqn:EL.
    { assert (HC : has_cache (pol s) = true) by (rewrite HP; reflexivity).
      pose proof (get_hit_items _ _ _ _ _ _ _ HG H EL HC) as HX.
      split.
      - intros k z k' z' [it1 [Hk _]] Hn. exfalso. apply Hn. unfold held.
        rewrite HX, akeys_app, in_app_iff, aremove_keys_in. cbn. apply In_akeys in Hk.
        destruct (string_dec k (key_of r)); auto.
      - intros Hn. exfalso. apply Hn. unfold held.
        rewrite HX, akeys_app, in_app_iff. cbn. auto. }
    destruct (largest_get_miss _ _ _ _ _ _ _ HG HP HM EL H)
      as (e & ev1 & l1 & ev2 & A1 & A2 & A3 & A4 & A5 & A6 & A7 & A8 & A9 & A10 & A11).
    pose proof HG as ((I1 & I2 & I3) & _).
    assert (HG' : GInv s') by (eapply get_ginv; eassumption).
    apply alookup_None in EL.
    assert (NoDup (akeys (l1 ++ [(key_of r, newitem w)]))) as ND1.
    { rewrite akeys_app. cbn. apply NoDup_snoc.
      - assert (NoDup (akeys (ev1 ++ l1))) as X.
        { rewrite akeys_map in *. eapply Permutation_NoDup; [|exact I2]. apply Permutation_map, A2. }
        rewrite akeys_app in X. revert X. generalize (akeys ev1). intros a.
        induction a as [|x a IH]; cbn; auto. intros X; inversion X; auto.
      - intros Hin. apply EL. rewrite akeys_map in *. apply in_map_iff in Hin.
        destruct Hin as (p & Ep & Hin). apply in_map_iff. exists p. split; auto.
        eapply perm_split_in; [exact A2|]. auto. }
    assert (Hconv : forall a b : Z * string, pair_leb a b = true ->
              fst a < fst b \/ (fst a = fst b /\ str_leb (snd a) (snd b) = true)).
    { intros a b. unfold pair_leb. rewrite orb_true_iff, andb_true_iff. lia. }
    split.
    - intros k z k' z' (it1 & Hk & <-) Hn (it2 & Hk' & <-) Hh'.
      assert (In (k', it2) (items s')) as Hin'.
      { unfold held in Hh'. rewrite akeys_map in Hh'. apply in_map_iff in Hh'.
        destruct Hh' as ([k2 it3] & Ek & Hin). cbn in Ek. subst k2.
        assert (Hx : In (k', it3) (l1 ++ [(key_of r, newitem w)]))
          by (eapply perm_split_in; [exact A3|auto]).
        rewrite in_app_iff in Hx. destruct Hx as [Hx|[Hx|[]]].
        - assert (In (k', it3) (items s)) as Hy by (eapply perm_split_in; [exact A2|auto]).
          apply (In_alookup _ _ _ I2) in Hy. apply (In_alookup _ _ _ I2) in Hk'. congruence.
        - inversion Hx; subst. exfalso. apply EL. eapply In_akeys; eassumption. }
      assert (In (k', it2) (ev1 ++ l1)) as Hx' by (eapply Permutation_in; [exact A2|exact Hk']).
      assert (In (k', it2) l1) as Hl1'.
      { rewrite in_app_iff in Hx'. destruct Hx' as [Hx'|]; [|auto]. exfalso.
        assert (In (k', it2) (l1 ++ [(key_of r, newitem w)])) as Hy
          by (eapply perm_split_in; [exact A3|auto]).
        rewrite in_app_iff in Hy. destruct Hy as [Hy|[Hy|[]]].
        - eapply nodup_perm_disjoint; [exact I2|exact A2|exact Hx'|exact Hy].
        - inversion Hy; subst. apply EL. eapply In_akeys; eassumption. }
      assert (In (k, it1) (ev1 ++ l1)) as Hx by (eapply Permutation_in; [exact A2|exact Hk]).
      rewrite in_app_iff in Hx. destruct Hx as [Hx|Hx].
      + apply (Hconv (it_size it2, k') (it_size it1, k)). eapply A4; eassumption.
      + assert (In (k, it1) (ev2 ++ items s')) as Hy.
        { eapply Permutation_in; [exact A3|]. rewrite in_app_iff; auto. }
        rewrite in_app_iff in Hy. destruct Hy as [Hy|Hy].
        * apply (Hconv (it_size it2, k') (it_size it1, k)). eapply A5; eassumption.
        * exfalso. apply Hn. eapply In_akeys; eassumption.
    - intros Hn k' z' (it2 & Hk' & <-).
      assert (In (key_of r, newitem w) (ev2 ++ items s')) as Hy.
      { eapply Permutation_in; [exact A3|]. rewrite in_app_iff; cbn; auto. }
      rewrite in_app_iff in Hy. destruct Hy as [Hy|Hy].
      + specialize (A5 _ _ _ _ Hy Hk'). apply pair_leb_size in A5. cbn in A5. lia.
      + exfalso. apply Hn. eapply In_akeys; eassumption.
  Qed.

  Lemma largest_minimal i r s m s' cl w e :
    GInv s -> pol s = PLargest -> max_mem s = Some m -> alookup (key_of r) (items s) = None ->
    get i r s = (s', cl, Ok (Some w)) -> i_find i r = Ok (Some e) ->
    est_size e = size_of w -> est_size e <> m ->
    (forall k z, holds s k z -> ~ held s' k -> z + curr_mem s' >= m) /\
    (~ held s' (key_of r) -> size_of w + curr_mem s' >= m).
  Proof.
    intros HG HP HM EL H HF HE HNE.
    destruct (largest_get_miss _ _ _ _ _ _ _ HG HP HM EL H)
      as (e' & ev1 & l1 & ev2 & A1 & A2 & A3 & A4 & A5 & A6 & A7 & A8 & A9 & A10 & A11).
    assert (e' = e) by congruence. subst e'.
    pose proof HG as ((I1 & I2 & I3) & HW & HB).
    assert (0 < m) as Hm by (unfold well_conf in HW; rewrite HP in HW; destruct HW as (m' & A & B); congruence).
    assert (Hev2 : ev1 <> [] -> ev2 = []).
    { intros Hne. destruct A8 as [|[B1 B2]]; [contradiction|].
      destruct A11 as [|A11]; [assumption|]. exfalso.
      destruct B2 as [B2|B2]; [lia|]. subst l1. unfold curr_mem_of in A11. cbn in A11. lia. }
    split.
    - intros k z (it1 & Hk & <-) Hn.
      assert (In (k, it1) (ev1 ++ l1)) as Hx by (eapply Permutation_in; [exact A2|exact Hk]).
      rewrite in_app_iff in Hx. destruct Hx as [Hx|Hx].
      + assert (ev2 = []) as -> by (apply Hev2; intros ->; destruct Hx).
        cbn in A3. rewrite A10, <- (cm_perm _ _ _ A3), cm_app.
        specialize (A6 _ _ Hx). unfold curr_mem_of at 2. cbn. lia.
      + assert (In (k, it1) (ev2 ++ items s')) as Hy.
        { eapply Permutation_in; [exact A3|]. rewrite in_app_iff; auto. }
        rewrite in_app_iff in Hy. destruct Hy as [Hy|Hy]; [eapply A7; eassumption|].
        exfalso. apply Hn. eapply In_akeys; eassumption.
    - intros Hn.
      assert (In (key_of r, newitem w) (ev2 ++ items s')) as Hy.
      { eapply Permutation_in; [exact A3|]. rewrite in_app_iff; cbn; auto. }
      rewrite in_app_iff in Hy. destruct Hy as [Hy|Hy]; [apply (A7 _ _ Hy)|].
      exfalso. apply Hn. eapply In_akeys; eassumption.
  Qed.

  (** An oversize matrix under "largest" leaves the others alone. *)
  Lemma largest_oversize i r s m s' cl w e :
    GInv s -> pol s = PLargest -> max_mem s = Some m -> alookup (key_of r) (items s) = None ->
    get i r s = (s', cl, Ok (Some w)) -> i_find i r = Ok (Some e) ->
    est_size e > m -> size_of w > m ->
    Permutation (items s') (items s) /\ curr_mem s' = curr_mem s.
  Proof.
    intros HG HP HM EL H HF HE HW.
    destruct (largest_get_miss _ _ _ _ _ _ _ HG HP HM EL H)
      as (e' & ev1 & l1 & ev2 & A1 & A2 & A3 & A4 & A5 & A6 & A7 & A8 & A9 & A10 & A11).
    assert (e' = e) by congruence. subst e'.
    destruct A8 as [->|[B _]]; [|lia]. specialize (A9 eq_refl). subst l1. cbn in A2.
    pose proof HG as ((I1 & I2 & I3) & HWC & HB).
    assert (0 < m) as Hm by (unfold well_conf in HWC; rewrite HP in HWC; destruct HWC as (m' & A & B); congruence).
    assert (Hold : curr_mem_of (items s) < m).
    { unfold bounded in HB. rewrite HP in HB. destruct (HB m HM) as [|E]; [lia|].
      rewrite E. unfold curr_mem_of; cbn. lia. }
    assert (HG' : GInv s') by (eapply get_ginv; eassumption).
    assert (HB' : curr_mem s' < m).
    { destruct HG' as ((J1 & _) & _ & HB'). 
      assert (pol s' = PLargest /\ max_mem s' = Some m) as [P1 P2]
        by (destruct (get_ginv _ _ _ _ _ _ size_nonneg _ _ _ _ _ _ HG H) as (_ & Q1 & _ & Q2); split; congruence).
      unfold bounded in HB'. rewrite P1 in HB'. destruct (HB' m P2) as [|E]; [lia|].
      rewrite J1, E. unfold curr_mem_of; cbn. lia. }
    pose proof HG' as ((J1 & J2 & J3) & _).
    assert (In (key_of r, newitem w) (ev2 ++ items s')) as Hy.
    { eapply Permutation_in; [exact A3|]. rewrite in_app_iff; cbn; auto. }
    assert (In (key_of r, newitem w) ev2) as Hy2.
    { rewrite in_app_iff in Hy. destruct Hy as [Hy|Hy]; [exact Hy|]. exfalso.
      apply in_split in Hy. destruct Hy as (a & b & Hy).
      rewrite J1, Hy, cm_app, cm_cons in HB'. cbn [it_size newitem] in HB'.
      rewrite Hy in J3. apply Forall_app in J3. destruct J3 as [Ja Jb].
      inversion Jb; subst. apply cm_nonneg in Ja. apply cm_nonneg in H3. lia. }
    apply in_split in Hy2. destruct Hy2 as (a & b & Hy2).
    assert (Permutation (items s) (a ++ b ++ items s')) as HPerm.
    { apply (Permutation_cons_inv (a := (key_of r, newitem w))).
      eapply Permutation_trans; [apply Permutation_cons_append|].
      eapply Permutation_trans; [exact A3|]. rewrite Hy2, <- app_assoc. cbn.
      symmetry. apply Permutation_middle. }
    assert (a ++ b = []) as Hab.
    { destruct (a ++ b) as [|[k it] q] eqn:Eab; [reflexivity|]. exfalso.
      assert (In (k, it) ev2) as Hin.
      { rewrite Hy2, in_app_iff. cbn. assert (In (k, it) (a ++ b)) as Hz by (rewrite Eab; cbn; auto).
        rewrite in_app_iff in Hz. tauto. }
      specialize (A7 _ _ Hin).
      rewrite app_assoc, Eab in HPerm. rewrite (cm_perm _ _ _ HPerm) in Hold.
      cbn [app] in Hold. rewrite cm_cons, cm_app in Hold.
      apply (nonneg_perm _ _ _ HPerm) in I3. cbn in I3. inversion I3; subst.
      apply Forall_app in H3. destruct H3 as [H3 _]. apply cm_nonneg in H3.
      rewrite A10 in A7. lia. }
    rewrite app_assoc, Hab in HPerm. cbn in HPerm. split; [symmetry; exact HPerm|].
    rewrite J1, I1. symmetry. apply cm_perm. exact HPerm.
  Qed.
End Proofs.
