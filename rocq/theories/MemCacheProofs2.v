(** Lemmas about histories of the memory cache. *)
From Verif Require Import PyBase ListLemmas MemCache MemCacheSpec MemCacheProofs.
From Coq Require Import Permutation Sorted.

Section Proofs.
  Variables Req Ent W : Type.
  Variable key_of : Req -> string.
  Variable est_size : Ent -> Z.
  Variable size_of : W -> Z.
  Hypothesis size_nonneg : forall w, 0 <= size_of w.

  Notation state := (MemCache.state W).
  Notation item := (MemCache.item W).
  Notation op := (MemCache.op Req Ent W).
  Notation out := (MemCache.out Req Ent W).
  Notation inventory := (MemCache.inventory Req Ent W).
  Notation get := (MemCache.get key_of est_size size_of).
  Notation step := (MemCache.step key_of est_size size_of).
  Notation run := (MemCache.run key_of est_size size_of).
  Notation create_with_pre_check := (MemCache.create_with_pre_check (Req:=Req) (W:=W) est_size).
  Notation after := (MemCacheSpec.after (Req:=Req) key_of est_size size_of).
  Notation trace := (MemCacheSpec.trace (Req:=Req) key_of est_size size_of).
  Notation updates_ok := (MemCacheSpec.updates_ok (Req:=Req) key_of est_size size_of).
  Notation GInv := (MemCacheProofs.GInv W).
  Notation Inv := (MemCacheProofs.Inv W).
  Implicit Types (s : state) (l : list (string * item)).

  (** *** update *)
  Lemma optZ_eqb_eq a b : optZ_eqb a b = true <-> a = b.
  Proof.
    destruct a, b; cbn; split; intros H; try discriminate; auto.
    - f_equal; lia.
    - inversion H; lia.
  Qed.

  Lemma make_policy_name n p : make_policy n = Some p -> policy_name p = n.
  Proof.
    unfold make_policy.
    repeat match goal with
           | |- context [String.eqb n ?x] => destruct (String.eqb_spec n x)
           end; intros H; inversion H; subst; reflexivity.
  Qed.

  Definition reflects (c : mconf) s : Prop :=
    policy_name (pol s) = c_policy c /\
    match pol s with
    | POff => max_mem s = Some 0 /\ strict s = false
    | PUnlimited => max_mem s = None /\ strict s = false
    | _ => max_mem s = c_max c /\ strict s = c_strict c
    end.

  Lemma reduce_ok_well_conf tgt s s' :
    Inv s -> reduce_ tgt s = (s', Ok tt) ->
    well_conf _ s' /\ pol s' = pol s /\
    (tgt = None -> bounded _ s') /\
    (has_limit (pol s) = true -> max_mem s' = max_mem s /\ strict s' = strict s).
  Proof.
    intros HI H. destruct (has_limit (pol s)) eqn:EL.
    - assert (exists m, max_mem s = Some m /\ 0 < m) as (m & HM & Hm).
      { unfold reduce_ in H. destruct (pol s); try discriminate; cbn [check] in H;
          (destruct (max_mem s) as [m|]; [|discriminate H]);
          (destruct (Z.leb_spec m 0); [discriminate H|]); exists m; auto. }
      destruct (reduce_bound _ _ _ _ _ _ HI EL HM Hm H)
        as (_ & K2 & K3 & K4 & K5 & K6 & K7 & _).
      repeat split; auto.
      + unfold well_conf. rewrite K4, K2, HM.
        destruct (pol s); try discriminate; exists m; auto.
      + intros ->. unfold bounded. rewrite K4, K2, HM.
        destruct (pol s); try discriminate; intros m' E; inversion E; subst; auto.
    - unfold reduce_ in H. destruct (pol s) eqn:EP; try discriminate; cbn in H;
        rewrite ?EP in H; cbn in H; inversion H; subst; cbn.
      + unfold well_conf, bounded; cbn. rewrite ?EP. repeat split; auto; discriminate.
      + unfold well_conf, bounded; cbn. repeat split; auto; discriminate.
  Qed.

  Lemma update_ok c s s' :
    GInv s -> update c s = (s', Ok tt) -> GInv s' /\ reflects c s'.
  Proof.
    intros (HI & HW & HB) H.
    pose proof (update_pre_inv _ c s HI) as HI'. rewrite H in HI'. cbn [fst] in HI'.
    unfold update in H.
    set (ch1 := negb (optZ_eqb (max_mem s) (c_max c))) in *.
    set (s1 := mkState (items s) _ _ _ _ _ _) in *.
    set (ch2 := negb (Bool.eqb (strict s1) (c_strict c))) in *.
    set (s2 := mkState (items s1) _ _ _ _ _ _) in *.
    assert (Inv s2) as HI2 by exact HI.
    assert (max_mem s2 = c_max c) as HM2.
    { cbn. unfold ch1. destruct (optZ_eqb (max_mem s) (c_max c)) eqn:E; cbn; [|reflexivity].
      apply optZ_eqb_eq in E. exact E. }
    assert (strict s2 = c_strict c) as HS2.
    { cbn. unfold ch2. cbn. destruct (Bool.eqb (strict s) (c_strict c)) eqn:E; cbn; [|reflexivity].
      apply eqb_prop in E. exact E. }
    assert (pol s2 = pol s) as HP2 by reflexivity.
    destruct (String.eqb_spec (policy_name (pol s2)) (c_policy c)) as [EQ|NE].
    - destruct (ch1 || ch2 || false) eqn:EC.
      + destruct (reduce_ok_well_conf _ _ _ HI2 H) as (A & B & C & D).
        split; [split; [exact HI'|split; [exact A|auto]]|].
        unfold reflects. rewrite B. split; [exact EQ|].
        unfold well_conf in A. rewrite B in A.
        destruct (pol s2) eqn:EP; auto;
          (destruct D as [D1 D2]; [reflexivity|]; rewrite D1, D2; auto).
      + assert (s' = s2) as -> by (inversion H; reflexivity).
        assert (ch1 = false /\ ch2 = false) as [E1 E2] by (destruct ch1, ch2; auto; discriminate).
        assert (max_mem s2 = max_mem s) as HMs by (cbn; rewrite E1; reflexivity).
        assert (strict s2 = strict s) as HSs by (cbn; rewrite E2; reflexivity).
        split.
        * split; [exact HI2|]. split.
          -- unfold well_conf in *. rewrite HP2, HMs, HSs. exact HW.
          -- unfold bounded in *. rewrite HP2, HMs. exact HB.
        * unfold reflects. split; [exact EQ|]. rewrite HP2.
          unfold well_conf in HW. rewrite HMs, HSs.
          destruct (pol s); auto; split; congruence.
    - destruct (make_policy (c_policy c)) as [p|] eqn:EM; [|discriminate H].
      pose proof (make_policy_name _ _ EM) as HPN.
      destruct (check p s2) as [s3 rc] eqn:EC.
      destruct (check_fields _ _ _ _ _ EC) as (F1 & F2 & F3 & F4 & F5).
      destruct rc as [u|e|]; try discriminate H.
      replace (ch1 || ch2 || true) with true in H by (destruct ch1, ch2; reflexivity).
      set (s4 := mkState _ _ _ _ _ _ p) in *.
      assert (Inv s4) as HI4 by (unfold MemCacheProofs.Inv; cbn; rewrite F1, F2; exact HI2).
      destruct (reduce_ok_well_conf _ _ _ HI4 H) as (A & B & C & D).
      split; [split; [exact HI'|split; [exact A|auto]]|].
      unfold reflects. rewrite B. cbn. split; [exact HPN|].
      unfold well_conf in A. rewrite B in A. cbn in A, D.
      destruct p; auto;
        (destruct D as [D1 D2]; [reflexivity|]; rewrite D1, D2; cbn in EC;
         inversion EC; subst; auto).
  Qed.

  Lemma fresh_ginv : GInv (@fresh W).
  Proof.
    split; [apply fresh_inv|]. split.
    - unfold well_conf; cbn. eexists; split; [reflexivity|]. lia.
    - unfold bounded; cbn. auto.
  Qed.

  (** *** histories *)
  Definition upd_ok (x : out) : Prop := match x with OutUpdate r => r = Ok tt | _ => True end.

  Lemma run_app s a b :
    run s (a ++ b) = let '(s1, x) := run s a in let '(s2, y) := run s1 b in (s2, x ++ y).
  Proof.
    revert s; induction a as [|o a IH]; intros s; cbn.
    - destruct (run s b); reflexivity.
    - destruct (step s o) as [s1 x]. rewrite IH.
      destruct (run s1 a) as [s2 xs]. destruct (run s2 b); reflexivity.
  Qed.

  Lemma run_length s ops : List.length (snd (run s ops)) = List.length ops.
  Proof.
    revert s; induction ops as [|o ops IH]; intros s; cbn; [reflexivity|].
    destruct (step s o) as [s1 x]. specialize (IH s1). destruct (run s1 ops). cbn in *. congruence.
  Qed.

  Lemma step_ginv s o : GInv s -> upd_ok (snd (step s o)) -> GInv (fst (step s o)).
  Proof.
    intros HG HU. destruct o as [i r|c| |]; cbn in *.
    - destruct (MemCache.get _ _ _ i r s) as [[s' cl] d] eqn:E.
      destruct (get_ginv _ _ _ _ _ _ size_nonneg _ _ _ _ _ _ HG E) as [H _]. exact H.
    - destruct (update c s) as [s' d] eqn:E. cbn in *. subst d.
      eapply update_ok; eassumption.
    - destruct HG as (A & B & C). split; [|split].
      + unfold MemCacheProofs.Inv; cbn. repeat split; constructor.
      + exact B.
      + unfold bounded in *; cbn. destruct (pol s); auto.
    - exact HG.
  Qed.

  Lemma run_ginv s ops :
    GInv s -> (forall x, In x (snd (run s ops)) -> upd_ok x) -> GInv (fst (run s ops)).
  Proof.
    revert s; induction ops as [|o ops IH]; intros s HG HU; cbn in *; [exact HG|].
    pose proof (step_ginv s o HG) as H1. destruct (step s o) as [s1 x]. cbn in H1.
    specialize (IH s1). destruct (run s1 ops) as [s2 xs]. cbn in *.
    apply IH; [apply H1; apply HU; auto|]. intros y Hy. apply HU; auto.
  Qed.

  Lemma in_combine_outs (ops : list op) (xs : list out) x :
    List.length xs = List.length ops -> In x xs -> exists o, In (o, x) (combine ops xs).
  Proof.
    revert xs; induction ops as [|o ops IH]; intros [|y xs] HL HI; cbn in *; try discriminate; [tauto|].
    destruct HI as [->|HI]; [exists o; auto|].
    destruct (IH xs) as (o' & Ho'); [congruence|assumption|]. exists o'; auto.
  Qed.

  Lemma updates_ok_outs c ops :
    updates_ok c ops -> snd (@init W c) = Ok tt /\
    (forall x, In x (snd (run (fst (init c)) ops)) -> upd_ok x).
  Proof.
    intros [H1 H2]. split; [exact H1|]. intros x Hx.
    destruct x as [| r | |]; cbn; auto.
    destruct (in_combine_outs ops _ _ (run_length _ _) Hx) as (o & Ho).
    eapply H2. exact Ho.
  Qed.

  Lemma after_ginv c ops : updates_ok c ops -> GInv (after c ops).
  Proof.
    intros H. apply updates_ok_outs in H. destruct H as [H1 H2].
    unfold MemCacheSpec.after. apply run_ginv; [|exact H2].
    unfold init in *. destruct (update c fresh) as [s r] eqn:E. cbn in *. subst r.
    eapply update_ok; [apply fresh_ginv|eassumption].
  Qed.

  Lemma after_inv c ops : Inv (after c ops).
  Proof. apply run_inv; [exact size_nonneg|]. apply init_inv. Qed.

  (** *** transparency *)
  Definition faithful (i : inventory) s :=
    forall k it, In (k, it) (items s) -> exists r, key_of r = k /\ create i r = Ok (Some (it_data it)).

  Lemma reduce_subset tgt s s' r :
    Inv s -> reduce_ tgt s = (s', r) -> forall p, In p (items s') -> In p (items s).
  Proof.
    intros (I1 & I2 & I3) H p Hp. unfold reduce_ in H.
    destruct (check (pol s) s) as [s1 rc] eqn:EC.
    destruct (check_fields _ _ _ _ _ EC) as (F1 & F2 & F3 & F4 & F5).
    rewrite <- F1 in *.
    destruct rc as [u|e|]; try (inversion H; subst; assumption).
    destruct (negb _); [inversion H; subst; destruct Hp|].
    set (t := match tgt with Some t => Some t | None => max_mem s1 end) in *.
    destruct (pol s1), t as [t|]; try (inversion H; subst; assumption).
    - destruct (lru_reduce_spec _ (items s1) (curr_mem_of (items s1)) t eq_refl)
        as (pre & l' & c' & X1 & X2 & _).
      rewrite X1 in H. inversion H; subst s' r. cbn in Hp. rewrite X2, in_app_iff. auto.
    - destruct (largest_reduce_spec _ (List.length (items s1)) (items s1)
                  (curr_mem_of (items s1)) t (le_n _) I2 I3 eq_refl)
        as (ev & l' & c' & X1 & _ & _ & _ & _ & _ & X7 & _).
      rewrite X1 in H. inversion H; subst s' r. cbn in Hp. destruct p. apply X7 in Hp. tauto.
  Qed.

  Lemma pre_check_subset i r s s' cl d :
    Inv s -> create_with_pre_check i r s = (s', cl, d) ->
    (forall p, In p (items s') -> In p (items s)) /\
    (forall x, d = Ok x -> create i r = Ok x).
  Proof.
    intros HI H. unfold MemCache.create_with_pre_check in H. unfold create.
    destruct (i_find i r) as [[e|]|e|]; cbn; try (inversion H; subst; split; auto; discriminate).
    destruct (max_mem s) as [m|]; try (inversion H; subst; split; auto; discriminate).
    destruct ((est_size e >? m - curr_mem s) && (est_size e <=? m)).
    - destruct (reduce_ (Some (m - est_size e)) s) as [s1 rr] eqn:E.
      pose proof (reduce_subset _ _ _ _ HI E) as HS.
      destruct rr; [destruct (_ && _)| |]; inversion H; subst; split; auto; discriminate.
    - destruct (_ && _); inversion H; subst; split; auto; discriminate.
  Qed.

  Lemma get_faithful i r s s' cl d :
    (forall r1 r2, key_of r1 = key_of r2 -> create i r1 = create i r2) ->
    Inv s -> faithful i s -> get i r s = (s', cl, d) ->
    faithful i s' /\ (forall x, d = Ok x -> create i r = Ok x).
  Proof.
    intros HK HI HF H. unfold MemCache.get in H.
    destruct (has_cache (pol s)) eqn:Eh; cbn [negb] in H.
    2:{ inversion H; subst; auto. }
    destruct (alookup (key_of r) (items s)) as [it|] eqn:EL.
    - inversion H; subst. apply alookup_In in EL. split.
      + intros k it' Hin. cbn in Hin. unfold move_to_end in Hin. rewrite in_app_iff in Hin.
        destruct Hin as [Hin|[Hin|[]]].
        * apply aremove_In in Hin. apply HF; tauto.
        * inversion Hin; subst. apply HF; exact EL.
      + intros x Hx. inversion Hx; subst.
        destruct (HF _ _ EL) as (r' & E1 & E2). rewrite (HK r r') by congruence. exact E2.
    - destruct (if has_limit (pol s) then _ else _) as [[s1 calls] data] eqn:E1.
      assert ((forall p, In p (items s1) -> In p (items s)) /\
              (forall x, data = Ok x -> create i r = Ok x)) as [HS HC].
      { destruct (has_limit (pol s)).
        - eapply pre_check_subset; eassumption.
        - inversion E1; subst; auto. }
      assert (faithful i s1) as HF1 by (intros k it Hin; apply HF, HS, Hin).
      destruct data as [[w|]|e|].
      + specialize (HC _ eq_refl).
        destruct (reduce_ None _) as [s3 rr] eqn:E3.
        assert (Inv (mkState (aset (key_of r) (mkItem w (size_of w)) (items s1)) (max_mem s1)
                       (curr_mem s1 + size_of w) (hits s1) (misses s1 + 1) (strict s1) (pol s1))) as HI2.
        { apply aset_inv; auto.
          - destruct (has_limit (pol s)) eqn:Ehl; [|inversion E1; subst; assumption].
            eapply pre_check_inv; eassumption.
          - apply alookup_None. apply alookup_None in EL. intros Hin. apply EL.
            rewrite akeys_map in *. apply in_map_iff in Hin. destruct Hin as (p & Ep & Hin).
            apply in_map_iff. exists p. auto. }
        pose proof (reduce_subset _ _ _ _ HI2 E3) as HS3. cbn in HS3.
        assert (faithful i s3).
        { intros k it Hin. apply HS3 in Hin. rewrite aset_notin in Hin.
          - rewrite in_app_iff in Hin. destruct Hin as [Hin|[Hin|[]]]; [apply HF1, Hin|].
            inversion Hin; subst. exists r. auto.
          - apply alookup_None in EL. intros Hin'. apply EL.
            rewrite akeys_map in *. apply in_map_iff in Hin'. destruct Hin' as (p & Ep & Hin').
            apply in_map_iff. exists p. auto. }
        destruct rr; inversion H; subst; split; auto; try discriminate.
        intros x Hx; inversion Hx; subst; exact HC.
      + inversion H; subst; split; auto.
      + inversion H; subst; split; auto; discriminate.
      + inversion H; subst; split; auto; discriminate.
  Qed.

  Lemma update_subset c s : Inv s -> forall p, In p (items (fst (update c s))) -> In p (items s).
  Proof.
    intros HI p. unfold update.
    set (ch1 := negb _). set (s1 := mkState (items s) _ _ _ _ _ _).
    set (ch2 := negb _). set (s2 := mkState (items s1) _ _ _ _ _ _).
    assert (Inv s2) as HI2 by exact HI.
    change (items s) with (items s2).
    clearbody s2 ch2 s1 ch1. clear s1 HI s.
    destruct (String.eqb _ _).
    - destruct (_ || _); cbn; [|auto].
      destruct (reduce_ None s2) as [s4 r4] eqn:E. cbn. eapply reduce_subset; eassumption.
    - destruct (make_policy (c_policy c)) as [q|]; [|auto].
      destruct (check q s2) as [s' rc] eqn:EC.
      destruct (check_fields _ _ _ _ _ EC) as (F1 & F2 & F3 & F4 & F5).
      rewrite <- F1.
      assert (Inv s') by (unfold MemCacheProofs.Inv; rewrite F1, F2; exact HI2).
      destruct rc; auto.
      destruct (_ || _); cbn; [|auto].
      destruct (reduce_ None _) as [s4 r4] eqn:E. cbn. intros Hp. eapply reduce_subset in E; [exact E|exact H|exact Hp].
  Qed.

  Lemma run_faithful i s ops :
    (forall r1 r2, key_of r1 = key_of r2 -> create i r1 = create i r2) ->
    (forall j r, In (OpGet j r) ops -> j = i) ->
    Inv s -> faithful i s -> faithful i (fst (run s ops)).
  Proof.
    intros HK. revert s; induction ops as [|o ops IH]; intros s HO HI HF; cbn; [exact HF|].
    assert (faithful i (fst (step s o))) as HF1.
    { destruct o as [j r|c| |]; cbn.
      - rewrite (HO j r (or_introl eq_refl)).
        destruct (MemCache.get _ _ _ i r s) as [[s' cl] d] eqn:E. cbn.
        eapply get_faithful; eassumption.
      - pose proof (update_subset c s HI) as HS. destruct (update c s). cbn in *.
        intros k it Hin. apply HF, HS, Hin.
      - intros k it [].
      - exact HF. }
    pose proof (step_inv _ _ _ key_of est_size size_of s o size_nonneg HI) as HI1.
    destruct (step s o) as [s1 x]. cbn in *.
    specialize (IH s1). destruct (run s1 ops) as [s2 xs]. cbn in *.
    apply IH; auto. intros j r Hj. apply (HO j r). auto.
  Qed.

  Lemma init_items c : items (fst (@init W c)) = [].
  Proof.
    unfold init. pose proof (update_subset c fresh (fresh_inv _)) as H.
    destruct (items (fst (update c fresh))) as [|p l]; [reflexivity|].
    destruct (H p (or_introl eq_refl)).
  Qed.

  Lemma transparent i c ops r s' cl d :
    (forall r1 r2, key_of r1 = key_of r2 -> create i r1 = create i r2) ->
    only_inventory i ops ->
    get i r (after c ops) = (s', cl, d) -> forall x, d = Ok x -> create i r = Ok x.
  Proof.
    intros HK HO H.
    assert (faithful i (after c ops)) as HF.
    { apply run_faithful; auto.
      - apply init_inv.
      - intros k it Hin. rewrite init_items in Hin. destruct Hin. }
    destruct (get_faithful _ _ _ _ _ _ HK (after_inv c ops) HF H) as [_ R]. exact R.
  Qed.

  (** Failures of a get in a history whose updates succeed. *)
  Lemma get_failures i r s s' cl d :
    GInv s -> get i r s = (s', cl, d) ->
    (forall e, d = Raise e ->
       create i r = Raise e \/
       (e = WeightsTooLarge /\ limited s /\ strict s = true /\
        exists ent m, i_find i r = Ok (Some ent) /\ max_mem s = Some m /\ est_size ent > m)) /\
    (d = OutOfFuel -> create i r = OutOfFuel).
  Proof.
    intros (HI & HW & HB) H. unfold MemCache.get in H.
    destruct (has_cache (pol s)) eqn:Eh; cbn [negb] in H.
    2:{ inversion H; subst; auto. }
    destruct (alookup (key_of r) (items s)) as [it|] eqn:EL.
    { inversion H; subst; split; [intros e He|intros He]; discriminate. }
    destruct (has_limit (pol s)) eqn:Ehl.
    - assert (exists m, max_mem s = Some m /\ 0 < m) as (m & HM & Hm)
        by (unfold well_conf in HW; destruct (pol s); try discriminate; exact HW).
      assert (limited s) as HLim by (unfold limited; destruct (pol s); try discriminate; auto).
      destruct (create_with_pre_check i r s) as [[s1 cl1] d1] eqn:E1.
      destruct (pre_check_limited _ _ _ key_of _ _ _ _ _ _ _ _ HI Ehl HM Hm E1)
        as (J1 & J2 & J3 & J4 & J5 & J6 & J7 & J8 & J9 & J10 & J11 & J12).
      destruct d1 as [[w|]|e|].
      + cbn [it_size] in H.
        destruct (reduce_ None _) as [s3 rr] eqn:E3.
        assert (alookup (key_of r) (items s1) = None) as HN.
        { apply alookup_None. apply alookup_None in EL. intros Hin. apply EL.
          rewrite akeys_map in *. apply in_map_iff in Hin. destruct Hin as (p & Ep & Hin).
          apply in_map_iff. exists p. auto. }
        pose proof (aset_inv _ _ s1 (key_of r) w size_nonneg J1 HN) as HI2.
        assert (Ehl2 : has_limit (pol s1) = true) by (rewrite J4; exact Ehl).
        rewrite HM in J2.
        destruct (reduce_bound _ _ _ m _ _ HI2 Ehl2 J2 Hm E3) as (-> & _).
        inversion H; subst; split; [intros e He|intros He]; discriminate.
      + inversion H; subst; split; [intros e He|intros He]; discriminate.
      + inversion H; subst. split; [|discriminate].
        intros e' He'. destruct (J10 e' He') as [|(A & B & ent & C & D)]; auto.
        right. repeat split; auto. exists ent, m. auto.
      + inversion H; subst. split; [intros e He; discriminate|auto].
    - assert (pol s = PUnlimited) as EP by (destruct (pol s); try discriminate; reflexivity).
      destruct (create i r) as [[w|]|e|].
      + unfold reduce_ in H. cbn in H. rewrite EP in H. cbn in H.
        inversion H; subst; split; [intros e He|intros He]; discriminate.
      + inversion H; subst; split; [intros e He|intros He]; discriminate.
      + inversion H; subst; split; [intros e' He|intros He]; auto.
      + inversion H; subst; split; [intros e' He|intros He]; auto; discriminate.
  Qed.
End Proofs.
