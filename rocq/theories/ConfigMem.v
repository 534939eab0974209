(** The configuration (Config.v) together with the memory cache (MemCache.v), which
    observes it: memcache.py:214-221 registers [update] with CONFIG.on_change. *)
From Verif Require ConfigProofs2.
From Verif Require Import PyBase ListLemmas Config ConfigSpec ConfigProofs.
From Verif Require MemCache MemCacheProofs MemCacheProofs2.

Local Open Scope string_scope.
Local Open Scope list_scope.
Local Open Scope Z_scope.

Section ConfigMem.
  Variable Obj : Type.
  Variable obj_str : Obj -> string.
  Variable obj_bool : Obj -> bool.
  Variable obj_yaml : Obj -> bool.
  Variable home : string.
  Variable writable : string -> bool.
  Variable version : string.
  Variables Req Ent W : Type.
  Variable key_of : Req -> string.
  Variable est_size : Ent -> Z.
  Variable size_of : W -> Z.

  Notation value := (value Obj).
  Notation mem := (MemCache.state W).

  (** memcache.py:176-178 and 284-303: the three values [update] reads.  Simplified: all are
      read before any is stored; only the first read can raise (the other two options have
      no getter). *)
  Definition mem_conf (g : string -> result value) : result MemCache.mconf :=
    vm <- g "maximum-weights-memory-cache-size" ;;
    vs <- g "weights-memory-cache-strict-mode" ;;
    vp <- g "weights-memory-cache-policy" ;;
    Ok (MemCache.mkConf (match vm with VInt z => Some z | _ => None end)
                        (truth Obj obj_bool vs) (str_of Obj obj_str vp)).

  (** Observer 0 is the memory cache; the others do nothing to it. *)
  Definition mem_obs (cb : nat) (g : string -> result value) (m : mem) : mem * result unit :=
    match cb with
    | O => match mem_conf g with
           | Ok c => MemCache.update c m
           | Raise e => (m, Raise e)
           | OutOfFuel => (m, OutOfFuel)
           end
    | S _ => (m, Ok tt)
    end.

  (** Using the cache: a request for weights (precomputed.py through memcache.py:223) and
      clear_memory_cache().  Exceptions are the caller's to handle. *)
  Definition act_get (i : MemCache.inventory Req Ent W) (r : Req) (_ : string -> result value) (m : mem) : mem * result unit :=
    let '(m', _, res) := MemCache.get key_of est_size size_of i r m in
    (m', match res with Ok _ => Ok tt | Raise e => Raise e | OutOfFuel => OutOfFuel end).
  Definition act_clear (_ : string -> result value) (m : mem) : mem * result unit := (MemCache.clear m, Ok tt).

  Notation st := (st Obj mem).
  Notation cmd := (cmd Obj mem).
  Notation exec := (exec Obj obj_str obj_bool home writable version mem mem_obs).
  Notation get := (get Obj obj_str home mem).

  (** The memory cache reports what the three options read as. *)
  Definition in_sync (s : st) : Prop :=
    exists vmax vstrict vpolicy,
      get s "maximum-weights-memory-cache-size" = Ok vmax /\
      get s "weights-memory-cache-strict-mode" = Ok vstrict /\
      get s "weights-memory-cache-policy" = Ok vpolicy /\
      let i := MemCache.info (ostate s) in
      MemCache.f_policy i = str_of Obj obj_str vpolicy /\
      match str_of Obj obj_str vpolicy with
      | "off" => MemCache.f_maxsize i = Some 0
      | "unlimited" => MemCache.f_maxsize i = None
      | _ => MemCache.f_maxsize i = match vmax with VInt z => Some z | _ => None end /\
             ConfigSpec.flag_of obj_bool vstrict (MemCache.strict (ostate s))
      end.

  (** Programs that use the configuration and the cache in any order, do not alter the
      environment, and do not hide exceptions. *)
  Fixpoint steady (c : cmd) : Prop :=
    match c with
    | CSkip | CSet _ | CReset _ | COnChange _ | CAutosave _ | CSaveAs _ | CFail _ => True
    | CSeq a b => steady a /\ steady b
    | CTemp _ _ body => steady body
    | CAct f => (exists i r, f = act_get i r) \/ f = act_clear
    | CEnv _ _ | CTry _ => False
    end.

  Section Proofs.
    Hypothesis size_nonneg : forall w, 0 <= size_of w.
    Notation GInv := (MemCacheProofs.GInv W).
    Notation reflects := (MemCacheProofs2.reflects W).
    Notation notify_loop := (notify_loop Obj obj_str home mem mem_obs).
    Notation same := (same Obj mem).

    Definition synced (s : st) : Prop :=
      GInv (ostate s) /\ exists c, mem_conf (get s) = Ok c /\ reflects c (ostate s).

    Lemma mem_conf_ext g h : (forall n, g n = h n) -> mem_conf g = mem_conf h.
    Proof. intros H. unfold mem_conf. rewrite !H. reflexivity. Qed.

    Lemma synced_in_sync s : synced s -> in_sync s.
    Proof.
      intros (_ & c & A & B & C). unfold mem_conf, bind in A.
      destruct (get s "maximum-weights-memory-cache-size") as [vm|e|] eqn:E1; try discriminate.
      destruct (get s "weights-memory-cache-strict-mode") as [vs|e|] eqn:E2; try discriminate.
      destruct (get s "weights-memory-cache-policy") as [vp|e|] eqn:E3; try discriminate.
      inversion A; subst c. cbn in B, C. exists vm, vs, vp. cbn [MemCache.c_policy] in *.
      split; [exact E1|]. split; [exact E2|]. split; [exact E3|]. cbn. split; [exact B|]. rewrite <- B.
      assert (F : MemCache.strict (ostate s) = truth Obj obj_bool vs -> ConfigSpec.flag_of obj_bool vs (MemCache.strict (ostate s)))
        by (intros ->; apply ConfigProofs2.flag_truth).
      destruct (MemCache.pol (ostate s)); cbn in *; tauto.
    Qed.

    Lemma notify_loop_sync cbs s s' : notify_loop cbs s = (s', Ok tt) -> GInv (ostate s) ->
      (In 0%nat cbs \/ exists c, mem_conf (get s) = Ok c /\ reflects c (ostate s)) -> synced s'.
    Proof.
      revert s. induction cbs as [|cb cbs IH]; intros s H HG HI; cbn [Config.notify_loop] in H.
      - inversion H; subst. destruct HI as [[]|HI]. split; assumption.
      - destruct (mem_obs cb (get s) (ostate s)) as [o' res] eqn:EO.
        destruct res as [u|e|]; [|discriminate|discriminate].
        assert (GInv o' /\ (In 0%nat cbs \/ exists c, mem_conf (get s) = Ok c /\ reflects c o')) as [G1 R1].
        { destruct cb as [|cb]; cbn in EO.
          - destruct (mem_conf (get s)) as [c|e|] eqn:EC; try discriminate. destruct u.
            destruct (MemCacheProofs2.update_ok W c _ _ HG EO) as [X Y]. split; [exact X|]. right. exists c. auto.
          - inversion EO; subst. split; [exact HG|]. destruct HI as [[X|X]|X]; [discriminate|auto|auto]. }
        eapply IH; [exact H|exact G1|]. exact R1.
    Qed.

    Lemma changed_sync n s s' : changed Obj obj_str home writable version mem mem_obs (S n) s = (s', Ok tt) ->
      In 0%nat (callbacks s) -> GInv (ostate s) -> synced s'.
    Proof.
      revert s. induction n as [|n IH]; intros s H HI HG; cbn [Config.changed] in H;
        (destruct (changed1 _ _ _ _ _ _ _ s) as [s1 r1] eqn:E1; destruct r1 as [[]|e|]; [|discriminate|discriminate]);
        pose proof E1 as E2; apply changed1_same in E2; destruct E2 as [(_ & _ & HC & _) _];
        unfold changed1, Config.notify in E1;
        apply notify_loop_sync in E1; try (destruct (autosave s); exact HG);
          try (left; destruct (autosave s); exact HI).
      - inversion H; subst. exact E1.
      - apply (IH _ H); [rewrite HC; exact HI|apply E1].
    Qed.

    Lemma synced_same s s' : same s s' -> ostate s' = ostate s -> synced s -> synced s'.
    Proof.
      intros HS HO (A & c & B & C). unfold synced. rewrite HO. split; [exact A|]. exists c. split; [|exact C].
      rewrite <- B. apply mem_conf_ext. intros n. eapply same_get. exact HS.
    Qed.

    Lemma set_vals_count a v w n : set_vals Obj obj_str obj_bool home a v = (w, Ok n) -> exists m, n = S m.
    Proof.
      destruct a as [kvs|kvs|name args k]; cbn [Config.set_vals].
      - destruct kvs; [discriminate|]. destruct (set_many _ _ _ _ _ _) as [x [u|e|]]; intros H; inversion H; eauto.
      - destruct (set_many _ _ _ _ _ _) as [x [u|e|]]; intros H; inversion H; eauto.
      - destruct (set_one _ _ _ _ _ _ _ _) as [x [u|e|]]; intros H; inversion H; eauto.
    Qed.

    Lemma with_top_rest s c : ostate (with_top Obj mem s c) = ostate s /\ callbacks (with_top Obj mem s c) = callbacks s.
    Proof. unfold Config.with_top. destruct (stack s); auto. Qed.

    Lemma exec_sync c : forall s s', exec c s = (s', Ok tt) -> steady c ->
      In 0%nat (callbacks s) -> synced s -> synced s' /\ In 0%nat (callbacks s').
    Proof.
      induction c; intros s s' H HS HI HY; cbn [Config.exec steady] in *; try contradiction.
      - inversion H; subst. auto.
      - destruct (exec c1 s) as [s1 [[]|e|]] eqn:E1; try discriminate.
        destruct (IHc1 _ _ E1 (proj1 HS) HI HY). eapply IHc2; [exact H|apply HS|assumption|assumption].
      - unfold Config.do_set in H. destruct (set_vals _ _ _ _ _ _) as [v [n|e|]] eqn:EV; try discriminate.
        destruct (set_vals_count _ _ _ _ EV) as (m & ->).
        pose proof H as H2. apply changed_same in H2. destruct H2 as [(_ & _ & HC & _) _].
        destruct (with_top_rest s (mkConf v (path (top s)))) as [R1 R2].
        split; [|rewrite HC, R2; exact HI]. eapply changed_sync; [exact H|rewrite R2; exact HI|rewrite R1; apply HY].
      - unfold Config.do_reset in H. destruct n as [n|].
        + destruct (alookup n _) as [d|]; [|discriminate].
          pose proof H as H2. apply changed_same in H2. destruct H2 as [(_ & _ & HC & _) _].
          match type of H with Config.changed _ _ _ _ _ _ _ _ (Config.with_top _ _ _ ?c) = _ =>
            destruct (with_top_rest s c) as [R1 R2] end.
          split; [|rewrite HC, R2; exact HI]. eapply changed_sync; [exact H|rewrite R2; exact HI|rewrite R1; apply HY].
        + pose proof H as H2. apply changed_same in H2. destruct H2 as [(_ & _ & HC & _) _].
          match type of H with Config.changed _ _ _ _ _ _ _ _ (Config.with_top _ _ _ ?c) = _ =>
            destruct (with_top_rest s c) as [R1 R2] end.
          split; [|rewrite HC, R2; exact HI]. eapply changed_sync; [exact H|rewrite R2; exact HI|rewrite R1; apply HY].
      - destruct (make_temp _ _ _ _ _ _ _ p a s) as [s0 [cf|e|]] eqn:E0; try discriminate.
        apply make_temp_same in E0. destruct E0 as ((_ & _ & A3 & _) & _ & _ & _ & _ & A9).
        destruct (enter _ _ _ _ _ cf s0) as [s1 [[]|e|]] eqn:E1; try discriminate.
        assert (Y1 : synced s1 /\ In 0%nat (callbacks s1)).
        { pose proof E1 as E1'. apply (enter_same _ _ _) in E1'. destruct E1' as (_ & _ & B3 & _).
          split; [|rewrite B3, A3; exact HI].
          unfold Config.enter, Config.notify in E1.
          destruct (notify_loop _ _) as [s1' [[]|e|]] eqn:EN; try discriminate. inversion E1; subst s1'.
          eapply notify_loop_sync; [exact EN|cbn; rewrite A9; apply HY|]. left. cbn. rewrite A3. exact HI. }
        destruct (exec c s1) as [s2 r2] eqn:E2. pose proof H as HL.
        apply (leave_same _ _ _) in HL. destruct HL as (_ & _ & C3 & _).
        unfold Config.leave, Config.notify in H.
        destruct (notify_loop _ _) as [s3 [[]|e|]] eqn:EN; try discriminate. inversion H; subst s3 r2.
        destruct (IHc _ _ E2 HS (proj2 Y1) (proj1 Y1)) as [Y2 I2].
        split; [|rewrite C3; exact I2].
        eapply notify_loop_sync; [exact EN|apply Y2|]. left. exact I2.
      - inversion H; subst. split; [|cbn; apply in_or_app; auto]. exact HY.
      - inversion H; subst. split; [|exact HI]. exact HY.
      - inversion H; subst. split; [|exact HI]. exact HY.
      - discriminate.
      - destruct (f (get s) (ostate s)) as [o' rr] eqn:EF. inversion H; subst. split; [|exact HI].
        destruct HY as (A & cc & B & C). destruct HS as [(i & q & ->)| ->].
        + unfold act_get in EF. destruct (MemCache.get _ _ _ i q (ostate s)) as [[m' cl] res] eqn:EG.
          destruct (MemCacheProofs.get_ginv _ _ _ _ _ _ size_nonneg _ _ _ _ _ _ A EG) as (G1 & G2 & G3 & G4).
          inversion EF; subst. split; [exact G1|]. exists cc. split; [exact B|].
          unfold MemCacheProofs2.reflects in *. cbn. rewrite G2, G3, G4. exact C.
        + unfold act_clear in EF. inversion EF; subst. split.
          * exact (MemCacheProofs2.step_ginv Req Ent W key_of est_size size_of size_nonneg (ostate s) MemCache.OpClear A I).
          * exists cc. split; [exact B|]. exact C.
    Qed.
  End Proofs.

  (** The module start: importing earthkit.regrid reads the configuration file, creates the
      memory cache, registers it and lets it read the configuration (memcache.py:207-221). *)
  Definition boot (p : string) (files : list (string * list (string * value))) (env : list (string * string))
    : st * result unit :=
    let s := start Obj obj_yaml home writable version mem p files env MemCache.fresh in
    let s1 := mkSt (base s) (stack s) [0%nat] (autosave s) (Config.files s) (environ s) (ostate s) (seen s) (failed s) in
    let '(m, r) := mem_obs 0 (get s1) (ostate s1) in
    (mkSt (base s1) (stack s1) (callbacks s1) (autosave s1) (Config.files s1) (environ s1) m (seen s1) (failed s1), r).

  Lemma boot_sync (size_nonneg : forall w, 0 <= size_of w) p files env s r :
    boot p files env = (s, r) -> callbacks s = [0%nat] /\ (r = Ok tt -> synced s).
  Proof.
    unfold boot.
    assert (HF : ostate (start Obj obj_yaml home writable version mem p files env MemCache.fresh) = MemCache.fresh).
    { unfold Config.start. destruct (load _ _ _ _ _). reflexivity. }
    remember (start Obj obj_yaml home writable version mem p files env MemCache.fresh) as s0.
    clear Heqs0. cbn zeta. cbn [ostate base stack callbacks autosave Config.files environ seen failed].
    rewrite HF. set (s1 := mkSt (base s0) _ _ _ _ _ MemCache.fresh _ _).
    destruct (mem_obs 0 (get s1) MemCache.fresh) as [m r1] eqn:E. intros H. inversion H; subst s r1. clear H.
    split; [reflexivity|]. intros ->. cbn [mem_obs] in E. destruct (mem_conf (get s1)) as [c|e|] eqn:EC; try discriminate.
    destruct (MemCacheProofs2.update_ok W c _ _ (MemCacheProofs2.fresh_ginv W) E) as [X Y].
    split; [exact X|]. exists c. split; [|exact Y]. rewrite <- EC. reflexivity.
  Qed.

  Lemma always_in_sync (size_nonneg : forall w, 0 <= size_of w) p files env s0 c s :
    boot p files env = (s0, Ok tt) -> steady c -> exec c s0 = (s, Ok tt) -> in_sync s.
  Proof.
    intros HB HS HE. destruct (boot_sync size_nonneg _ _ _ _ _ HB) as [A B]. apply synced_in_sync.
    eapply exec_sync; [exact size_nonneg|exact HE|exact HS|rewrite A; cbn; auto|apply B; reflexivity].
  Qed.
End ConfigMem.
