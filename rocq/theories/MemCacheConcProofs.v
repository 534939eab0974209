(** Linearisability of the memory cache under threads. *)
From Verif Require Import PyBase ListLemmas MemCache MemCacheProofs MemCacheProofs2 MemCacheConc.

Section ConcProofs.
  Variables Req Ent W : Type.
  Variable key_of : Req -> string.
  Variable est_size : Ent -> Z.
  Variable size_of : W -> Z.
  Notation state := (MemCache.state W).
  Notation op := (MemCache.op Req Ent W).
  Notation out := (MemCache.out Req Ent W).
  Notation step := (MemCache.step key_of est_size size_of).
  Notation run := (MemCache.run key_of est_size size_of).
  Notation sys := (MemCacheConc.sys Req Ent W).
  Notation tstep := (MemCacheConc.tstep Req Ent W key_of est_size size_of).
  Notation exec := (MemCacheConc.exec Req Ent W key_of est_size size_of).
  Notation serial := (MemCacheConc.serial Req Ent W key_of est_size size_of).
  Notation serial_state := (MemCacheConc.serial_state Req Ent W key_of est_size size_of).
  Notation shared := (MemCacheConc.shared Req Ent W).
  Notation lock := (MemCacheConc.lock Req Ent W).
  Notation threads := (MemCacheConc.threads Req Ent W).
  Notation at_ := (MemCacheConc.at_ Req Ent W).
  Notation results := (MemCacheConc.results Req Ent W).
  Notation current := (MemCacheConc.current Req Ent W).
  Notation prog := (MemCacheConc.prog Req Ent W).
  Notation upd1 := (MemCacheConc.upd1 W).
  Notation upd2 := (MemCacheConc.upd2 W).
  Notation upd3 := (MemCacheConc.upd3 W).
  Implicit Types (s : state) (g : sys).

  Lemma update_split c s :
    update c s = let '(s1, ch) := upd1 c s in let '(s2, r) := upd2 c s1 in upd3 ch r s2.
  Proof.
    unfold update, MemCacheConc.upd1. cbn [strict].
    set (s2 := mkState _ _ _ _ _ _ _). unfold MemCacheConc.upd2.
    destruct (String.eqb _ _); [reflexivity|].
    destruct (make_policy _) as [p|]; [|reflexivity].
    destruct (check p s2) as [s3 [u|e|]]; reflexivity.
  Qed.

  Lemma reduce_pol tgt s : pol (fst (reduce_ tgt s)) = pol s.
  Proof.
    unfold reduce_. destruct (check (pol s) s) as [s1 rc] eqn:EC.
    destruct (check_fields _ _ _ _ _ EC) as (F1 & F2 & F3 & F4 & F5). rewrite <- F5.
    destruct rc as [u|e|]; try reflexivity.
    destruct (has_cache (pol s1)) eqn:EH; cbn [negb]; [|reflexivity].
    set (t := match tgt with Some t => Some t | None => max_mem s1 end).
    destruct (pol s1) eqn:EP, t as [t|]; cbn; try exact EP.
    - destruct (lru_reduce _ _ _). cbn. exact EP.
    - destruct (largest_reduce _ _ _ _). cbn. exact EP.
  Qed.

  Lemma upd3_pol ch r s : pol (fst (upd3 ch r s)) = pol s.
  Proof.
    unfold MemCacheConc.upd3. destruct r; try reflexivity.
    destruct (_ || _); [apply reduce_pol|reflexivity].
  Qed.

  Lemma get_pol i r s : pol (fst (step s (OpGet i r))) = pol s.
  Proof.
    cbn. destruct (MemCache.get _ _ _ i r s) as [[s' cl] d] eqn:E. cbn.
    unfold MemCache.get in E. destruct (has_cache (pol s)) eqn:EH; cbn [negb] in E; [|inversion E; reflexivity].
    destruct (alookup _ _); [inversion E; reflexivity|].
    destruct (if has_limit (pol s) then _ else _) as [[s1 cl1] d1] eqn:E1.
    assert (pol s1 = pol s) as HP.
    { destruct (has_limit (pol s)); [|inversion E1; reflexivity].
      unfold create_with_pre_check in E1.
      destruct (i_find i r) as [[e|]|e|]; try (inversion E1; reflexivity).
      destruct (max_mem s) as [m|]; [|inversion E1; reflexivity].
      destruct (if (est_size e >? m - curr_mem s) && (est_size e <=? m) then _ else _) as [s2 rr] eqn:E2.
      assert (pol s2 = pol s) as HP2.
      { destruct (_ && _); [|inversion E2; reflexivity].
        pose proof (reduce_pol (Some (m - est_size e)) s) as HX. rewrite E2 in HX. exact HX. }
      destruct rr; [destruct (strict s2 && _)| |]; inversion E1; subst; exact HP2. }
    destruct d1 as [[w|]|e|]; try (inversion E; subst; exact HP).
    destruct (reduce_ None _) as [s3 rr] eqn:E3.
    match type of E3 with reduce_ None ?st = _ => pose proof (reduce_pol None st) as HX end.
    rewrite E3 in HX. cbn in HX. destruct rr; inversion E; subst; congruence.
  Qed.

  Lemma step_pol s o : (forall c, o <> OpUpdate c) -> pol (fst (step s o)) = pol s.
  Proof.
    destruct o as [i r|c| |]; intros H; [apply get_pol|exfalso; eapply H; reflexivity|reflexivity|reflexivity].
  Qed.

  (** *** traces *)
  Lemma of_thread_app {A} t (a b : list (nat * A)) : of_thread t (a ++ b) = of_thread t a ++ of_thread t b.
  Proof. unfold of_thread. rewrite filter_app, map_app. reflexivity. Qed.

  Lemma of_thread_snoc_eq {A} t (l : list (nat * A)) x : of_thread t (l ++ [(t, x)]) = of_thread t l ++ [x].
  Proof. rewrite of_thread_app. unfold of_thread at 2. cbn. rewrite Nat.eqb_refl. reflexivity. Qed.

  Lemma of_thread_snoc_neq {A} t t' (l : list (nat * A)) x :
    t <> t' -> of_thread t (l ++ [(t', x)]) = of_thread t l.
  Proof.
    intros N. rewrite of_thread_app. unfold of_thread at 2. cbn.
    destruct (Nat.eqb_spec t t'); [contradiction|]. cbn. apply app_nil_r.
  Qed.

  Lemma serial_snoc s lin t o s' x :
    serial s lin -> step (serial_state s lin) o = (s', x) ->
    serial s (lin ++ [(t, (o, x))]) /\ serial_state s (lin ++ [(t, (o, x))]) = s'.
  Proof.
    unfold MemCacheConc.serial, MemCacheConc.serial_state. intros HS H.
    rewrite !map_app. cbn [map]. rewrite run_app.
    destruct (run s (map _ lin)) as [s1 xs]. cbn in *. rewrite H. cbn. subst xs. auto.
  Qed.

  Lemma count_inv_app t a b : count_inv t (a ++ b) = (count_inv t a + count_inv t b)%nat.
  Proof. induction a as [|[t'|t'] a IH]; cbn; lia. Qed.
  Lemma count_ret_app t a b : count_ret t (a ++ b) = (count_ret t a + count_ret t b)%nat.
  Proof. induction a as [|[t'|t'] a IH]; cbn; lia. Qed.

  (** *** the invariant *)
  Definition critical (p : pc Req Ent W) : bool :=
    match p with Body _ _ _ _ | Upd2 _ _ _ _ _ | Upd3 _ _ _ _ _ | Rel _ _ _ _ => true | _ => false end.

  (** Thread [t] with ops [lin_t] already placed; [A] the serial state. *)
  Definition TI (A : state) g t (lin_t : list (op * out)) : Prop :=
    let th := threads g t in
    match at_ th with
    | Idle _ _ _ => current th = None /\ lin_t = results th
    | Start _ _ _ o | Wait _ _ _ o => current th = Some o /\ lin_t = results th
    | Body _ _ _ o => current th = Some o /\ lin_t = results th /\ shared g = A
    | Upd2 _ _ _ c ch => current th = Some (OpUpdate c) /\ lin_t = results th /\
        upd1 c A = (shared g, ch)
    | Upd3 _ _ _ ch r => exists o, current th = Some o /\
        lin_t = results th ++ [(o, OutUpdate (snd (upd3 ch r (shared g))))] /\
        A = fst (upd3 ch r (shared g))
    | Rel _ _ _ x => exists o, current th = Some o /\ lin_t = results th ++ [(o, x)] /\ shared g = A
    | Ret _ _ _ x => exists o, current th = Some o /\ lin_t = results th ++ [(o, x)]
    end.

  Definition opt_list {A} (o : option A) : list A := match o with Some a => [a] | None => [] end.

  Record LInv s (progs : nat -> list op) g (tr : list event) (lin : list (nat * (op * out))) : Prop := {
    L_serial : serial s lin;
    L_pol : pol (shared g) = pol (serial_state s lin);
    L_free : lock g = None -> shared g = serial_state s lin;
    L_lock : forall t, critical (at_ (threads g t)) = true <-> lock g = Some t;
    L_thread : forall t, TI (serial_state s lin) g t (of_thread t lin);
    L_prog : forall t, progs t = map fst (results (threads g t)) ++ opt_list (current (threads g t)) ++ prog (threads g t);
    L_rt : forall tr1 tr2, tr = tr1 ++ tr2 -> exists lin1 lin2, lin = lin1 ++ lin2 /\
        forall t, (count_ret t tr1 <= List.length (of_thread t lin1) <= count_inv t tr1)%nat;
    L_cnt : forall t, count_inv t tr = (List.length (results (threads g t)) +
                        List.length (opt_list (current (threads g t))))%nat /\
                      count_ret t tr = List.length (results (threads g t)) }.

  Lemma start_inv s progs : LInv s progs (start _ _ _ s progs) [] [].
  Proof.
    constructor; cbn.
    - reflexivity.
    - reflexivity.
    - reflexivity.
    - intros t. split; discriminate.
    - intros t. unfold TI. cbn. auto.
    - reflexivity.
    - intros tr1 tr2 H. exists [], []. split; [reflexivity|]. intros t.
      destruct tr1; [cbn; lia|discriminate].
    - auto.
  Qed.

  Lemma upd_same (f : nat -> thread Req Ent W) t x : upd_thread _ _ _ f t x t = x.
  Proof. unfold upd_thread. rewrite Nat.eqb_refl. reflexivity. Qed.
  Lemma upd_other (f : nat -> thread Req Ent W) t t' x : t' <> t -> upd_thread _ _ _ f t x t' = f t'.
  Proof. intros N. unfold upd_thread. destruct (Nat.eqb_spec t' t); [contradiction|reflexivity]. Qed.

  (** A thread step that records nothing new in [lin] and no event, and changes the
      pc of [t] only; the shared state may change if [t] holds the lock. *)
  Lemma rt_keep tr lin t0 (x : op * out) :
    (forall tr1 tr2, tr = tr1 ++ tr2 -> exists lin1 lin2, lin = lin1 ++ lin2 /\
        forall t, (count_ret t tr1 <= List.length (of_thread t lin1) <= count_inv t tr1)%nat) ->
    forall tr1 tr2, tr = tr1 ++ tr2 -> exists lin1 lin2, lin ++ [(t0, x)] = lin1 ++ lin2 /\
        forall t, (count_ret t tr1 <= List.length (of_thread t lin1) <= count_inv t tr1)%nat.
  Proof.
    intros H tr1 tr2 E. destruct (H tr1 tr2 E) as (l1 & l2 & -> & HL).
    exists l1, (l2 ++ [(t0, x)]). rewrite app_assoc. auto.
  Qed.

  (** Where [lin] stands when everything placed is known. *)
  Lemma thread_len s progs g tr lin t : LInv s progs g tr lin ->
    (count_ret t tr <= List.length (of_thread t lin) <= count_inv t tr)%nat.
  Proof.
    intros H. destruct (L_cnt _ _ _ _ _ H t) as [A B]. pose proof (L_thread _ _ _ _ _ H t) as T.
    unfold TI in T. rewrite A, B.
    destruct (at_ (threads g t));
      repeat match goal with
             | X : exists _, _ |- _ => destruct X
             | X : _ /\ _ |- _ => destruct X
             end;
      repeat match goal with X : current _ = _ |- _ => rewrite X | X : of_thread t lin = _ |- _ => rewrite X end;
      cbn; rewrite ?app_length; cbn; lia.
  Qed.

  Lemma app_snoc_inv {A} (l1 l2 l : list A) x :
    l ++ [x] = l1 ++ l2 -> (l2 = [] /\ l1 = l ++ [x]) \/ exists l2', l2 = l2' ++ [x] /\ l = l1 ++ l2'.
  Proof.
    intros H. destruct l2 as [|y l2] using rev_ind; [left; rewrite app_nil_r in H; auto|].
    right. rewrite app_assoc in H. apply app_inj_tail in H. destruct H as [-> ->]. exists l2. auto.
  Qed.

  Lemma step_linv s progs g tr lin t g' evs :
    LInv s progs g tr lin -> tstep t g g' evs -> exists lin', LInv s progs g' (tr ++ evs) lin'.
  Proof.
    intros HL HS. pose proof (thread_len _ _ _ _ _ t HL) as Hlen.
    pose proof (fun t => thread_len _ _ _ _ _ t HL) as Hlens. destruct HL as [L1 L2 L3 L4 L5 L6 L7 L8].
    pose proof (L5 t) as Tt. unfold TI in Tt.
    pose proof (L4 t) as Lt. pose proof (L6 t) as Pt. pose proof (L8 t) as Ct.
    assert (Hcrit : critical (at_ (threads g t)) = true ->
      forall t', t' <> t -> critical (at_ (threads g t')) = false).
    { intros Hc t' N. destruct (critical (at_ (threads g t'))) eqn:E; [|reflexivity].
      apply L4 in E. apply L4 in Hc. congruence. }
    destruct HS as [o rest H1 H2|i r H1 H2|i r H1 H2|o H1 H2|o H1 H2|o s' x H1 H2 H3|c s' ch H1 H2
                   |c ch s' r H1 H2|ch r s' x H1 H2|x H1|x o H1 H2];
      rewrite H1 in Tt, Lt; cbn [critical] in Lt.
    - (* TCall *)
      exists lin. destruct Tt as [T1 T2].
      constructor; cbn [MemCacheConc.shared MemCacheConc.lock MemCacheConc.threads]; auto.
      + intros t'. destruct (Nat.eq_dec t' t) as [->|N]; [rewrite upd_same; exact Lt|rewrite upd_other by exact N; apply L4].
      + intros t'. unfold TI. cbn [MemCacheConc.shared MemCacheConc.lock MemCacheConc.threads].
        destruct (Nat.eq_dec t' t) as [->|N]; [rewrite upd_same; cbn; auto|rewrite upd_other by exact N; apply L5].
      + intros t'. destruct (Nat.eq_dec t' t) as [->|N]; [|rewrite upd_other by exact N; apply L6].
        rewrite upd_same. cbn. rewrite Pt, T1, H2. reflexivity.
      + intros tr1 tr2 E. apply app_snoc_inv in E. destruct E as [[-> ->]|(tr2' & -> & E)]; [|eauto].
        exists lin, []. split; [symmetry; apply app_nil_r|]. intros t'. specialize (Hlens t').
        rewrite count_inv_app, count_ret_app. cbn. destruct (Nat.eqb t' t); lia.
      + intros t'. rewrite count_inv_app, count_ret_app. cbn.
        destruct (Nat.eqb_spec t' t) as [->|N]; [rewrite upd_same|rewrite upd_other by exact N; specialize (L8 t'); lia].
        cbn. rewrite T1 in Ct. cbn in Ct. lia.
    - (* TOff *)
      destruct Tt as [T1 T2].
      set (x := OutGet (create_calls i r) (create i r)).
      assert (HSt : step (serial_state s lin) (OpGet i r) = (serial_state s lin, x)).
      { cbn. unfold MemCache.get. rewrite <- L2, H2. reflexivity. }
      destruct (serial_snoc s lin t _ _ _ L1 HSt) as [S1 S2].
      exists (lin ++ [(t, (OpGet i r, x))]). rewrite app_nil_r.
      constructor; cbn [MemCacheConc.shared MemCacheConc.lock MemCacheConc.threads]; auto; try rewrite S2; auto.
      + intros t'. destruct (Nat.eq_dec t' t) as [->|N]; [rewrite upd_same; exact Lt|rewrite upd_other by exact N; apply L4].
      + intros t'. unfold TI. cbn [MemCacheConc.shared MemCacheConc.lock MemCacheConc.threads].
        destruct (Nat.eq_dec t' t) as [->|N].
        * rewrite upd_same, of_thread_snoc_eq. cbn. exists (OpGet i r). rewrite T2. auto.
        * rewrite upd_other by exact N. rewrite of_thread_snoc_neq by exact N. apply L5.
      + intros t'. destruct (Nat.eq_dec t' t) as [->|N]; [rewrite upd_same; exact Pt|rewrite upd_other by exact N; apply L6].
      + apply rt_keep. exact L7.
      + intros t'. destruct (Nat.eq_dec t' t) as [->|N]; [rewrite upd_same; exact Ct|rewrite upd_other by exact N; apply L8].
    - (* TOn *)
      exists lin. rewrite app_nil_r.
      constructor; cbn [MemCacheConc.shared MemCacheConc.lock MemCacheConc.threads]; auto.
      + intros t'. destruct (Nat.eq_dec t' t) as [->|N]; [rewrite upd_same; exact Lt|rewrite upd_other by exact N; apply L4].
      + intros t'. unfold TI. cbn [MemCacheConc.shared MemCacheConc.lock MemCacheConc.threads].
        destruct (Nat.eq_dec t' t) as [->|N]; [rewrite upd_same; exact Tt|rewrite upd_other by exact N; apply L5].
      + intros t'. destruct (Nat.eq_dec t' t) as [->|N]; [rewrite upd_same; exact Pt|rewrite upd_other by exact N; apply L6].
      + intros t'. destruct (Nat.eq_dec t' t) as [->|N]; [rewrite upd_same; exact Ct|rewrite upd_other by exact N; apply L8].
    - (* TOther *)
      exists lin. rewrite app_nil_r.
      constructor; cbn [MemCacheConc.shared MemCacheConc.lock MemCacheConc.threads]; auto.
      + intros t'. destruct (Nat.eq_dec t' t) as [->|N]; [rewrite upd_same; exact Lt|rewrite upd_other by exact N; apply L4].
      + intros t'. unfold TI. cbn [MemCacheConc.shared MemCacheConc.lock MemCacheConc.threads].
        destruct (Nat.eq_dec t' t) as [->|N]; [rewrite upd_same; exact Tt|rewrite upd_other by exact N; apply L5].
      + intros t'. destruct (Nat.eq_dec t' t) as [->|N]; [rewrite upd_same; exact Pt|rewrite upd_other by exact N; apply L6].
      + intros t'. destruct (Nat.eq_dec t' t) as [->|N]; [rewrite upd_same; exact Ct|rewrite upd_other by exact N; apply L8].
    - (* TLock *)
      exists lin. rewrite app_nil_r. specialize (L3 H2).
      constructor; cbn [MemCacheConc.shared MemCacheConc.lock MemCacheConc.threads]; auto.
      + intros t'. destruct (Nat.eq_dec t' t) as [->|N]; [rewrite upd_same; cbn; tauto|rewrite upd_other by exact N].
        rewrite L4, H2. split; [discriminate|]. intros E; inversion E; congruence.
      + intros t'. unfold TI. cbn [MemCacheConc.shared MemCacheConc.lock MemCacheConc.threads].
        destruct (Nat.eq_dec t' t) as [->|N]; [rewrite upd_same; cbn; tauto|rewrite upd_other by exact N; apply L5].
      + intros t'. destruct (Nat.eq_dec t' t) as [->|N]; [rewrite upd_same; exact Pt|rewrite upd_other by exact N; apply L6].
      + intros t'. destruct (Nat.eq_dec t' t) as [->|N]; [rewrite upd_same; exact Ct|rewrite upd_other by exact N; apply L8].
    - (* TBody *)
      destruct Tt as (T1 & T2 & T3). rewrite T3 in H3.
      destruct (serial_snoc s lin t _ _ _ L1 H3) as [S1 S2].
      exists (lin ++ [(t, (o, x))]). rewrite app_nil_r.
      assert (HLk : lock g = Some t) by (apply Lt; reflexivity).
      assert (Hc : critical (at_ (threads g t)) = true) by (rewrite H1; reflexivity). specialize (Hcrit Hc).
      constructor; cbn [MemCacheConc.shared MemCacheConc.lock MemCacheConc.threads]; auto.
      + rewrite S2. reflexivity.
      + intros t'. destruct (Nat.eq_dec t' t) as [->|N]; [rewrite upd_same; exact Lt|rewrite upd_other by exact N; apply L4].
      + intros t'. unfold TI. cbn [MemCacheConc.shared MemCacheConc.lock MemCacheConc.threads]. rewrite S2.
        destruct (Nat.eq_dec t' t) as [->|N].
        * rewrite upd_same, of_thread_snoc_eq. cbn. exists o. rewrite T2. auto.
        * rewrite upd_other by exact N. rewrite of_thread_snoc_neq by exact N.
          specialize (L5 t'). unfold TI in L5. specialize (Hcrit t' N).
          destruct (at_ (threads g t')); try discriminate; exact L5.
      + intros t'. destruct (Nat.eq_dec t' t) as [->|N]; [rewrite upd_same; exact Pt|rewrite upd_other by exact N; apply L6].
      + apply rt_keep. exact L7.
      + intros t'. destruct (Nat.eq_dec t' t) as [->|N]; [rewrite upd_same; exact Ct|rewrite upd_other by exact N; apply L8].
    - (* TUpd1 *)
      destruct Tt as (T1 & T2 & T3). exists lin. rewrite app_nil_r.
      assert (HLk : lock g = Some t) by (apply Lt; reflexivity).
      assert (Hc : critical (at_ (threads g t)) = true) by (rewrite H1; reflexivity). specialize (Hcrit Hc).
      constructor; cbn [MemCacheConc.shared MemCacheConc.lock MemCacheConc.threads]; auto.
      + rewrite <- L2. unfold MemCacheConc.upd1 in H2. inversion H2. reflexivity.
      + congruence.
      + intros t'. destruct (Nat.eq_dec t' t) as [->|N]; [rewrite upd_same; exact Lt|rewrite upd_other by exact N; apply L4].
      + intros t'. unfold TI. cbn [MemCacheConc.shared MemCacheConc.lock MemCacheConc.threads].
        destruct (Nat.eq_dec t' t) as [->|N].
        * rewrite upd_same. cbn. rewrite <- T3. auto.
        * rewrite upd_other by exact N.
          specialize (L5 t'). unfold TI in L5. specialize (Hcrit t' N).
          destruct (at_ (threads g t')); try discriminate; exact L5.
      + intros t'. destruct (Nat.eq_dec t' t) as [->|N]; [rewrite upd_same; exact Pt|rewrite upd_other by exact N; apply L6].
      + intros t'. destruct (Nat.eq_dec t' t) as [->|N]; [rewrite upd_same; exact Ct|rewrite upd_other by exact N; apply L8].
    - (* TUpd2 *)
      destruct Tt as (T1 & T2 & T3).
      assert (HLk : lock g = Some t) by (apply Lt; reflexivity).
      assert (Hc : critical (at_ (threads g t)) = true) by (rewrite H1; reflexivity). specialize (Hcrit Hc).
      assert (HSt : step (serial_state s lin) (OpUpdate c) =
                    (fst (upd3 ch r s'), OutUpdate (snd (upd3 ch r s')))).
      { cbn. rewrite update_split, T3, H2. destruct (upd3 ch r s'). reflexivity. }
      destruct (serial_snoc s lin t _ _ _ L1 HSt) as [S1 S2].
      exists (lin ++ [(t, (OpUpdate c, OutUpdate (snd (upd3 ch r s'))))]). rewrite app_nil_r.
      constructor; cbn [MemCacheConc.shared MemCacheConc.lock MemCacheConc.threads]; auto.
      + rewrite S2, upd3_pol. reflexivity.
      + congruence.
      + intros t'. destruct (Nat.eq_dec t' t) as [->|N]; [rewrite upd_same; exact Lt|rewrite upd_other by exact N; apply L4].
      + intros t'. unfold TI. cbn [MemCacheConc.shared MemCacheConc.lock MemCacheConc.threads]. rewrite S2.
        destruct (Nat.eq_dec t' t) as [->|N].
        * rewrite upd_same, of_thread_snoc_eq. cbn. exists (OpUpdate c). rewrite T2. auto.
        * rewrite upd_other by exact N. rewrite of_thread_snoc_neq by exact N.
          specialize (L5 t'). unfold TI in L5. specialize (Hcrit t' N).
          destruct (at_ (threads g t')); try discriminate; exact L5.
      + intros t'. destruct (Nat.eq_dec t' t) as [->|N]; [rewrite upd_same; exact Pt|rewrite upd_other by exact N; apply L6].
      + apply rt_keep. exact L7.
      + intros t'. destruct (Nat.eq_dec t' t) as [->|N]; [rewrite upd_same; exact Ct|rewrite upd_other by exact N; apply L8].
    - (* TUpd3 *)
      destruct Tt as (o & T1 & T2 & T3). exists lin. rewrite app_nil_r. rewrite H2 in T2, T3. cbn in T2, T3.
      assert (HLk : lock g = Some t) by (apply Lt; reflexivity).
      assert (Hc : critical (at_ (threads g t)) = true) by (rewrite H1; reflexivity). specialize (Hcrit Hc).
      constructor; cbn [MemCacheConc.shared MemCacheConc.lock MemCacheConc.threads]; auto.
      + congruence.
      + intros t'. destruct (Nat.eq_dec t' t) as [->|N]; [rewrite upd_same; exact Lt|rewrite upd_other by exact N; apply L4].
      + intros t'. unfold TI. cbn [MemCacheConc.shared MemCacheConc.lock MemCacheConc.threads].
        destruct (Nat.eq_dec t' t) as [->|N].
        * rewrite upd_same. cbn. exists o. auto.
        * rewrite upd_other by exact N.
          specialize (L5 t'). unfold TI in L5. specialize (Hcrit t' N).
          destruct (at_ (threads g t')); try discriminate; exact L5.
      + intros t'. destruct (Nat.eq_dec t' t) as [->|N]; [rewrite upd_same; exact Pt|rewrite upd_other by exact N; apply L6].
      + intros t'. destruct (Nat.eq_dec t' t) as [->|N]; [rewrite upd_same; exact Ct|rewrite upd_other by exact N; apply L8].
    - (* TRel *)
      destruct Tt as (o & T1 & T2 & T3). exists lin. rewrite app_nil_r.
      assert (Hc : critical (at_ (threads g t)) = true) by (rewrite H1; reflexivity). specialize (Hcrit Hc).
      constructor; cbn [MemCacheConc.shared MemCacheConc.lock MemCacheConc.threads]; auto.
      + intros t'. destruct (Nat.eq_dec t' t) as [->|N]; [rewrite upd_same; cbn; split; discriminate|rewrite upd_other by exact N].
        rewrite (Hcrit t' N). split; discriminate.
      + intros t'. unfold TI. cbn [MemCacheConc.shared MemCacheConc.lock MemCacheConc.threads].
        destruct (Nat.eq_dec t' t) as [->|N].
        * rewrite upd_same. cbn. exists o. auto.
        * rewrite upd_other by exact N. apply L5.
      + intros t'. destruct (Nat.eq_dec t' t) as [->|N]; [rewrite upd_same; exact Pt|rewrite upd_other by exact N; apply L6].
      + intros t'. destruct (Nat.eq_dec t' t) as [->|N]; [rewrite upd_same; exact Ct|rewrite upd_other by exact N; apply L8].
    - (* TRet *)
      destruct Tt as (o' & T1 & T2). assert (o' = o) by congruence. subst o'. exists lin.
      constructor; cbn [MemCacheConc.shared MemCacheConc.lock MemCacheConc.threads]; auto.
      + intros t'. destruct (Nat.eq_dec t' t) as [->|N]; [rewrite upd_same; exact Lt|rewrite upd_other by exact N; apply L4].
      + intros t'. unfold TI. cbn [MemCacheConc.shared MemCacheConc.lock MemCacheConc.threads].
        destruct (Nat.eq_dec t' t) as [->|N].
        * rewrite upd_same. cbn. auto.
        * rewrite upd_other by exact N. apply L5.
      + intros t'. destruct (Nat.eq_dec t' t) as [->|N]; [|rewrite upd_other by exact N; apply L6].
        rewrite upd_same. cbn. rewrite Pt, T1, map_app, <- app_assoc. reflexivity.
      + rewrite T1 in Ct. cbn in Ct. rewrite T2 in Hlen. rewrite app_length in Hlen. cbn in Hlen.
        intros tr1 tr2 E. apply app_snoc_inv in E. destruct E as [[-> ->]|(tr2' & -> & E)]; [|eauto].
        exists lin, []. split; [symmetry; apply app_nil_r|]. intros t'. specialize (Hlens t').
        rewrite count_inv_app, count_ret_app. cbn. destruct (Nat.eqb_spec t' t) as [->|N]; [|lia].
        rewrite T2, app_length. cbn. lia.
      + intros t'. rewrite count_inv_app, count_ret_app. cbn.
        destruct (Nat.eqb_spec t' t) as [->|N]; [rewrite upd_same|rewrite upd_other by exact N; specialize (L8 t'); lia].
        cbn. rewrite T1 in Ct. cbn in Ct. rewrite app_length. cbn. lia.
  Qed.

  Lemma exec_linv s progs g tr : exec (start _ _ _ s progs) g tr -> exists lin, LInv s progs g tr lin.
  Proof.
    induction 1 as [|g g' tr evs t H IH HS]; [exists []; apply start_inv|].
    destruct IH as [lin HL]. eapply step_linv; eassumption.
  Qed.

  Lemma linearisable s progs g tr : exec (start _ _ _ s progs) g tr ->
    exists lin,
      serial s lin /\
      (lock g = None -> shared g = serial_state s lin) /\
      (forall t, exists pending, of_thread t lin = results (threads g t) ++ pending /\
         (List.length pending <= 1)%nat /\ (at_ (threads g t) = Idle _ _ _ -> pending = [])) /\
      (forall t, exists rest, progs t = map fst (of_thread t lin) ++ rest) /\
      (forall tr1 tr2, tr = tr1 ++ tr2 -> exists lin1 lin2, lin = lin1 ++ lin2 /\
        forall t, (count_ret t tr1 <= List.length (of_thread t lin1) <= count_inv t tr1)%nat).
  Proof.
    intros H. destruct (exec_linv _ _ _ _ H) as [lin [L1 L2 L3 L4 L5 L6 L7 L8]].
    exists lin. split; [exact L1|]. split; [exact L3|]. split; [|split; [|exact L7]].
    - intros t. specialize (L5 t). unfold TI in L5.
      destruct (at_ (threads g t));
      repeat match goal with
             | X : exists _, _ |- _ => destruct X
             | X : _ /\ _ |- _ => destruct X
             end;
      match goal with X : of_thread t lin = _ |- _ => rewrite X end;
      first [ exists []; rewrite app_nil_r; cbn; repeat split; auto; lia
            | eexists; split; [reflexivity|]; cbn; split; [lia|discriminate] ].
    - intros t. specialize (L5 t). specialize (L6 t). unfold TI in L5. rewrite L6.
      destruct (at_ (threads g t));
      repeat match goal with
             | X : exists _, _ |- _ => destruct X
             | X : _ /\ _ |- _ => destruct X
             end;
      repeat match goal with X : current _ = _ |- _ => rewrite X | X : of_thread t lin = _ |- _ => rewrite X end;
      cbn; rewrite ?map_app; cbn;
      first [ eexists; reflexivity | exists (prog (threads g t)); rewrite <- app_assoc; reflexivity ].
  Qed.

  (** The lock is never stuck: if some thread has something to do, some thread can move. *)
  Lemma progress s progs g tr : exec (start _ _ _ s progs) g tr ->
    (exists t, at_ (threads g t) <> Idle _ _ _ \/ prog (threads g t) <> []) ->
    exists t g' evs, tstep t g g' evs.
  Proof.
    intros H (t & Ht). destruct (exec_linv _ _ _ _ H) as [lin [L1 L2 L3 L4 L5 L6 L7 L8]].
    destruct (lock g) as [t0|] eqn:EL.
    - (* the holder moves *)
      exists t0. assert (critical (at_ (threads g t0)) = true) as HC by (apply L4; auto).
      destruct (at_ (threads g t0)) as [ |o|o|o|c ch|ch r|x|x] eqn:EA; try discriminate.
      + destruct o as [i r|c| |].
        * destruct (step (shared g) (OpGet i r)) as [s' x] eqn:E.
          eexists _, _. eapply TBody; [eassumption|discriminate|eassumption].
        * destruct (upd1 c (shared g)) as [s' ch] eqn:E. eexists _, _. eapply TUpd1; eassumption.
        * destruct (step (shared g) OpClear) as [s' x] eqn:E.
          eexists _, _. eapply TBody; [eassumption|discriminate|eassumption].
        * destruct (step (shared g) OpInfo) as [s' x] eqn:E.
          eexists _, _. eapply TBody; [eassumption|discriminate|eassumption].
      + destruct (upd2 c (shared g)) as [s' r] eqn:E. eexists _, _. eapply TUpd2; eassumption.
      + destruct (upd3 ch r (shared g)) as [s' x] eqn:E. eexists _, _. eapply TUpd3; eassumption.
      + eexists _, _. eapply TRel; eassumption.
    - exists t. assert (critical (at_ (threads g t)) = false) as HC.
      { destruct (critical (at_ (threads g t))) eqn:E; [|reflexivity]. apply L4 in E. discriminate. }
      specialize (L5 t). unfold TI in L5.
      destruct (at_ (threads g t)) as [ |o|o|o|c ch|ch r|x|x] eqn:EA; try discriminate.
      + destruct (prog (threads g t)) as [|o rest] eqn:EP; [destruct Ht; congruence|].
        eexists _, _. eapply TCall; eassumption.
      + destruct o as [i r|c| |].
        * destruct (has_cache (pol (shared g))) eqn:EH; eexists _, _; [eapply TOn|eapply TOff]; eassumption.
        * eexists _, _. eapply TOther; [eassumption|discriminate].
        * eexists _, _. eapply TOther; [eassumption|discriminate].
        * eexists _, _. eapply TOther; [eassumption|discriminate].
      + eexists _, _. eapply TLock; eassumption.
      + destruct L5 as (o & A & _). eexists _, _. eapply TRet; eassumption.
  Qed.
End ConcProofs.
