(** Proofs about Manager.v: the manager is told of a policy, if one thread only changes the configuration. *)
From Verif Require Import PyBase Manager ManagerSpec ManagerProofs.
Local Open Scope list_scope.

Section Safe.
Context (J : proc -> Prop).   (* what may be requested *)

(** [safe ch hp kp p]: [ch] if the thread changes the configuration, [hp] if it has the policy's lock, [kp]
    if it knows that there is a policy. *)
Inductive safe (ch : bool) : bool -> bool -> proc -> Prop :=
| s_done hp kp o : safe ch hp kp (Done o)
| s_acqP hp kp k : safe ch true kp k -> safe ch hp kp (Acq PL k)
| s_acqM hp kp k : safe ch hp kp k -> safe ch hp kp (Acq ML k)
| s_relP hp kp k : safe ch false (kp && ch) k -> safe ch hp kp (Rel PL k)
| s_relM hp kp k : safe ch hp kp k -> safe ch hp kp (Rel ML k)
| s_put hp kp b k : J b -> (forall f, safe ch hp kp (k f)) -> safe ch hp kp (Put b k)
| s_await hp kp f k : (forall o, safe ch hp kp (k o)) -> safe ch hp kp (Await f k)
| s_read hp kp k :
    (forall p man, (kp = true -> p <> None) -> safe ch hp (match p with None => false | _ => hp || ch end) (k p man)) ->
    safe ch hp kp (Read k)
| s_some hp kp q k : hp = true -> safe ch hp true k -> safe ch hp kp (SetPol (Some q) k)
| s_none hp kp k : hp = true -> ch = true -> safe ch hp false k -> safe ch hp kp (SetPol None k)
| s_start hp kp k : safe ch hp kp k -> safe ch hp kp (StartM k)
| s_ask hp kp k : (forall a, safe ch hp kp (k a)) -> safe ch hp kp (Oracle k).

Lemma safe_mono ch hp kp p : safe ch hp kp p -> safe ch hp true p.
Proof.
  intros H. induction H; constructor; auto.
  cbn. destruct kp; cbn in *; [assumption|]. destruct ch; assumption.
Qed.
Lemma safe_mono' ch hp kp p : safe ch hp false p -> safe ch hp kp p.
Proof. intros H. destruct kp; [apply (safe_mono ch hp false)|]; assumption. Qed.

Context (b : option pol -> proc) (JB : forall p, J (b (Some p))) (ch : bool).

Lemma call_changed_safe hp kp k : kp = true -> (hp || ch = true) -> (forall o kp, safe ch hp kp (k o)) -> safe ch hp kp (call_changed b k).
Proof.
  intros -> HC HK. constructor. intros p man HP. specialize (HP eq_refl). destruct p as [q|]; [|congruence].
  destruct man; [|apply HK]. constructor; [apply JB|]. intros f. constructor. intros o. apply HK.
Qed.
Lemma make_policy_safe kp k : (forall o, safe ch true false (k o)) -> (forall v, safe ch true true (k (Val v))) ->
  safe ch true kp (make_policy b k).
Proof.
  intros HK HV. constructor. intros p man HP. destruct p as [q|]; [cbn; apply HV|].
  constructor. intros [q|e|]; try (apply HK). constructor; [reflexivity|]. destruct (fst q); [|apply HV].
  constructor. constructor. intros p' man' HP'. specialize (HP' eq_refl). destruct p' as [q'|]; [|congruence]. cbn.
  assert (HR : forall o kp, safe ch true kp (Rel ML (k o))) by (intros o kp'; constructor; apply safe_mono', HK).
  destruct man'; [apply call_changed_safe; auto|]. constructor. apply call_changed_safe; auto.
Qed.
Lemma policy_safe kp k : (forall o, (forall q, o <> Val (VPol (Some q))) -> safe ch false false (k o)) ->
  (forall q, safe ch false ch (k (Val (VPol (Some q))))) -> safe ch false kp (policy b k).
Proof.
  intros HK HP. constructor. constructor. intros p man _.
  assert (HR : forall o kp, (forall q, o <> Val (VPol (Some q))) -> safe ch true kp (Rel PL (k o)))
    by (intros o kp' N; constructor; apply safe_mono', HK; exact N).
  assert (HS : forall q, safe ch true true (Rel PL (k (Val (VPol (Some q)))))) by (intros q; constructor; cbn; apply HP).
  destruct p as [q|]; [apply HS|]. apply make_policy_safe.
  - intros o. destruct o; try (apply HR; congruence). constructor. intros p' man' _. destruct p' as [q|]; [apply HS|apply HR; congruence].
  - intros v. constructor. intros p' man' _. destruct p' as [q|]; [apply HS|apply HR; congruence].
Qed.
Lemma with_policy_safe use kp k : (forall o, safe ch false false (k o)) -> (forall q, safe ch false ch (use q)) ->
  safe ch false kp (with_policy b use k).
Proof.
  intros HK HU. apply policy_safe; [|intros q; apply HU].
  intros [[|[q|]|e|n]|e|] N; try apply HK. destruct (N q). reflexivity.
Qed.
Lemma ask_safe hp kp yes no k : (forall e, safe ch hp kp (k (Raised e))) ->
  safe ch hp kp yes -> safe ch hp kp no -> safe ch hp kp (ask yes no k).
Proof. intros H1 H2 H3. constructor. intros [[[|] n]|e|]; auto. Qed.
Lemma config_changed_safe kp k : ch = true -> (forall o, safe ch false false (k o)) -> safe ch false kp (config_changed b k).
Proof.
  intros HC HK. unfold config_changed. cbv zeta.
  assert (HK' : forall o hp kp, safe ch hp kp (Rel PL (k o))) by (intros; constructor; apply safe_mono', HK).
  assert (HM' : forall o kp, safe ch false kp (Rel ML (k o))) by (intros; constructor; apply safe_mono', HK).
  match goal with |- safe _ _ _ (ask ?r _ _) => assert (H : forall kp, safe ch false kp r) end.
  { intros kp'. apply with_policy_safe; [exact HK|]. intros _. apply ask_safe; [intros; apply safe_mono', HK| |].
    - constructor. constructor. intros [q|] man _; [|apply HK']. apply ask_safe; [intros; apply HK'| |apply HK'].
      constructor; [reflexivity|exact HC|]. apply make_policy_safe; intros; apply HK'.
    - apply with_policy_safe; [exact HK|]. intros _. apply ask_safe; [intros; apply safe_mono', HK| |apply safe_mono', HK].
      apply with_policy_safe; [exact HK|]. intros q. destruct (fst q); [|apply safe_mono', HK].
      constructor. apply call_changed_safe; [exact HC|rewrite HC; reflexivity|exact HM']. }
  apply ask_safe; auto. intros. apply safe_mono', HK.
Qed.
Lemma call_manager_safe forget job kp k : J job -> (forall o, safe ch false false (k o)) -> safe ch false kp (call_manager b forget job k).
Proof.
  intros HJ HK. apply with_policy_safe; [exact HK|]. intros q. destruct (fst q); [|apply safe_mono', HK].
  constructor. intros p man _. destruct man; [|apply safe_mono', HK]. constructor. constructor; [exact HJ|]. intros f.
  assert (HM' : forall o kp, safe ch false kp (Rel ML (k o))) by (intros; constructor; apply safe_mono', HK).
  destruct forget; [apply HM'|]. constructor. intros o. apply HM'.
Qed.
End Safe.

(** The requests a client makes are in [J]; it changes the configuration only if [ch]. *)
Inductive client_in (J : proc -> Prop) (ch : bool) : client -> Prop :=
| ci_end : client_in J ch CEnd
| ci_call m k : (forall g job, m = MManager g job -> J job) -> (m = MChanged -> ch = true) ->
    (forall o, client_in J ch (k o)) -> client_in J ch (CCall m k).
Lemma compile_safe (J : proc -> Prop) b ch c : (forall p, J (b (Some p))) -> client_in J ch c -> forall kp, safe J ch false kp (compile b c).
Proof.
  intros JB H. induction H as [|m k HJ HC HO IH]; intros kp; cbn; [constructor|].
  destruct m as [| |forget job]; cbn.
  - apply policy_safe; auto.
  - apply config_changed_safe; auto.
  - apply call_manager_safe; eauto.
Qed.

Section Run.
Context (J : proc -> Prop) (c : nat).

(** [c] is the thread that changes the configuration. *)
Definition thread_safe (s : sys) (t : nat) (p : proc) : Prop :=
  exists hp kp, safe J (Nat.eqb t c) hp kp p /\ (pl s = Some (Cl t) <-> hp = true) /\
    (kp = true -> spol s <> None /\ (hp = true \/ t = c)).
Definition inv2 (s : sys) : Prop :=
  (forall t p z, nth_error (threads s) t = Some (p, z) -> thread_safe s t p) /\
  (forall w f b, In (EPut w f b) (trace s) -> J b).

Lemma frame2 s s' t p : thread_safe s t p -> (pl s' = Some (Cl t) <-> pl s = Some (Cl t)) ->
  (pl s = Some (Cl t) \/ t = c -> spol s <> None -> spol s' <> None) -> thread_safe s' t p.
Proof.
  intros (hp & kp & S & P & K) EP ES. exists hp, kp. split; [exact S|]. split; [rewrite EP; exact P|].
  intros HK. destruct (K HK) as [K1 K2]. split; [|exact K2]. apply ES; [|exact K1]. destruct K2 as [K2|K2]; [left; apply P|right]; exact K2.
Qed.

Lemma client_inv2 s t a p s' p' z' : inv s -> inv2 s -> nth_error (threads s) t = Some (p, false) ->
  pstep (Cl t) a s p = Some (s', p', z') -> inv2 (set_thread t (p', z') s').
Proof.
  intros I [H1 H2] N S. destruct (H1 t p false N) as (hp & kp & SA & P & K).
  destruct (i_threads s I t p false N) as [(fs & hp0 & hm & kn & D & P0 & _) _].
  assert (HH : hp = hp0) by (destruct hp, hp0; try reflexivity; destruct P, P0; intuition congruence). subst hp0.
  assert (LT := nth_lt _ _ _ N).
  assert (GEN : thread_safe s' t p' -> threads s' = threads s ->
    (forall u, u <> t -> (pl s' = Some (Cl u) <-> pl s = Some (Cl u)) /\ (pl s = Some (Cl u) \/ u = c -> spol s <> None -> spol s' <> None)) ->
    (forall w f b, In (EPut w f b) (trace s') -> J b) -> inv2 (set_thread t (p', z') s')).
  { intros G1 G2 G3 G4. split; [|exact G4]. cbn. rewrite G2. intros u pu zu HU. destruct (Nat.eq_dec t u) as [<-|NE].
    - rewrite upd_eq in HU by exact LT. injection HU as <- <-. exact G1.
    - rewrite upd_neq in HU by exact NE. destruct (G3 u) as [G5 G6]; [congruence|].
      apply (frame2 s); [|exact G5|exact G6]. eapply H1. exact HU. }
  destruct SA as [hp kp o|hp kp k SA|hp kp k SA|hp kp k SA|hp kp k SA|hp kp b k JB SA|hp kp f k SA|hp kp k SA|hp kp q k HP SA|hp kp k HP HC SA|hp kp k SA|hp kp k SA];
    cbn [pstep] in S.
  - discriminate.
  - destruct (pl s) eqn:EPL; [discriminate|]. injection S as <- <- <-. apply GEN; cbn; auto.
    + exists true, kp. cbn. split; [exact SA|]. split; [tauto|]. intros HK. destruct (K HK). auto.
    + intros u NE. split; [split; [intros [=]; congruence|discriminate]|auto].
  - destruct (ml s) eqn:EML; [discriminate|]. injection S as <- <- <-. apply GEN; cbn; auto; [|tauto].
    exists hp, kp. auto.
  - injection S as <- <- <-. inversion D; subst. assert (EP : pl s = Some (Cl t)) by (apply P; reflexivity).
    apply GEN; cbn; auto.
    + exists false, (kp && Nat.eqb t c)%bool. cbn. split; [exact SA|]. split; [split; discriminate|].
      intros HK. apply andb_true_iff in HK. destruct HK as [HK HC]. apply Nat.eqb_eq in HC. destruct (K HK). auto.
    + intros u NE. rewrite EP. split; [split; [discriminate|intros [=]; congruence]|auto].
  - injection S as <- <- <-. apply GEN; cbn; auto; [|tauto]. exists hp, kp. auto.
  - assert (ES : exists m', s' = mkSys (pl s) (ml s) (spol s) m' (queue s ++ [(List.length (futs s), b)]) (futs s ++ [mkFut None false]) (threads s) (trace s ++ [EPut (Cl t) (List.length (futs s)) b])
                 /\ p' = k (List.length (futs s))).
    { destruct (smgr s); try discriminate; injection S as <- <- <-; eauto. }
    destruct ES as (m' & -> & ->). apply GEN; cbn; auto; [|tauto|].
    + exists hp, kp. split; [apply SA|]. auto.
    + intros w f b' H. apply in_app_or in H. destruct H as [H|[[= <- <- <-]|[]]]; [eauto|exact JB].
  - assert (ES : (exists e o, (forall w f b, e <> EPut w f b) /\ s' = mkSys (pl s) (ml s) (spol s) (smgr s) (queue s) (futs s) (threads s) (trace s ++ [e]) /\ p' = k o) \/ (s' = s /\ p' = Await f k)).
    { destruct (nth_error (futs s) f) as [[[o|] [|]]|]; injection S as <- <- <-; auto. left.
      exists (EGot (Cl t) f (seen o)), (seen o). split; [discriminate|]. auto. }
    destruct ES as [(e & o & NE & -> & ->)|[-> ->]].
    + apply GEN; cbn; auto; [|tauto|]; [exists hp, kp; split; [apply SA|]; auto|].
      intros w f' b' H. apply in_app_or in H. destruct H as [H|[H|[]]]; [eauto|]. destruct (NE _ _ _ H).
    + apply GEN; auto; [|tauto]. exists hp, kp. split; [constructor; exact SA|]. auto.
  - injection S as <- <- <-. apply GEN; auto; [|tauto].
    exists hp, (match spol s with None => false | _ => (hp || Nat.eqb t c)%bool end). split; [apply SA; intros HK; apply (K HK)|].
    split; [exact P|]. destruct (spol s); [|discriminate]. intros HC. apply orb_true_iff in HC. rewrite Nat.eqb_eq in HC. split; [discriminate|exact HC].
  - injection S as <- <- <-. apply GEN; cbn; auto.
    + exists hp, true. cbn. split; [exact SA|]. split; [exact P|]. intros _. split; [discriminate|auto].
    + intros u NE. split; [tauto|]. discriminate.
  - injection S as <- <- <-. subst hp. assert (EP : pl s = Some (Cl t)) by (apply P; reflexivity). apply Nat.eqb_eq in HC.
    apply GEN; cbn; auto.
    + exists true, false. cbn. split; [exact SA|]. split; [exact P|discriminate].
    + intros u NE. split; [tauto|]. intros [X|X]; [rewrite EP in X; congruence|congruence].
  - injection S as <- <- <-. apply GEN; cbn; auto; [|tauto]. exists hp, kp. auto.
  - injection S as <- <- <-. apply GEN; auto; [|tauto]. exists hp, kp. split; [apply SA|]. auto.
Qed.

Lemma mgr_inv2 s a s' : inv s -> inv2 s -> step Mgr a s = Some s' -> inv2 s'.
Proof.
  intros I [H1 H2] S. cbn in S. pose proof (i_mgr s (i_shared s I)) as IG.
  assert (SAME : forall s', threads s' = threads s -> pl s' = pl s -> spol s' = spol s ->
    (exists l, trace s' = trace s ++ l /\ forall w f b, ~ In (EPut w f b) l) -> inv2 s').
  { intros s2 E1 E2 E3 (l & E4 & E5). split.
    - intros t p z H. rewrite E1 in H. apply (frame2 s); [eapply H1; exact H|rewrite E2; tauto|rewrite E3; auto].
    - intros w f b H. rewrite E4 in H. apply in_app_or in H. destruct H as [H|H]; [eauto|]. destruct (E5 _ _ _ H). }
  destruct (smgr s) as [| | |f p z|f|] eqn:EM; try discriminate.
  - destruct (queue s) as [|[f b] q]; injection S as <-; apply SAME; auto.
    + exists []. rewrite app_nil_r. auto.
    + eexists. split; [reflexivity|]. intros w f' b' [X|[]]. discriminate.
  - destruct IG as (-> & Q & _). destruct Q as [v|e|k Q]; cbn in S; injection S as <-; apply SAME; auto.
    1,2: eexists; split; [reflexivity|]; intros w f' b' [X|[]]; discriminate.
    exists []. cbn. rewrite app_nil_r. auto.
  - destruct (nth_error (futs s) f); [|discriminate]. injection S as <-. split; [|exact H2]. cbn.
    intros t p z H. rewrite nth_error_map in H. destruct (nth_error (threads s) t) as [[p0 z0]|] eqn:E; [|discriminate].
    cbn in H. assert (p = p0) as ->.
    { unfold wake in H. cbn in H. destruct p0; try congruence. destruct (Nat.eqb f1 f); congruence. }
    apply (frame2 s); cbn; [eapply H1; exact E|tauto|auto].
Qed.

Lemma run_inv2 : forall sch s s', inv s -> inv2 s -> run sch s = Some s' -> inv2 s'.
Proof.
  induction sch as [|[w a] r IH]; intros s s' I I2 R; cbn [run] in R; [injection R as <-; exact I2|].
  destruct (step w a s) as [s1|] eqn:E; [|discriminate]. apply (IH s1); [|clear R|exact R].
  - apply (step_inv s w a); assumption.
  - destruct w as [|t]; [apply (mgr_inv2 s a); assumption|]. cbn in E.
    destruct (nth_error (threads s) t) as [[p [|]]|] eqn:N; try discriminate.
    destruct (pstep (Cl t) a s p) as [[[s2 p2] z2]|] eqn:EP; [|discriminate]. injection E as <-.
    apply (client_inv2 s t a p); assumption.
Qed.
Lemma start_inv2 b cs : (forall p, J (b (Some p))) ->
  (forall t cl, nth_error cs t = Some cl -> client_in J (Nat.eqb t c) cl) -> inv2 (start b cs).
Proof.
  intros JB HC. split; [|intros w f b' []]. cbn. intros t p z H. rewrite nth_error_map in H.
  destruct (nth_error cs t) as [cl|] eqn:E; [|discriminate]. cbn in H. injection H as <- <-.
  exists false, false. split; [apply compile_safe; auto|]. cbn. split; [split; discriminate|discriminate].
Qed.
End Run.
