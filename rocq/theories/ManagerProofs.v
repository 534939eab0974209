(** Proofs about Manager.v: the lock discipline and the invariant. *)
From Verif Require Import PyBase Manager ManagerSpec.
Local Open Scope list_scope.

(** ** Lists *)
Lemma upd_length {A} (x : A) : forall l n, List.length (upd n x l) = List.length l.
Proof. induction l as [|y l IH]; intros [|n]; cbn; auto. Qed.
Lemma upd_eq {A} (x : A) : forall l n, (n < List.length l)%nat -> nth_error (upd n x l) n = Some x.
Proof. induction l as [|y l IH]; intros [|n] H; cbn in *; try lia; auto. apply IH. lia. Qed.
Lemma upd_neq {A} (x : A) : forall l n m, n <> m -> nth_error (upd n x l) m = nth_error l m.
Proof. induction l as [|y l IH]; intros [|n] [|m] H; cbn; auto; try lia; try (destruct m; reflexivity). Qed.
Lemma nth_lt {A} (l : list A) n x : nth_error l n = Some x -> (n < List.length l)%nat.
Proof. intros H. apply nth_error_Some. congruence. Qed.

(** ** The discipline of the locks *)
(** What a thread knows of the manager: nothing, that it exists, that it does not (which holds as long as the thread
    has the manager's lock). *)
Inductive know := KAny | KOn | KOff.
Definition learn (hm man : bool) : know := if man then KOn else if hm then KOff else KAny.
Definition forget_off (kn : know) : know := match kn with KOff => KAny | _ => kn end.

(** [disc fs hp hm kn p]: [p] is in order for a thread that has put the requests [fs], has the
    policy's lock if [hp] and the manager's if [hm]. *)
Inductive disc : list nat -> bool -> bool -> know -> proc -> Prop :=
| d_done fs kn o : disc fs false false kn (Done o)
| d_acqP fs kn k : disc fs true false kn k -> disc fs false false kn (Acq PL k)
| d_acqM fs hp kn k : disc fs hp true kn k -> disc fs hp false kn (Acq ML k)
| d_relP fs kn k : disc fs false false kn k -> disc fs true false kn (Rel PL k)
| d_relM fs hp kn k : disc fs hp false (forget_off kn) k -> disc fs hp true kn (Rel ML k)
| d_put fs hp hm b k : quiet b -> (forall f, disc (f :: fs) hp hm KOn (k f)) -> disc fs hp hm KOn (Put b k)
| d_await fs hp hm kn f k : In f fs -> (forall o, disc fs hp hm kn (k o)) -> disc fs hp hm kn (Await f k)
| d_read fs hp hm kn k : (forall p man, (kn = KOn -> man = true) -> disc fs hp hm (learn hm man) (k p man)) -> disc fs hp hm kn (Read k)
| d_set fs hp hm kn q k : disc fs hp hm kn k -> disc fs hp hm kn (SetPol q k)
| d_start fs hp k : disc fs hp true KOn k -> disc fs hp true KOff (StartM k)
| d_ask fs hp hm kn k : (forall a, disc fs hp hm kn (k a)) -> disc fs hp hm kn (Oracle k).

Section Disc.
Context (b : option pol -> proc) (QB : forall p, quiet (b p)).

Lemma call_changed_disc hp k : (forall o fs kn, disc fs hp true kn (k o)) ->
  forall fs kn, disc fs hp true kn (call_changed b k).
Proof.
  intros HK fs kn. constructor. intros p man _. destruct man; [|apply HK]. cbn. constructor; [apply QB|].
  intros f. constructor; [left; reflexivity|]. intros o. apply HK.
Qed.
Definition fine (kn : know) : Prop := kn <> KOff.
Lemma learn_fine man : fine (learn false man).
Proof. destruct man; cbn; unfold fine; congruence. Qed.
Lemma forget_fine kn : fine (forget_off kn).
Proof. destruct kn; cbn; unfold fine; congruence. Qed.
Hint Resolve learn_fine forget_fine : core.

Lemma make_policy_disc k : (forall o fs kn, fine kn -> disc fs true false kn (k o)) ->
  forall fs kn, disc fs true false kn (make_policy b k).
Proof.
  intros HK fs kn. constructor. intros p man _.
  destruct p as [q|]; [apply HK; auto|]. constructor. intros [q|e|]; try (apply HK; auto).
  constructor. destruct (fst q); [|apply HK; auto]. constructor. constructor. intros p' man' _.
  assert (HR : forall o fs kn, disc fs true true kn (Rel ML (k o))).
  { intros o fs' kn'. constructor. apply HK. auto. }
  destruct man'; [apply call_changed_disc; exact HR|]. cbn. constructor. apply call_changed_disc. exact HR.
Qed.
Lemma policy_disc k : (forall o fs kn, fine kn -> disc fs false false kn (k o)) ->
  forall fs kn, disc fs false false kn (policy b k).
Proof.
  intros HK fs kn. constructor. constructor. intros p man _.
  assert (HR : forall o fs kn, fine kn -> disc fs true false kn (Rel PL (k o))) by (intros; constructor; auto).
  destruct p as [q|]; [apply HR; auto|]. apply make_policy_disc.
  intros o fs' kn' F'. destruct o; [|apply HR; exact F'..]. constructor. intros p' man' _. apply HR. auto.
Qed.
Lemma with_policy_disc use k : (forall o fs kn, fine kn -> disc fs false false kn (k o)) ->
  (forall p fs kn, fine kn -> disc fs false false kn (use p)) ->
  forall fs kn, disc fs false false kn (with_policy b use k).
Proof.
  intros HK HU fs kn. apply policy_disc. intros [[|[q|]|e|n]|e|] fs' kn' F'; auto.
Qed.
Lemma ask_disc hp hm yes no k fs kn : (forall e, disc fs hp hm kn (k (Raised e))) ->
  disc fs hp hm kn yes -> disc fs hp hm kn no -> disc fs hp hm kn (ask yes no k).
Proof. intros H1 H2 H3. constructor. intros [[[|] n]|e|]; auto. Qed.
Lemma config_changed_disc k : (forall o fs kn, fine kn -> disc fs false false kn (k o)) ->
  forall fs kn, fine kn -> disc fs false false kn (config_changed b k).
Proof.
  intros HK fs kn F. unfold config_changed. cbv zeta.
  assert (HR : forall o fs kn, fine kn -> disc fs true false kn (Rel PL (k o))) by (intros; constructor; auto).
  assert (HM : forall o fs kn, disc fs false true kn (Rel ML (k o))) by (intros; constructor; auto).
  match goal with |- disc _ _ _ _ (ask ?r _ _) => assert (H : forall fs kn, disc fs false false kn r) end.
  { apply with_policy_disc; [exact HK|]. intros _ fs1 kn1 F1. apply ask_disc; [auto| |].
    - constructor. constructor. intros [q|] man _; [|apply HR; auto].
      apply ask_disc; [auto| |apply HR; auto]. constructor. apply make_policy_disc. exact HR.
    - apply with_policy_disc; [exact HK|]. intros _ fs2 kn2 F2. apply ask_disc; [auto| |auto].
      apply with_policy_disc; [exact HK|]. intros q fs3 kn3 F3. destruct (fst q); [|auto].
      constructor. apply call_changed_disc. exact HM. }
  apply ask_disc; auto.
Qed.
Lemma call_manager_disc forget job k : quiet job -> (forall o fs kn, fine kn -> disc fs false false kn (k o)) ->
  forall fs kn, disc fs false false kn (call_manager b forget job k).
Proof.
  intros Q HK. apply with_policy_disc; [exact HK|]. intros q fs kn F. destruct (fst q); [|auto].
  constructor. intros p man _. destruct man; [|auto]. constructor. constructor; [exact Q|]. intros f.
  assert (HM : forall o fs, disc fs false true KOn (Rel ML (k o))) by (intros; constructor; auto).
  destruct forget; [apply HM|]. constructor; [left; reflexivity|]. intros o. apply HM.
Qed.
Lemma compile_disc c : client_ok c -> forall fs kn, fine kn -> disc fs false false kn (compile b c).
Proof.
  intros H. induction H as [|m k HJ HO IH]; intros fs kn F; cbn; [constructor|].
  destruct m as [| |forget job]; cbn.
  - apply policy_disc. auto.
  - apply config_changed_disc; auto.
  - apply call_manager_disc; eauto.
Qed.
End Disc.

(** ** The invariant *)
Definition stored_of (o : outcome) : outcome := match o with Raised e => Val (VExc e) | _ => o end.
Lemma received_seen o : o <> Escaped -> received o (seen (stored_of o)).
Proof.
  intros N. split.
  - intros v -> H. cbn. destruct v; try reflexivity. destruct (H e eq_refl).
  - intros e ->. reflexivity.
Qed.
Lemma yields_quiet p : quiet p -> forall o, yields p o -> o <> Escaped.
Proof.
  intros Q. induction Q as [v|e|k Q IH]; intros o Y; inversion Y; subst; try congruence. eauto.
Qed.

(** What is so of thread [t]. *)
Record thread_ok (s : sys) (t : nat) (p : proc) (z : bool) : Prop := {
  t_disc : exists fs hp hm kn, disc fs hp hm kn p /\
    (pl s = Some (Cl t) <-> hp = true) /\ (ml s = Some (Cl t) <-> hm = true) /\
    (forall f, In f fs -> exists b, In (EPut (Cl t) f b) (trace s)) /\
    (kn = KOn -> smgr s <> MOff) /\ (kn = KOff -> hm = true /\ smgr s = MOff);
  t_asleep : z = true -> exists f k x, p = Await f k /\ nth_error (futs s) f = Some x /\ ready x = false;
}.
(** The request the manager is busy with. *)
Definition current (m : mgr) : list nat :=
  match m with MRun f _ _ | MStored f => [f] | _ => [] end.

(** What is so of queue, futures, manager and trace. *)
Record shared (s : sys) : Prop := {
  i_trace : ok_trace (trace s);
  i_puts : puts (trace s) = seq 0 (List.length (futs s));
  i_starts : puts (trace s) = starts (trace s) ++ map fst (queue s);
  i_current : exists n, starts (trace s) = seq 0 n ++ current (smgr s) /\
    (forall f, (f < n)%nat -> exists o, In (EStore f o) (trace s) /\ nth_error (futs s) f = Some (mkFut (Some (stored_of o)) true) /\ o <> Escaped) /\
    (forall f o, In (EStore f o) (trace s) -> (f < n)%nat \/ smgr s = MStored f) /\
    (forall f x, nth_error (futs s) f = Some x -> ready x = true -> (f < n)%nat);
  i_queue : forall f b, In (f, b) (queue s) -> quiet b /\ exists w, In (EPut w f b) (trace s);
  i_mgr : match smgr s with
          | MOff => futs s = []
          | MTest => True
          | MSleep => queue s = []
          | MRun f p z => z = false /\ quiet p /\ exists w b, In (EPut w f b) (trace s) /\ forall o, yields p o -> yields b o
          | MStored f => exists o, In (EStore f o) (trace s) /\ nth_error (futs s) f = Some (mkFut (Some (stored_of o)) false) /\ o <> Escaped
          | MDead => False
          end;
}.
Record inv (s : sys) : Prop := {
  i_threads : forall t p z, nth_error (threads s) t = Some (p, z) -> thread_ok s t p z;
  i_pl : forall w, pl s = Some w -> exists t, w = Cl t /\ (t < List.length (threads s))%nat;
  i_ml : forall w, ml s = Some w -> exists t, w = Cl t /\ (t < List.length (threads s))%nat;
  i_shared : shared s;
}.

(** Other threads are not disturbed. *)
Lemma frame s s' t p z : thread_ok s t p z ->
  (pl s' = Some (Cl t) <-> pl s = Some (Cl t)) -> (ml s' = Some (Cl t) <-> ml s = Some (Cl t)) ->
  (smgr s <> MOff -> smgr s' <> MOff) -> (ml s = Some (Cl t) -> smgr s = MOff -> smgr s' = MOff) ->
  (forall e, In e (trace s) -> In e (trace s')) ->
  (z = true -> forall f k x, p = Await f k -> nth_error (futs s) f = Some x -> ready x = false ->
     exists x', nth_error (futs s') f = Some x' /\ ready x' = false) ->
  thread_ok s' t p z.
Proof.
  intros [(fs & hp & hm & kn & D & P & M & F & ON & OFF) A] EP EM HON HOFF ET EF. constructor.
  - exists fs, hp, hm, kn. split; [exact D|]. split; [rewrite EP; exact P|]. split; [rewrite EM; exact M|].
    split; [intros f HF; destruct (F f HF) as [b HB]; eauto|]. split; [auto|].
    intros K. destruct (OFF K) as [H1 H2]. split; [exact H1|]. apply HOFF; [|exact H2]. apply M. exact H1.
  - intros HZ. destruct (A HZ) as (f & k & x & E & N & R). destruct (EF HZ f k x E N R) as (x' & N' & R'). eauto 6.
Qed.

Lemma ok_trace_snoc tr e : ok_trace tr -> ok_event tr e -> ok_trace (tr ++ [e]).
Proof.
  intros H1 H2 tr1 e' tr2 E. destruct tr2 as [|e2 tr2] using rev_ind.
  - apply app_inj_tail in E. destruct E as [<- <-]. exact H2.
  - replace (tr1 ++ e' :: tr2 ++ [e2]) with ((tr1 ++ e' :: tr2) ++ [e2]) in E by (rewrite <- app_assoc; reflexivity).
    apply app_inj_tail in E. destruct E as [-> _]. eapply H1. reflexivity.
Qed.
Lemma puts_snoc tr e : puts (tr ++ [e]) = puts tr ++ puts [e].
Proof. apply flat_map_app. Qed.
Lemma starts_snoc tr e : starts (tr ++ [e]) = starts tr ++ starts [e].
Proof. apply flat_map_app. Qed.
Lemma In_puts tr f : In f (puts tr) <-> exists w b, In (EPut w f b) tr.
Proof.
  unfold puts. rewrite in_flat_map. split.
  - intros (e & H1 & H2). destruct e; cbn in H2; try contradiction. destruct H2 as [->|[]]. eauto.
  - intros (w & b & H). exists (EPut w f b). split; [exact H|left; reflexivity].
Qed.
Lemma In_starts tr f : In f (starts tr) <-> In (EStart f) tr.
Proof.
  unfold starts. rewrite in_flat_map. split.
  - intros (e & H1 & H2). destruct e; cbn in H2; try contradiction. destruct H2 as [->|[]]. exact H1.
  - intros H. exists (EStart f). split; [exact H|left; reflexivity].
Qed.
Lemma put_bound s f w b : shared s -> In (EPut w f b) (trace s) -> (f < List.length (futs s))%nat.
Proof.
  intros I H. assert (X : In f (puts (trace s))) by (apply In_puts; eauto).
  rewrite (i_puts s I) in X. apply in_seq in X. lia.
Qed.

Lemma start_inv b cs : (forall p, quiet (b p)) -> Forall client_ok cs -> inv (start b cs).
Proof.
  intros QB HC. constructor; try (cbn; intros; discriminate).
  - cbn. intros t p z H. rewrite nth_error_map in H. destruct (nth_error cs t) as [c|] eqn:E; [|discriminate].
    cbn in H. injection H as <- <-. apply nth_error_In in E. rewrite Forall_forall in HC.
    constructor; [|discriminate]. exists [], false, false, KAny. split; [apply compile_disc; [exact QB|auto|unfold fine; congruence]|].
    cbn. split; [split; discriminate|]. split; [split; discriminate|]. split; [intros f []|]. split; discriminate.
  - constructor; cbn; auto; try (intros; contradiction).
    + intros tr1 e tr2 H. destruct tr1; discriminate.
    + exists 0%nat. cbn. split; [reflexivity|]. split; [lia|]. split; [intros f o []|]. intros f x H. destruct f; discriminate.
Qed.

(** *** A step of a client *)
Lemma assemble s s' t p' z' : inv s -> threads s' = threads s -> (t < List.length (threads s))%nat ->
  thread_ok s' t p' z' ->
  (forall u, u <> t -> (pl s' = Some (Cl u) <-> pl s = Some (Cl u)) /\ (ml s' = Some (Cl u) <-> ml s = Some (Cl u)) /\
     (ml s = Some (Cl u) -> smgr s = MOff -> smgr s' = MOff)) ->
  (smgr s <> MOff -> smgr s' <> MOff) ->
  (forall e, In e (trace s) -> In e (trace s')) ->
  (forall f x, nth_error (futs s) f = Some x -> nth_error (futs s') f = Some x) ->
  (forall w, pl s' = Some w -> w = Cl t \/ pl s = Some w) -> (forall w, ml s' = Some w -> w = Cl t \/ ml s = Some w) ->
  shared s' -> inv (set_thread t (p', z') s').
Proof.
  intros I ET LT TO FR ON TR FU WP WM SH. constructor; cbn [set_thread pl ml spol smgr queue futs threads trace].
  - intros u pu zu HU. rewrite ET in HU. destruct (Nat.eq_dec t u) as [<-|NE].
    + rewrite upd_eq in HU by exact LT. injection HU as <- <-. destruct TO as [T1 T2]. constructor; assumption.
    + rewrite upd_neq in HU by exact NE. destruct (FR u) as (F1 & F2 & F3); [congruence|].
      pose proof (i_threads s I u pu zu HU) as TU. apply (frame s); auto.
      cbn. intros _ f k x _ HN HR. eauto.
  - intros w HW. rewrite ET, upd_length. destruct (WP w HW) as [->|H]; [eauto|]. apply (i_pl s I w H).
  - intros w HW. rewrite ET, upd_length. destruct (WM w HW) as [->|H]; [eauto|]. apply (i_ml s I w H).
  - destruct SH; constructor; assumption.
Qed.

Ltac ctx := cbn [pl ml spol smgr queue futs threads trace].
Lemma client_step s t a p s' p' z' : inv s -> nth_error (threads s) t = Some (p, false) ->
  pstep (Cl t) a s p = Some (s', p', z') -> inv (set_thread t (p', z') s').
Proof.
  intros I N S. pose proof (i_threads s I t p false N) as [(fs & hp & hm & kn & D & P & M & F & ON & OFF) _].
  assert (LT := nth_lt _ _ _ N). pose proof (i_shared s I) as SH.
  destruct D as [fs kn o|fs kn k D|fs hp kn k D|fs kn k D|fs hp kn k D|fs hp hm b k QB D|fs hp hm kn f k HF D|fs hp hm kn k D|fs hp hm kn q k D|fs hp k D|fs hp hm kn k D];
    cbn [pstep] in S.
  - discriminate.
  - (* Acq PL *)
    destruct (pl s) as [w|] eqn:EPL; [discriminate|]. injection S as <- <- <-.
    apply (assemble s); ctx; auto; [| | |destruct SH; constructor; assumption].
    + constructor; [|discriminate]. ctx. exists fs, true, false, kn. split; [exact D|]. split; [tauto|]. split; [exact M|].
      split; [exact F|]. split; [exact ON|exact OFF].
    + intros u NE. rewrite EPL. split; [split; [intros [=]; congruence|discriminate]|]. tauto.
    + intros w [= <-]. auto.
  - (* Acq ML *)
    destruct (ml s) as [w|] eqn:EML; [discriminate|]. injection S as <- <- <-.
    apply (assemble s); ctx; auto; [| | |destruct SH; constructor; assumption].
    + constructor; [|discriminate]. ctx. exists fs, hp, true, kn. split; [exact D|]. split; [exact P|]. split; [tauto|].
      split; [exact F|]. split; [exact ON|]. intros K. destruct (OFF K); auto.
    + intros u NE. rewrite EML. split; [tauto|]. split; [split; [intros [=]; congruence|discriminate]|]. auto.
    + intros w [= <-]. auto.
  - (* Rel PL *)
    injection S as <- <- <-. assert (HP : pl s = Some (Cl t)) by (apply P; reflexivity).
    apply (assemble s); ctx; auto; [| | |destruct SH; constructor; assumption].
    + constructor; [|discriminate]. ctx. exists fs, false, false, kn. split; [exact D|]. split; [split; discriminate|].
      split; [exact M|]. split; [exact F|]. split; [exact ON|exact OFF].
    + intros u NE. rewrite HP. split; [split; [discriminate|intros [=]; congruence]|]. tauto.
    + intros w [=].
  - (* Rel ML *)
    injection S as <- <- <-. assert (HM : ml s = Some (Cl t)) by (apply M; reflexivity).
    apply (assemble s); ctx; auto; [| | |destruct SH; constructor; assumption].
    + constructor; [|discriminate]. ctx. exists fs, hp, false, (forget_off kn). split; [exact D|]. split; [exact P|].
      split; [split; discriminate|]. split; [exact F|]. split; [destruct kn; cbn; auto; discriminate|destruct kn; discriminate].
    + intros u NE. rewrite HM. split; [tauto|]. split; [split; [discriminate|intros [=]; congruence]|]. auto.
    + intros w [=].
  - (* Put *)
    assert (NOFF : smgr s <> MOff) by auto.
    set (f := List.length (futs s)) in *.
    set (m' := match smgr s with MSleep => MTest | m => m end).
    assert (ES : s' = mkSys (pl s) (ml s) (spol s) m' (queue s ++ [(f, b)]) (futs s ++ [mkFut None false]) (threads s) (trace s ++ [EPut (Cl t) f b])
                 /\ p' = k f /\ z' = false).
    { unfold m'. destruct (smgr s); try contradiction; injection S as <- <- <-; auto. }
    destruct ES as (-> & -> & ->). clear S.
    assert (NM : m' <> MOff) by (unfold m'; destruct (smgr s); congruence).
    assert (CM : current m' = current (smgr s)) by (unfold m'; destruct (smgr s); reflexivity).
    apply (assemble s); ctx; auto.
    + constructor; [|discriminate]. ctx. exists (f :: fs), hp, hm, KOn. split; [apply D|]. split; [exact P|]. split; [exact M|].
      split; [|split; [auto|discriminate]]. intros g [<-|HG]; [exists b; apply in_or_app; right; left; reflexivity|].
      destruct (F g HG) as [b' HB]. exists b'. apply in_or_app. auto.
    + intros u NE. split; [tauto|]. split; [tauto|]. intros _ X. contradiction.
    + intros e HE. apply in_or_app. auto.
    + intros g x HG. rewrite nth_error_app1; [exact HG|]. eapply nth_lt; eauto.
    + destruct SH as [S1 S2 S3 S4 S5 S6]. constructor; ctx.
      * apply ok_trace_snoc; [exact S1|]. cbn. rewrite S2. rewrite in_seq. fold f. lia.
      * rewrite puts_snoc, S2, app_length. cbn. fold f. rewrite Nat.add_1_r, seq_S. reflexivity.
      * rewrite puts_snoc, starts_snoc, S3, map_app. cbn. rewrite app_nil_r, app_assoc. reflexivity.
      * destruct S4 as (n & C1 & C2 & C3 & C4). exists n. rewrite starts_snoc, CM. cbn. rewrite app_nil_r.
        split; [exact C1|]. split; [|split].
        -- intros g HG. destruct (C2 g HG) as (o & H1 & H2 & H3). exists o. split; [apply in_or_app; auto|].
           split; [|exact H3]. rewrite nth_error_app1; [exact H2|]. eapply nth_lt; eauto.
        -- intros g o HG. apply in_app_or in HG. destruct HG as [HG|[HG|[]]]; [|discriminate].
           destruct (C3 g o HG) as [H|H]; [auto|]. right. unfold m'. rewrite H. reflexivity.
        -- intros g x HG HR. destruct (Nat.lt_ge_cases g f) as [L|L].
           ++ rewrite nth_error_app1 in HG by exact L. eauto.
           ++ rewrite nth_error_app2 in HG by exact L. destruct (g - List.length (futs s))%nat as [|j]; cbn in HG.
              ** injection HG as <-. discriminate.
              ** destruct j; discriminate.
      * intros g b' HG. apply in_app_or in HG. destruct HG as [HG|[HG|[]]].
        -- destruct (S5 g b' HG) as (Q & w & HW). split; [exact Q|]. exists w. apply in_or_app. auto.
        -- injection HG as <- <-. split; [exact QB|]. exists (Cl t). apply in_or_app. right. left. reflexivity.
      * unfold m'. destruct (smgr s) as [| | |g q zz|g|]; try exact I0; auto.
        -- contradiction.
        -- destruct S6 as (Z & Q & w & b' & H1 & H2). split; [exact Z|]. split; [exact Q|]. exists w, b'. split; [apply in_or_app; auto|exact H2].
        -- destruct S6 as (o & H1 & H2 & H3). exists o. split; [apply in_or_app; auto|]. split; [|exact H3].
           rewrite nth_error_app1; [exact H2|]. eapply nth_lt; eauto.
  - (* Await *)
    destruct (F f HF) as [b HB]. pose proof (put_bound s f _ _ SH HB) as LF.
    destruct (nth_error (futs s) f) as [[so r]|] eqn:EF; [|apply nth_error_None in EF; lia].
    assert (CASES : (exists o, so = Some o /\ r = true /\
               s' = mkSys (pl s) (ml s) (spol s) (smgr s) (queue s) (futs s) (threads s) (trace s ++ [EGot (Cl t) f (seen o)]) /\
               p' = k (seen o) /\ z' = false) \/
             (r = false /\ s' = s /\ p' = Await f k /\ z' = true)).
    { destruct so as [o|], r; injection S as <- <- <-; eauto 8.
      destruct (i_current s SH) as (n & _ & C2 & _ & C4). specialize (C4 f _ EF eq_refl). destruct (C2 f C4) as (o & _ & H & _).
      rewrite EF in H. discriminate. }
    clear S. destruct CASES as [(o & -> & -> & -> & -> & ->)|(-> & -> & -> & ->)].
    + apply (assemble s); ctx; auto; [| | |].
      * constructor; [|discriminate]. ctx. exists fs, hp, hm, kn. split; [apply D|]. split; [exact P|]. split; [exact M|].
        split; [|auto]. intros g HG. destruct (F g HG) as [b' H]. exists b'. apply in_or_app. auto.
      * tauto.
      * intros e HE. apply in_or_app. auto.
      * destruct SH as [S1 S2 S3 S4 S5 S6]. destruct S4 as (n & C1 & C2 & C3 & C4).
        assert (INC : forall e, In e (trace s) -> In e (trace s ++ [EGot (Cl t) f (seen o)])) by (intros; apply in_or_app; auto).
        constructor; ctx.
        -- apply ok_trace_snoc; [exact S1|]. cbn. specialize (C4 f _ EF eq_refl). destruct (C2 f C4) as (o' & H1 & H2 & H3).
           rewrite EF in H2. injection H2 as ->. exists b, o'. split; [exact HB|]. split; [exact H1|]. apply received_seen. exact H3.
        -- rewrite puts_snoc. cbn. rewrite app_nil_r. exact S2.
        -- rewrite puts_snoc, starts_snoc. cbn. rewrite !app_nil_r. exact S3.
        -- exists n. rewrite starts_snoc. cbn. rewrite app_nil_r. split; [exact C1|]. split; [|split; [|exact C4]].
           ++ intros g HG. destruct (C2 g HG) as (o' & H1 & H2). exists o'. auto.
           ++ intros g o' HG. apply in_app_or in HG. destruct HG as [HG|[HG|[]]]; [eauto|discriminate].
        -- intros g b' HG. destruct (S5 g b' HG) as (Q & w & HW). split; [exact Q|]. exists w. auto.
        -- destruct (smgr s) as [| | |g q zz|g|]; auto.
           ++ destruct S6 as (Z & Q & w & b' & H1 & H2). split; [exact Z|]. split; [exact Q|]. exists w, b'. auto.
           ++ destruct S6 as (o' & H1 & H2). exists o'. auto.
    + apply (assemble s); auto; [|tauto].
      constructor; [|intros _; exists f, k; eexists; eauto]. exists fs, hp, hm, kn. split; [constructor; auto|]. auto 6.
  - (* Read *)
    injection S as <- <- <-. apply (assemble s); auto; [|tauto].
    constructor; [|discriminate]. exists fs, hp, hm, (learn hm (is_on (smgr s))). split.
    { apply D. intros K. specialize (ON K). destruct (smgr s); cbn; congruence. }
    split; [exact P|]. split; [exact M|]. split; [exact F|]. unfold learn. destruct (smgr s), hm; cbn; repeat split; congruence.
  - (* SetPol *)
    injection S as <- <- <-. apply (assemble s); ctx; auto; [|tauto|destruct SH; constructor; assumption].
    constructor; [|discriminate]. ctx. exists fs, hp, hm, kn. auto 8.
  - (* StartM *)
    injection S as <- <- <-. destruct (OFF eq_refl) as [_ EO]. assert (HM : ml s = Some (Cl t)) by (apply M; reflexivity).
    pose proof (i_mgr s SH) as IG. rewrite EO in IG.
    apply (assemble s); ctx; auto; [| |].
    + constructor; [|discriminate]. ctx. exists fs, hp, true, KOn. split; [exact D|]. split; [exact P|]. split; [exact M|]. split; [exact F|]. split; congruence.
    + intros u NE. split; [tauto|]. split; [tauto|]. rewrite HM. intros [=]. congruence.
    + destruct SH as [S1 S2 S3 S4 S5 S6]. rewrite IG in S2. cbn in S2.
      assert (EQ : queue s = [] /\ starts (trace s) = []).
      { rewrite S3 in S2. apply app_eq_nil in S2. destruct S2 as [-> E2]. apply map_eq_nil in E2. auto. }
      destruct EQ as [EQ ES]. constructor; ctx; auto.
      * rewrite IG. exact S2.
      * rewrite S2, ES. reflexivity.
      * destruct S4 as (n & C1 & C2 & C3 & C4). rewrite EO in *. exists n. cbn in *. split; [exact C1|]. split; [exact C2|].
        split; [|exact C4]. intros f o H. destruct (C3 f o H); [auto|discriminate].
      * intros f b [].
  - (* Oracle *)
    injection S as <- <- <-. apply (assemble s); auto; [|tauto].
    constructor; [|discriminate]. exists fs, hp, hm, kn. split; [apply D|]. auto 6.
Qed.

(** *** A step of the manager *)
Lemma mgr_assemble s s' : inv s -> pl s' = pl s -> ml s' = ml s -> threads s' = threads s ->
  (smgr s <> MOff) -> (smgr s' <> MOff) -> (forall e, In e (trace s) -> In e (trace s')) ->
  (forall f x, nth_error (futs s) f = Some x -> ready x = false -> exists x', nth_error (futs s') f = Some x' /\ ready x' = false) ->
  shared s' -> inv s'.
Proof.
  intros I E1 E2 E3 N1 N2 TR FU SH. constructor; [|rewrite E1, E3; apply (i_pl s I)|rewrite E2, E3; apply (i_ml s I)|exact SH].
  intros t p z H. rewrite E3 in H. apply (frame s); auto.
  - apply (i_threads s I). exact H.
  - rewrite E1. tauto.
  - rewrite E2. tauto.
  - intros _ X. contradiction.
  - intros _ f k x _ HN HR. eauto.
Qed.

Lemma seq_current len n f l : seq 0 len = (seq 0 n ++ [f]) ++ l -> f = n.
Proof.
  intros X. rewrite <- app_assoc in X. assert (LN : (n < len)%nat).
  { apply (f_equal (@List.length nat)) in X. rewrite !app_length, !seq_length in X. cbn in X. lia. }
  assert (Y : nth_error (seq 0 len) n = Some f).
  { rewrite X, nth_error_app2 by (rewrite seq_length; lia). rewrite seq_length, Nat.sub_diag. reflexivity. }
  rewrite (nth_error_nth' _ 0%nat) in Y by (rewrite seq_length; exact LN). rewrite seq_nth in Y by exact LN.
  injection Y as <-. reflexivity.
Qed.
Lemma store_step s f o w b p : inv s -> smgr s = MRun f p false -> In (EPut w f b) (trace s) -> yields b o -> o <> Escaped ->
  inv (mkSys (pl s) (ml s) (spol s) (MStored f) (queue s) (upd f (mkFut (Some (stored_of o)) false) (futs s)) (threads s) (trace s ++ [EStore f o])).
Proof.
  intros I EM HB YB NE. destruct (i_shared s I) as [S1 S2 S3 S4 S5 _].
  assert (INC : forall e', In e' (trace s) -> In e' (trace s ++ [EStore f o])) by (intros; apply in_or_app; auto).
  destruct S4 as (n & C1 & C2 & C3 & C4). rewrite EM in C1. cbn in C1.
  assert (LF : (f < List.length (futs s))%nat) by (pose proof (put_bound s f w b (i_shared s I) HB); assumption).
  assert (FN : f = n).
  { apply (seq_current (List.length (futs s)) n f (map fst (queue s))). rewrite <- C1, <- S3. auto. }
  apply (mgr_assemble s); cbn; auto; try congruence.
  { intros g x HG HR. destruct (Nat.eq_dec f g) as [<-|NG].
    - rewrite upd_eq by exact LF. eauto.
    - rewrite upd_neq by exact NG. eauto. }
  constructor; ctx.
  - apply ok_trace_snoc; [exact S1|]. cbn. split; [apply In_starts; rewrite C1; apply in_or_app; right; left; reflexivity|].
    split; [intros o' HO; destruct (C3 f o' HO) as [X|X]; [lia|congruence]|]. exists w, b. auto.
  - rewrite puts_snoc, upd_length. cbn. rewrite app_nil_r. exact S2.
  - rewrite puts_snoc, starts_snoc. cbn. rewrite !app_nil_r. exact S3.
  - exists n. rewrite starts_snoc. cbn. rewrite app_nil_r. split; [exact C1|]. split; [|split].
    + intros g HG. destruct (C2 g HG) as (o' & H1 & H2). exists o'. rewrite upd_neq by lia. auto.
    + intros g o' HG. apply in_app_or in HG. destruct HG as [HG|[HG|[]]].
      * destruct (C3 g o' HG) as [X|X]; [auto|congruence].
      * injection HG as <- <-. auto.
    + intros g x HG HR. destruct (Nat.eq_dec f g) as [<-|NG].
      * rewrite upd_eq in HG by exact LF. injection HG as <-. discriminate.
      * rewrite upd_neq in HG by exact NG. eauto.
  - intros g b' HG. destruct (S5 g b' HG) as (Q' & w' & HW'). split; [exact Q'|]. exists w'. auto.
  - exists o. split; [apply in_or_app; right; left; reflexivity|]. rewrite upd_eq by exact LF. auto.
Qed.

Lemma manager_step s a s' : inv s -> step Mgr a s = Some s' -> inv s'.
Proof.
  intros I S. cbn in S. pose proof (i_shared s I) as SH. destruct SH as [S1 S2 S3 S4 S5 S6].
  destruct (smgr s) as [| | |f p z|f|] eqn:EM; try discriminate.
  - (* MTest *)
    destruct (queue s) as [|[f b] q] eqn:EQ; injection S as <-.
    + apply (mgr_assemble s); cbn; auto; try congruence; [eauto|].
      constructor; cbn; auto; rewrite ?EQ; auto.
      * destruct S4 as (n & C1 & C2 & C3 & C4). exists n. split; [exact C1|]. split; [exact C2|].
        split; [|exact C4]. intros f o H. destruct (C3 f o H) as [X|X]; [auto|discriminate].
    + assert (INC : forall e, In e (trace s) -> In e (trace s ++ [EStart f])) by (intros; apply in_or_app; auto).
      destruct (S5 f b) as (QB & w & HW); [left; reflexivity|].
      apply (mgr_assemble s); cbn; auto; try congruence; [eauto|].
      constructor; ctx.
      * apply ok_trace_snoc; [exact S1|]. exists (map fst q). exact S3.
      * rewrite puts_snoc. cbn. rewrite app_nil_r. exact S2.
      * rewrite puts_snoc, starts_snoc. cbn. rewrite app_nil_r, <- app_assoc. exact S3.
      * destruct S4 as (n & C1 & C2 & C3 & C4). cbn in C1. rewrite app_nil_r in C1.
        exists n. rewrite starts_snoc, C1. cbn. split; [reflexivity|]. split; [|split; [|exact C4]].
        -- intros g HG. destruct (C2 g HG) as (o & H1 & H2). exists o. auto.
        -- intros g o HG. apply in_app_or in HG. destruct HG as [HG|[HG|[]]]; [|discriminate].
           destruct (C3 g o HG) as [X|X]; [auto|discriminate].
      * intros g b' HG. destruct (S5 g b') as (Q & w' & HW'); [right; exact HG|]. split; [exact Q|]. exists w'. auto.
      * split; [reflexivity|]. split; [exact QB|]. exists w, b. auto.
  - (* MRun *)
    destruct S6 as (-> & Q & w & b & HB & HY).
    destruct Q as [v|e|k Q].
    { cbn in S. injection S as <-. apply (store_step s f (Val v) w b (Done (Val v))); auto; [apply HY; constructor|discriminate]. }
    { cbn in S. injection S as <-. apply (store_step s f (Raised e) w b (Done (Raised e))); auto; [apply HY; constructor|discriminate]. }
    (* Oracle *)
    cbn in S. injection S as <-. apply (mgr_assemble s); cbn; auto; try congruence; [eauto|].
    constructor; ctx; auto.
    + destruct S4 as (n & C1 & C2 & C3 & C4). exists n. split; [exact C1|]. split; [exact C2|]. split; [|exact C4].
      intros g o HG. destruct (C3 g o HG) as [X|X]; [auto|discriminate].
    + split; [reflexivity|]. split; [apply Q|]. exists w, b. split; [exact HB|]. intros o HO. apply HY. econstructor. exact HO.
  - (* MStored *)
    destruct S6 as (o & H1 & H2 & H3). rewrite H2 in S. injection S as <-.
    pose proof (nth_lt _ _ _ H2) as LF. destruct S4 as (n & C1 & C2 & C3 & C4). cbn in C1.
    assert (FN : f = n).
    { apply (seq_current (List.length (futs s)) n f (map fst (queue s))). rewrite <- C1, <- S3. auto. }
    assert (SH' : shared (mkSys (pl s) (ml s) (spol s) MTest (queue s) (upd f (mkFut (Some (stored_of o)) true) (futs s)) (map (wake f) (threads s)) (trace s))).
    { constructor; ctx; auto.
      - rewrite upd_length. exact S2.
      - exists (S n). cbn [current]. rewrite app_nil_r, seq_S, C1, FN. split; [reflexivity|]. split; [|split].
        + intros g HG. destruct (Nat.eq_dec f g) as [<-|NG].
          * exists o. rewrite <- FN, upd_eq by exact LF. auto.
          * destruct (C2 g) as (o' & X1 & X2); [lia|]. exists o'. rewrite upd_neq by lia. auto.
        + intros g o' HG. destruct (C3 g o' HG) as [X|X]; [left; lia|injection X as <-; left; lia].
        + intros g x HG HR. destruct (Nat.eq_dec f g) as [<-|NG]; [lia|]. rewrite upd_neq in HG by lia. specialize (C4 g x HG HR). lia. }
    constructor; ctx; auto.
    + intros t p z HT. rewrite nth_error_map in HT. destruct (nth_error (threads s) t) as [[p0 z0]|] eqn:ET; [|discriminate].
      cbn in HT. pose proof (i_threads s I t p0 z0 ET) as TO.
      assert (PE : p = p0 /\ (z = true -> z0 = true /\ forall k, p0 <> Await f k)).
      { unfold wake in HT. cbn in HT. destruct p0; try (injection HT as <- <-; split; [reflexivity|]; intros Z; split; [exact Z|discriminate]).
        destruct (Nat.eqb_spec f0 f) as [->|NF]; injection HT as <- <-; split; try reflexivity; [discriminate|].
        intros Z. split; [exact Z|]. intros k0. congruence. }
      destruct PE as [-> PZ]. destruct TO as [T1 T2]. constructor.
      * destruct T1 as (fs & hp & hm & kn & D & P & M & F & ON & OFF). exists fs, hp, hm, kn. ctx. repeat (split; [assumption|]).
        split; [discriminate|]. intros K. destruct (OFF K) as [_ X]. rewrite EM in X. discriminate.
      * intros Z. destruct (PZ Z) as [Z0 NA]. destruct (T2 Z0) as (g & k & x & -> & HX & HR). exists g, k, x. ctx.
        split; [reflexivity|]. split; [|exact HR]. rewrite upd_neq; [exact HX|]. intros ->. apply (NA k). reflexivity.
    + intros w HW. rewrite map_length. apply (i_pl s I w HW).
    + intros w HW. rewrite map_length. apply (i_ml s I w HW).
Qed.

Lemma step_inv s w a s' : inv s -> step w a s = Some s' -> inv s'.
Proof.
  intros I S. destruct w as [|t]; [apply (manager_step s a); assumption|]. cbn in S.
  destruct (nth_error (threads s) t) as [[p [|]]|] eqn:N; try discriminate.
  destruct (pstep (Cl t) a s p) as [[[s1 p1] z1]|] eqn:E; [|discriminate]. injection S as <-.
  apply (client_step s t a p); assumption.
Qed.
Lemma run_inv : forall sch s s', inv s -> run sch s = Some s' -> inv s'.
Proof.
  induction sch as [|[w a] r IH]; intros s s' I R; cbn in R; [injection R as <-; exact I|].
  destruct (step w a s) as [s1|] eqn:E; [|discriminate]. apply (IH s1); [|exact R]. apply (step_inv s w a); assumption.
Qed.

(** ** No deadlock *)
Definition a0 : result pol := Ok (false, 0%nat).
Lemma steps_client s t p k s' p' z' : nth_error (threads s) t = Some (p, false) ->
  pstep (Cl t) k s p = Some (s', p', z') -> step (Cl t) k s <> None.
Proof. intros N E. cbn. rewrite N, E. discriminate. Qed.

Lemma stuck_done s : inv s -> (forall w, step w a0 s = None) -> complete s.
Proof.
  intros I ST. pose proof (i_shared s I) as SH. pose proof (ST Mgr) as SM. cbn in SM.
  destruct (i_current s SH) as (n & C1 & C2 & C3 & C4).
  (* the manager has nothing to do *)
  assert (MQ : queue s = [] /\ current (smgr s) = [] /\ (smgr s = MOff -> futs s = [])).
  { pose proof (i_mgr s SH) as IG. destruct (smgr s) as [| | |f p z|f|] eqn:EM; try contradiction.
    - pose proof (i_puts s SH) as E1. rewrite (i_starts s SH), IG in E1. cbn in E1. apply app_eq_nil in E1.
      destruct E1 as [_ E1]. apply map_eq_nil in E1. auto.
    - destruct (queue s) as [|[f b] q]; discriminate.
    - split; [exact IG|]. split; [reflexivity|discriminate].
    - destruct IG as (-> & Q & _). destruct Q; discriminate.
    - destruct IG as (o & _ & H & _). rewrite H in SM. discriminate. }
  destruct MQ as (MQ & MC & MOFF).
  assert (ALL : forall f x, nth_error (futs s) f = Some x -> exists o, x = mkFut (Some o) true).
  { intros f x H. pose proof (nth_lt _ _ _ H) as L.
    pose proof (i_puts s SH) as E1. rewrite (i_starts s SH), C1, MQ, MC in E1. cbn in E1. rewrite !app_nil_r in E1.
    apply (f_equal (@List.length nat)) in E1. rewrite !seq_length in E1. destruct (C2 f) as (o & _ & H2 & _); [lia|].
    rewrite H in H2. injection H2 as ->. eauto. }
  (* a thread that has not ended is at a lock that is taken *)
  assert (BL : forall t p z, nth_error (threads s) t = Some (p, z) ->
            (exists o, p = Done o) \/ (exists k, p = Acq PL k /\ pl s <> None) \/ (exists k, p = Acq ML k /\ ml s <> None)).
  { intros t p z H. destruct (i_threads s I t p z H) as [(fs & hp & hm & kn & D & P & M & F & ON & OFF) A].
    destruct z.
    { destruct (A eq_refl) as (f & k & x & -> & HX & HR). destruct (ALL f x HX) as [o ->]. discriminate. }
    pose proof (ST (Cl t)) as SC. cbn in SC. rewrite H in SC.
    destruct D; cbn in SC; eauto.
    - right. left. exists k. split; [reflexivity|]. destruct (pl s); [discriminate|discriminate].
    - right. right. exists k. split; [reflexivity|]. destruct (ml s); [discriminate|discriminate].
    - discriminate.
    - discriminate.
    - exfalso. specialize (ON eq_refl). destruct (smgr s); try discriminate. congruence.
    - destruct (nth_error (futs s) f) as [[[o|] [|]]|]; discriminate.
    - discriminate.
    - discriminate.
    - discriminate.
    - discriminate. }
  (* the locks are free *)
  assert (EML : ml s = None).
  { destruct (ml s) as [w|] eqn:EM; [|reflexivity]. exfalso. destruct (i_ml s I w EM) as (t & -> & LT).
    destruct (nth_error (threads s) t) as [[p z]|] eqn:N; [|apply nth_error_None in N; lia].
    destruct (i_threads s I t p z N) as [(fs & hp & hm & kn & D & P & M & _) _]. assert (hm = true) as -> by (apply M; exact EM).
    destruct (BL t p z N) as [(o & ->)|[(k & -> & _)|(k & -> & _)]]; inversion D. }
  assert (EPL : pl s = None).
  { destruct (pl s) as [w|] eqn:EP; [|reflexivity]. exfalso. destruct (i_pl s I w EP) as (t & -> & LT).
    destruct (nth_error (threads s) t) as [[p z]|] eqn:N; [|apply nth_error_None in N; lia].
    destruct (i_threads s I t p z N) as [(fs & hp & hm & kn & D & P & M & _) _]. assert (hp = true) as -> by (apply P; exact EP).
    destruct (BL t p z N) as [(o & ->)|[(k & -> & _)|(k & -> & X)]]; [inversion D|inversion D|congruence]. }
  split; [|split; [exact MQ|split; [|split; [|auto]]]].
  - intros p z H. apply In_nth_error in H. destruct H as [t H].
    destruct (BL t p z H) as [X|[(k & -> & X)|(k & -> & X)]]; [exact X|congruence..].
  - rewrite (i_starts s SH), MQ. cbn. rewrite app_nil_r. reflexivity.
  - intros f H. rewrite (i_starts s SH), C1, MQ, MC in H. cbn in H. rewrite !app_nil_r in H. apply in_seq in H.
    destruct (C2 f) as (o & X & _); [lia|]. eauto.
Qed.
