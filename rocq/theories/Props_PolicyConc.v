(** C140: threads that change the cache settings; the policy and the manager that follow them. *)
From Verif Require Import PyBase PolicyConc PolicyConcProofs PolicyConcProofs2 PolicyConcProofs3.
Set Default Proof Using "Type".
Local Open Scope nat_scope.

Section C140.
  Variable V : Type.
  Variable same : V -> V -> bool.
  Hypothesis same_ok : forall a b, same a b = true <-> a = b.
  Variable named : V -> kind.
  Variable c : key -> V.
  Variable progs : nat -> list (list (key * V)).
  Notation begin := (PolicyConc.begin V named c progs).
  Notation run := (PolicyConc.run V same named).

  (** Once nobody is telling the cache about a change, the directory of the policy is the configured one
      for its class, and its policy name is the configured one. *)
  Theorem C140_directory sched (g := run sched begin) :
    ended V g ->
    exists i, cur V g = Some i /\
      conf_of V (heap V g i) Kpol = conf V g Kpol /\
      (klass V (heap V g i) = User -> conf_of V (heap V g i) Kuser = conf V g Kuser) /\
      (klass V (heap V g i) = Tmp -> conf_of V (heap V g i) Ktmp = conf V g Ktmp).
  Proof using same_ok.
    intros HE. assert (J V g) as HJ by (apply run_J; [exact same_ok|apply begin_J]).
    destruct (cur V g) as [i|] eqn:EC.
    2:{ destruct (Jn V g HJ EC) as [t Ht]. rewrite HE in Ht. discriminate. }
    exists i. split; [reflexivity|].
    assert (forall k, In k (checked (klass V (heap V g i))) -> conf_of V (heap V g i) k = conf V g k) as HD.
    { intros k Hk. destruct (Jd V g HJ i k EC Hk) as [H|(t & H)]; [exact H|]. rewrite HE in H. destruct H. }
    split; [apply HD; destruct (klass V (heap V g i)); left; reflexivity|].
    split; intros HK; rewrite HK in HD; apply HD; right; left; reflexivity.
  Qed.

  (** The manager then has a copy of that very policy object, with its directory. *)
  Theorem C140_manager sched (g := run sched begin) :
    ended V g ->
    exists i, cur V g = Some i /\
      (klass V (heap V g i) <> Off ->
       exists o, told V g = Some (i, o) /\ klass V o = klass V (heap V g i) /\
         (klass V o = User -> conf_of V o Kuser = conf V g Kuser) /\
         (klass V o = Tmp -> conf_of V o Ktmp = conf V g Ktmp)).
  Proof using same_ok.
    intros HE. destruct (C140_directory sched HE) as (i & EC & _ & HU & HT). fold g in EC, HU, HT.
    exists i. split; [exact EC|]. intros HK.
    assert (J V g) as HJ by (apply run_J; [exact same_ok|apply begin_J]).
    destruct (Jt V g HJ i EC) as [(o & O1 & O2 & O3)|(t & H)].
    - destruct (klass V (heap V g i)); [contradiction|reflexivity|reflexivity].
    - exists o. split; [exact O1|]. split; [exact O2|]. rewrite O2. split; intros H.
      + rewrite O3; [apply HU; exact H|]. rewrite H. right. left. reflexivity.
      + rewrite O3; [apply HT; exact H|]. rewrite H. right. left. reflexivity.
    - rewrite HE in H. discriminate.
  Qed.

  (** If nobody changes the name of the policy, the class is the one of that name, at any time. *)
  Theorem C140_class_partial sched i (g := run sched begin) :
    (forall t, Forall (Forall (fun kv => fst kv <> Kpol)) (progs t)) ->
    cur V g = Some i -> klass V (heap V g i) = named (conf V g Kpol).
  Proof.
    intros HP _. assert (K V named (c Kpol) g) as HK.
    { apply run_K. constructor; [reflexivity|reflexivity|]. intros t. split; [exact I|apply HP]. }
    rewrite (Kc V named _ g HK). apply (Kh V named _ g HK).
  Qed.

  (** Nobody waits for ever: from any moment the threads can be brought to their ends. *)
  Theorem C140_can_finish sched n :
    (forall t, n <= t -> progs t = []) ->
    exists more, let g := run (sched ++ more) begin in
      forall t, at_ V (thr V g t) = Rest /\ todo V (thr V g t) = [].
  Proof using same_ok.
    intros HN. set (g0 := run sched begin).
    assert (forall t, n <= t -> PolicyConcProofs2.size V (thr V g0 t) = 0) as HO.
    { unfold g0. clear g0. intros t Ht.
      assert (forall sched g, PolicyConcProofs2.size V (thr V g t) = 0 -> PolicyConcProofs2.size V (thr V (run sched g) t) = 0) as HS.
      { clear sched. induction sched as [|u s IH]; intros g H; [exact H|]. apply IH.
        destruct (Nat.eq_dec t u) as [->|N]; [|rewrite step_others by exact N; exact H].
        unfold PolicyConcProofs2.size in H |- *. unfold PolicyConc.step.
        destruct (at_ V (thr V g u)) eqn:E; cbn in H; try lia.
        destruct (todo V (thr V g u)) eqn:ET; [rewrite E, ET; reflexivity|cbn in H; lia]. }
      apply HS. unfold PolicyConcProofs2.size. cbn. rewrite HN by exact Ht. reflexivity. }
    destruct (can_finish V same same_ok named n g0) as (more & HM); [apply run_J; [exact same_ok|apply begin_J]|exact HO|].
    exists more. cbv zeta. unfold PolicyConc.run. rewrite fold_left_app. intros t. specialize (HM t).
    unfold PolicyConc.run, g0 in HM. unfold PolicyConcProofs2.size in HM.
    set (th := thr V _ t) in *. clearbody th. destruct (at_ V th); cbn in HM; try lia.
    split; [reflexivity|]. destruct (todo V th); [reflexivity|cbn in HM; lia].
  Qed.

  (** A change made while nobody else makes one: everything follows, also the sizes. *)
  Theorem C140_alone sched t a cs (g := run sched begin) :
    agree V named g -> thr V g t = mkThr V Rest (a :: cs) ->
    exists m, let g' := run (repeat t m) g in
      thr V g' t = mkThr V Rest cs /\
      conf V g' = fold_left (fun c kv => fun k => if key_eqb k (fst kv) then snd kv else c k) a (conf V g) /\
      faults V g' = faults V g /\
      exists i, cur V g' = Some i /\ klass V (heap V g' i) = named (conf V g' Kpol) /\
        (forall k, conf_of V (heap V g' i) k = conf V g' k) /\
        (klass V (heap V g' i) <> Off ->
         exists o, told V g' = Some (i, o) /\ klass V o = klass V (heap V g' i) /\ forall k, conf_of V o k = conf V g' k).
  Proof using same_ok.
    intros HA HT. destruct (alone V same same_ok named g t a cs HA) as (m & G1 & G2 & G3 & G4); [|exact HT|].
    { apply Jc, run_J; [exact same_ok|apply begin_J]. }
    exists m. cbv zeta in *. split; [exact G3|]. split; [exact G2|]. split; [exact G4|].
    destruct G1 as [_ _ (i & E1 & E2 & E3 & E4)]. exists i. split; [exact E1|]. split; [exact E2|]. split; [exact E3|].
    intros H. apply E4. destruct (klass V _); [contradiction|reflexivity|reflexivity].
  Qed.
End C140.

(** *** What goes wrong *)
Module C140Cases.
  Definition named (n : nat) : kind := match n with 0 => Off | 1 => User | _ => Tmp end.
  Definition start : key -> nat := fun k => match k with Kpol => 1 | _ => 0 end.
  Definition two (a b : list (list (key * nat))) : nat -> list (list (key * nat)) :=
    fun t => match t with 0 => a | 1 => b | _ => [] end.
  Notation run := (PolicyConc.run nat Nat.eqb named).
  Notation begin := (PolicyConc.begin nat named start).
  Lemma two_ended a b s : at_ nat (thr nat (run s (begin (two a b))) 0) = Rest -> at_ nat (thr nat (run s (begin (two a b))) 1) = Rest ->
    (forall t, In t s -> t < 2) -> ended nat (run s (begin (two a b))).
  Proof.
    intros H0 H1 HS t. destruct t as [|[|t]]; [exact H0|exact H1|].
    assert (forall s g, (forall t, In t s -> t < 2) -> thr nat (run s g) (S (S t)) = thr nat g (S (S t))) as HT.
    { clear. induction s as [|u s IH]; intros g H; [reflexivity|]. unfold PolicyConc.run. cbn [fold_left].
      change (thr nat (run s (step nat Nat.eqb named u g)) (S (S t)) = thr nat g (S (S t))).
      rewrite IH by (intros x Hx; apply H; right; exact Hx).
      apply step_others. pose proof (H u (or_introl eq_refl)). lia. }
    rewrite HT by exact HS. reflexivity.
  Qed.
End C140Cases.
Import C140Cases.

(** The name of the policy is read twice when a policy is made: a policy of class user with "off" configured,
    and nobody notices. *)
Theorem C140_class_refuted :
  exists s, let g := run s (begin (two [[(Kuser, 5)]] [[(Kpol, 0)]])) in
    ended nat g /\ exists i, cur nat g = Some i /\ klass nat (heap nat g i) = User /\ named (conf nat g Kpol) = Off.
Proof.
  exists (repeat 0 8 ++ [1; 1] ++ repeat 0 8 ++ repeat 1 17). split.
  - apply two_ended; [vm_compute; reflexivity|vm_compute; reflexivity|]. cbn. intros t H. repeat (destruct H as [<-|H]; [lia|]). destruct H.
  - exists 1. vm_compute. auto.
Qed.

(** update() is not under a lock: a thread stores the limit it read before another thread changed it. *)
Theorem C140_stale_refuted :
  exists s, let g := run s (begin (two [[(Ksize, 5)]] [[(Ksize, 7)]])) in
    ended nat g /\ conf nat g Ksize = 7 /\
    exists i o, cur nat g = Some i /\ conf_of nat (heap nat g i) Ksize = 5 /\ told nat g = Some (i, o) /\ conf_of nat o Ksize = 5.
Proof.
  exists (repeat 0 17 ++ repeat 1 22 ++ repeat 0 5). split; [|split].
  - apply two_ended; [vm_compute; reflexivity|vm_compute; reflexivity|]. cbn. intros t H. repeat (destruct H as [<-|H]; [lia|]). destruct H.
  - vm_compute. reflexivity.
  - exists 0. eexists. split; [vm_compute; reflexivity|]. split; [vm_compute; reflexivity|]. split; [vm_compute; reflexivity|]. vm_compute. reflexivity.
Qed.

(** update() compares and stores separate readings: the policy gets a new limit of which the manager is never told. *)
Theorem C140_untold_refuted :
  exists s, let g := run s (begin (two [[(Kdisk, 0)]] [[(Ksize, 7)]])) in
    ended nat g /\ conf nat g Ksize = 7 /\
    exists i o, cur nat g = Some i /\ conf_of nat (heap nat g i) Ksize = 7 /\ told nat g = Some (i, o) /\ conf_of nat o Ksize = 0.
Proof.
  exists (repeat 0 16 ++ [1; 1] ++ repeat 0 3 ++ repeat 1 17). split; [|split].
  - apply two_ended; [vm_compute; reflexivity|vm_compute; reflexivity|]. cbn. intros t H. repeat (destruct H as [<-|H]; [lia|]). destruct H.
  - vm_compute. reflexivity.
  - exists 0. eexists. split; [vm_compute; reflexivity|]. split; [vm_compute; reflexivity|]. split; [vm_compute; reflexivity|]. vm_compute. reflexivity.
Qed.

(** A thread that changes a limit while another changes the directory gets an AttributeError. *)
Theorem C140_fault_refuted :
  exists s, let g := run s (begin (two [[(Kuser, 5)]] [[(Ksize, 7)]])) in
    ended nat g /\ faults nat g = 1.
Proof.
  exists (repeat 1 21 ++ repeat 0 8 ++ [1] ++ repeat 0 8). split; [|vm_compute; reflexivity].
  apply two_ended; [vm_compute; reflexivity|vm_compute; reflexivity|]. cbn. intros t H. repeat (destruct H as [<-|H]; [lia|]). destruct H.
Qed.

(** *** The hypotheses can be met *)
Example C140_ended_case :
  let g := run (repeat 0 16 ++ repeat 1 40) (begin (two [[(Kuser, 5)]] [[(Kpol, 2); (Ksize, 3)]])) in
  ended nat g /\ exists i, cur nat g = Some i /\ klass nat (heap nat g i) = Tmp /\ conf_of nat (heap nat g i) Ksize = 3.
Proof.
  split; [|exists 2; vm_compute; auto].
  apply two_ended; [vm_compute; reflexivity|vm_compute; reflexivity|]. cbn. intros t H. repeat (destruct H as [<-|H]; [lia|]). destruct H.
Qed.
Example C140_agree_case : agree nat named (run [] (begin (two [[(Kuser, 5)]] []))).
Proof. constructor; [reflexivity|reflexivity|]. exists 0. repeat split. intros _. eexists. repeat split. Qed.
Example C140_class_case : forall t, Forall (Forall (fun kv => fst kv <> Kpol)) (two [[(Kuser, 5)]] [[(Ksize, 7)]] t).
Proof. intros t. destruct t as [|[|t]]; cbn; repeat constructor; discriminate. Qed.

Print Assumptions C140_directory.
Print Assumptions C140_manager.
Print Assumptions C140_class_partial.
Print Assumptions C140_can_finish.
Print Assumptions C140_alone.
Print Assumptions C140_class_refuted.
Print Assumptions C140_stale_refuted.
Print Assumptions C140_untold_refuted.
Print Assumptions C140_fault_refuted.
