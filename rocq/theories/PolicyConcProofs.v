(** Invariants of PolicyConc.v over all schedules. *)
From Verif Require Import PyBase PolicyConc.
Set Default Proof Using "Type".
Local Open Scope nat_scope.

Section Proofs.
  Variable V : Type.
  Variable same : V -> V -> bool.
  Hypothesis same_ok : forall a b, same a b = true <-> a = b.
  Variable named : V -> kind.
  Notation sys := (PolicyConc.sys V).
  Notation place := (PolicyConc.place V).
  Notation step := (PolicyConc.step V same named).
  Notation run := (PolicyConc.run V same named).
  Notation at_ := (PolicyConc.at_ V).
  Notation thr := (PolicyConc.thr V).
  Notation conf := (PolicyConc.conf V).
  Notation heap := (PolicyConc.heap V).
  Notation next := (PolicyConc.next V).
  Notation cur := (PolicyConc.cur V).
  Notation told := (PolicyConc.told V).
  Notation plock := (PolicyConc.plock V).
  Notation mlock := (PolicyConc.mlock V).
  Notation klass := (PolicyConc.klass V).
  Notation conf_of := (PolicyConc.conf_of V).

  Definition holdsP (p : place) : bool :=
    match p with Out2 _ _ | Build _ _ _ _ | WantM _ | TellP _ => true | _ => false end.
  Definition holdsM (p : place) : bool := match p with TellP _ | Tell2 _ => true | _ => false end.
  Definition building (p : place) : bool := match p with Build _ _ _ _ => true | _ => false end.
  Definition telling (p : place) : bool := match p with WantM _ | TellP _ => true | _ => false end.
  Definition early (p : place) : bool := match p with Setting _ _ => true | _ => false end.
  (** The thread will still compare option [k] of object [i]. *)
  Definition duty (i : nat) (k : key) (p : place) : Prop :=
    match p with
    | Setting _ _ | WantP _ => True
    | Out1 _ j ks => j = i /\ In k ks
    | Out2 _ ks => In k ks
    | _ => False
    end.
  Definition refers (p : place) : option nat :=
    match p with Out1 _ i _ | Cmp _ i _ _ | Fetch _ i _ _ _ | Store _ i _ _ _ _ => Some i | _ => None end.
  Definition writes (p : place) : option (nat * key) :=
    match p with Fetch _ i k _ _ | Store _ i k _ _ _ => Some (i, k) | _ => None end.

  Record J (g : sys) : Prop := mkJ {
    Jp : forall t, holdsP (at_ (thr g t)) = true <-> plock g = Some t;
    Jm : forall t, holdsM (at_ (thr g t)) = true <-> mlock g = Some t;
    Jb : forall t, building (at_ (thr g t)) = true -> cur g = None;
    Jn : cur g = None -> exists t, building (at_ (thr g t)) = true;
    Jc : forall i, cur g = Some i -> i < next g;
    Jr : forall t i, refers (at_ (thr g t)) = Some i -> i < next g;
    Jw : forall t i k, writes (at_ (thr g t)) = Some (i, k) -> is_checked (klass (heap g i)) k = false;
    Jd : forall i k, cur g = Some i -> In k (checked (klass (heap g i))) ->
           conf_of (heap g i) k = conf g k \/ exists t, duty i k (at_ (thr g t));
    Ju : forall t c ks acc, at_ (thr g t) = Build _ c ks acc -> forall k, ~ In k ks ->
           acc k = conf g k \/ exists u, early (at_ (thr g u)) = true;
    Jt : forall i, cur g = Some i -> managed (klass (heap g i)) = true ->
           (exists o, told g = Some (i, o) /\ klass o = klass (heap g i) /\
              forall k, In k (checked (klass (heap g i))) -> conf_of o k = conf_of (heap g i) k)
           \/ exists t, telling (at_ (thr g t)) = true }.

  Lemma key_eqb_ok a b : key_eqb a b = true <-> a = b.
  Proof. destruct a, b; cbn; split; congruence. Qed.
  Lemma checked_in c k : In k (checked c) -> is_checked c k = true.
  Proof. unfold is_checked. intros H. apply existsb_exists. exists k. split; [exact H|]. apply key_eqb_ok. reflexivity. Qed.
  Lemma cupd_same (c : cfg V) k v : cupd V c k v k = v.
  Proof. unfold cupd. replace (key_eqb k k) with true; [reflexivity|]. symmetry. apply key_eqb_ok. reflexivity. Qed.
  Lemma cupd_other (c : cfg V) k v x : x <> k -> cupd V c k v x = c x.
  Proof. intros N. unfold cupd. destruct (key_eqb x k) eqn:E; [apply key_eqb_ok in E; contradiction|reflexivity]. Qed.

  Lemma begin_J c progs : J (begin V named c progs).
  Proof.
    constructor; cbn; try discriminate; try (intros; split; discriminate).
    - intros i [= <-]. lia.
    - auto.
    - intros i [= <-] HM. left. rewrite HM. eexists. repeat split; reflexivity.
  Qed.

  (** A thread moves; what it does to the rest is described by the new values. *)
  Lemma moves g t p p' c' h' n' cu' to' pl' ml' fa' (th' : nat -> PolicyConc.thread V) :
    J g -> at_ (thr g t) = p ->
    (forall x, at_ (th' x) = if Nat.eqb x t then p' else at_ (thr g x)) ->
    (* locks *)
    (forall u, u <> t -> holdsP (at_ (thr g u)) = true -> pl' = Some u) ->
    (pl' = if holdsP p' then Some t else if holdsP p then None else plock g) ->
    (ml' = if holdsM p' then Some t else if holdsM p then None else mlock g) ->
    (holdsM p' = true -> holdsM p = true \/ mlock g = None) ->
    (* objects *)
    (building p' = true -> cu' = None) ->
    (cu' = None -> building p' = true \/ (cur g = None /\ building p = false)) ->
    (cu' <> None -> forall u, u <> t -> building (at_ (thr g u)) = false) ->
    next g <= n' ->
    (forall i, cu' = Some i -> i < n') ->
    (forall i, refers p' = Some i -> i < n') ->
    (forall i k, writes p' = Some (i, k) -> is_checked (klass (h' i)) k = false) ->
    (forall i, i < next g -> klass (h' i) = klass (heap g i)) ->
    (* what is in force *)
    (forall i k, cu' = Some i -> In k (checked (klass (h' i))) ->
       conf_of (h' i) k = c' k \/ duty i k p' \/ exists u, u <> t /\ duty i k (at_ (thr g u))) ->
    (forall u c ks acc k, (if Nat.eqb u t then p' else at_ (thr g u)) = Build _ c ks acc -> ~ In k ks ->
       acc k = c' k \/ early p' = true \/ exists u, u <> t /\ early (at_ (thr g u)) = true) ->
    (forall i, cu' = Some i -> managed (klass (h' i)) = true ->
       (exists o, to' = Some (i, o) /\ klass o = klass (h' i) /\
          forall k, In k (checked (klass (h' i))) -> conf_of o k = conf_of (h' i) k)
       \/ telling p' = true \/ exists u, u <> t /\ telling (at_ (thr g u)) = true) ->
    J (mkSys V c' h' n' cu' to' pl' ml' th' fa').
  Proof.
    intros HJ Hp HA L1 L2 L3 L4 B1 B2 B3 N1 N2 N3 W1 K1 D1 U1 T1.
    destruct HJ as [jp jm jb jn jc jr jw jd ju jt].
    assert (forall (f : place -> Prop), (f p' \/ exists u, u <> t /\ f (at_ (thr g u))) -> exists u, f (at_ (th' u))) as EX.
    { intros f [H|(u & Hu & H)].
      - exists t. rewrite HA, Nat.eqb_refl. exact H.
      - exists u. rewrite HA. destruct (Nat.eqb_spec u t); [contradiction|exact H]. }
    constructor; cbn [PolicyConc.conf PolicyConc.heap PolicyConc.next PolicyConc.cur PolicyConc.told PolicyConc.plock PolicyConc.mlock PolicyConc.thr].
    - intros u. rewrite HA. destruct (Nat.eqb_spec u t) as [->|Hu].
      + rewrite L2. destruct (holdsP p') eqn:E; [tauto|]. split; [discriminate|]. destruct (holdsP p) eqn:E2; [discriminate|].
        intros H. apply jp in H. congruence.
      + split; [apply L1; exact Hu|]. rewrite L2. destruct (holdsP p'); [intros [= ->]; contradiction|].
        destruct (holdsP p); [discriminate|]. apply jp.
    - intros u. rewrite HA. destruct (Nat.eqb_spec u t) as [->|Hu].
      + rewrite L3. destruct (holdsM p') eqn:E; [tauto|]. split; [discriminate|]. destruct (holdsM p) eqn:E2; [discriminate|].
        intros H. apply jm in H. congruence.
      + rewrite L3. split.
        * intros H. apply jm in H. destruct (holdsM p') eqn:E.
          { destruct (L4 eq_refl) as [H2|H2]; [|congruence]. rewrite <- Hp in H2. apply jm in H2. congruence. }
          destruct (holdsM p) eqn:E2; [rewrite <- Hp in E2; apply jm in E2; congruence|exact H].
        * destruct (holdsM p'); [intros [= ->]; contradiction|]. destruct (holdsM p); [discriminate|]. apply jm.
    - intros u. rewrite HA. destruct (Nat.eqb_spec u t) as [->|Hu]; [exact B1|]. intros H.
      destruct cu' as [i|]; [|reflexivity]. rewrite B3 in H; [discriminate|discriminate|exact Hu].
    - intros H. apply (EX (fun q => building q = true)). destruct (B2 H) as [H2|[H2 H3]]; [left; exact H2|right]. destruct (jn H2) as [u Hu].
      exists u. split; [|exact Hu]. intros ->. congruence.
    - exact N2.
    - intros u i. rewrite HA. destruct (Nat.eqb_spec u t) as [->|Hu]; [apply N3|]. intros H. exact (Nat.lt_le_trans _ _ _ (jr u i H) N1).
    - intros u i k. rewrite HA. destruct (Nat.eqb_spec u t) as [->|Hu]; [apply W1|]. intros H.
      rewrite K1; [apply (jw u); exact H|]. apply (jr u). destruct (at_ (thr g u)); cbn in *; try discriminate; congruence.
    - intros i k H1 H2. destruct (D1 i k H1 H2) as [H|H]; [left; exact H|right]. apply (EX (duty i k)). exact H.
    - intros u c ks acc H k Hk. rewrite HA in H. destruct (U1 u c ks acc k H Hk) as [H2|H2]; [left; exact H2|right].
      apply (EX (fun p => early p = true)). exact H2.
    - intros i H1 H2. destruct (T1 i H1 H2) as [H|H]; [left; exact H|right]. apply (EX (fun p => telling p = true)). exact H.
  Qed.

  Lemma others_hold g t p p' pl' : J g -> at_ (thr g t) = p ->
    (holdsP p' = true -> holdsP p = true \/ plock g = None) ->
    (pl' = if holdsP p' then Some t else if holdsP p then None else plock g) ->
    forall u, u <> t -> holdsP (at_ (thr g u)) = true -> pl' = Some u.
  Proof.
    intros HJ Hp H1 -> u Hu H. pose proof (proj1 (Jp g HJ u) H) as HU.
    destruct (holdsP p) eqn:E.
    - rewrite <- Hp in E. apply (Jp g HJ) in E. congruence.
    - destruct (holdsP p'); [|exact HU]. destruct (H1 eq_refl); congruence.
  Qed.

  Lemma shift g t p p' pl' ml' fa' (th' : nat -> PolicyConc.thread V) :
    J g -> at_ (thr g t) = p ->
    (forall x, at_ (th' x) = if Nat.eqb x t then p' else at_ (thr g x)) ->
    (pl' = if holdsP p' then Some t else if holdsP p then None else plock g) ->
    (ml' = if holdsM p' then Some t else if holdsM p then None else mlock g) ->
    (holdsP p' = true -> holdsP p = true \/ plock g = None) ->
    (holdsM p' = true -> holdsM p = true \/ mlock g = None) ->
    building p' = building p ->
    (forall i, refers p' = Some i -> i < next g) ->
    (forall i k, writes p' = Some (i, k) -> is_checked (klass (heap g i)) k = false) ->
    (forall i k, cur g = Some i -> In k (checked (klass (heap g i))) -> duty i k p ->
       conf_of (heap g i) k = conf g k \/ duty i k p') ->
    (forall c ks acc k, p' = Build _ c ks acc -> ~ In k ks ->
       acc k = conf g k \/ exists u, u <> t /\ early (at_ (thr g u)) = true) ->
    (early p = true -> early p' = true \/ plock g = None) ->
    (telling p = true -> telling p' = true) ->
    J (mkSys V (conf g) (heap g) (next g) (cur g) (told g) pl' ml' th' fa').
  Proof.
    intros HJ Hp HA L2 L3 L1 L4 HB HR HW HD HU HE HT.
    apply (moves g t p p'); try assumption.
    - apply (others_hold g t p p'); assumption.
    - intros H. rewrite HB, <- Hp in H. apply (Jb g HJ t H).
    - intros H. destruct (building p) eqn:E; [left; exact HB|right; split; [exact H|reflexivity]].
    - intros H u _. destruct (building (at_ (thr g u))) eqn:E; [|reflexivity]. destruct H. apply (Jb g HJ u E).
    - apply Nat.le_refl.
    - apply (Jc g HJ).
    - reflexivity.
    - intros i k H1 H2. destruct (Jd g HJ i k H1 H2) as [H|(u & H)]; [left; exact H|].
      destruct (Nat.eq_dec u t) as [->|Hu].
      + rewrite Hp in H. destruct (HD i k H1 H2 H); auto.
      + right. right. exists u. auto.
    - intros u c ks acc k H Hk. destruct (Nat.eqb_spec u t) as [->|Hu].
      + destruct (HU c ks acc k H Hk) as [H2|H2]; auto.
      + destruct (Ju g HJ u c ks acc H k Hk) as [H2|(v & H2)]; [auto|].
        destruct (Nat.eq_dec v t) as [->|Hv]; [|right; right; exists v; auto].
        rewrite Hp in H2. destruct (HE H2) as [H3|H3]; [auto|].
        exfalso. assert (plock g = Some u) by (apply (Jp g HJ); rewrite H; reflexivity). congruence.
    - intros i H1 H2. destruct (Jt g HJ i H1 H2) as [H|(u & H)]; [left; exact H|right].
      destruct (Nat.eq_dec u t) as [->|Hu]; [left; apply HT; rewrite <- Hp; exact H|right; exists u; auto].
  Qed.

  Lemma put_at (g : sys) t p x : at_ (put V g t p x) = if Nat.eqb x t then p else at_ (thr g x).
  Proof. unfold put. destruct (Nat.eqb x t); reflexivity. Qed.

  Lemma step_J t g : J g -> J (step t g).
  Proof using same_ok.
    intros HJ. unfold PolicyConc.step. destruct (at_ (thr g t)) as
      [|[|[k v] a]|i [|k ks]| |[|k ks]|c [|k ks] acc| | | |i [|k ks] ch|i k ks ch|i k v ks ch| | |] eqn:E.
    - (* Rest *) destruct (PolicyConc.todo V (thr g t)) as [|c cs]; [exact HJ|].
      apply (shift g t Rest (Setting V c)); try assumption; try reflexivity; try discriminate; cbn; try tauto.
      intros x. destruct (Nat.eqb x t); reflexivity.
    - (* Setting [] *) unfold with_cur. destruct (plock g) eqn:EP; [exact HJ|]. destruct (cur g) as [i|] eqn:EC; [|exact HJ].
      unfold goes. rewrite EP.
      apply (shift g t (Setting V []) (Out1 V i (checked (klass (heap g i))))); try assumption; try reflexivity; try discriminate; cbn; try tauto.
      + apply put_at.
      + congruence.
      + intros i' [= <-]. apply (Jc g HJ). exact EC.
      + intros i' k H1 H2 _. right. assert (i = i') by congruence. subst. auto.
    - (* Setting *)
      apply (moves g t (Setting V ((k, v) :: a)) (Setting V a)); try assumption; try reflexivity; try discriminate; cbn; try tauto; try apply Nat.le_refl.
      + apply put_at.
      + apply (others_hold g t (Setting V ((k, v) :: a)) (Setting V a)); auto.
      + intros H u _. destruct (building (at_ (thr g u))) eqn:EB; [|reflexivity]. destruct H. apply (Jb g HJ u EB).
      + apply (Jc g HJ).
      + intros i H1 H2. destruct (Jt g HJ i H1 H2) as [H|(u & H)]; [left; exact H|right; right].
        exists u. split; [|exact H]. intros ->. rewrite E in H. discriminate.
    - (* Out1 [] *) apply (shift g t (Out1 V i []) (Get2 V)); try assumption; try reflexivity; try discriminate; cbn; try tauto. apply put_at.
    - (* Out1 *) destruct (same (conf_of (heap g i) k) (conf g k)) eqn:ES.
      + apply (shift g t (Out1 V i (k :: ks)) (Out1 V i ks)); try assumption; try reflexivity; try discriminate; cbn; try tauto.
        * apply put_at.
        * intros i' [= <-]. apply (Jr g HJ t). rewrite E. reflexivity.
        * intros i' k' H1 H2 [-> [->|H3]]; [left; apply same_ok; exact ES|right; auto].
      + apply (shift g t (Out1 V i (k :: ks)) (WantP V)); try assumption; try reflexivity; try discriminate; cbn; try tauto.
        apply put_at.
    - (* WantP *) destruct (plock g) eqn:EP; [exact HJ|]. destruct (cur g) as [i|] eqn:EC; [|exact HJ]. rewrite <- EC.
      apply (shift g t (WantP V) (Out2 V (checked (klass (heap g i))))); try assumption; try reflexivity; try discriminate; cbn; try tauto.
      + apply put_at.
      + intros i' k H1 H2 _. right. congruence.
    - (* Out2 [] *) apply (shift g t (Out2 V []) Rest); try assumption; try reflexivity; try discriminate; cbn; try tauto. apply put_at.
    - (* Out2 *) destruct (cur g) as [i|] eqn:EC; [|exact HJ].
      assert (plock g = Some t) as EP by (apply (Jp g HJ); rewrite E; reflexivity).
      destruct (same (conf_of (heap g i) k) (conf g k)) eqn:ES.
      + apply (shift g t (Out2 V (k :: ks)) (Out2 V ks)); try assumption; try reflexivity; try discriminate; cbn; try tauto.
        * apply put_at.
        * intros i' k' H1 H2 [->|H3]; [left|right; exact H3]. apply same_ok. congruence.
      + apply (moves g t (Out2 V (k :: ks)) (Build V (named (conf g Kpol)) CACHE_KEYS (conf g)));
          try assumption; try reflexivity; try discriminate; cbn; try tauto; try apply Nat.le_refl.
        * apply put_at.
        * apply (others_hold g t (Out2 V (k :: ks)) (Out2 V ks)); auto.
        * intros u c' ks' acc k' H Hk. destruct (Nat.eqb_spec u t) as [->|Hu].
          { injection H as <- <- <-. auto. }
          exfalso. assert (plock g = Some u) by (apply (Jp g HJ); rewrite H; reflexivity). congruence.
    - (* Build [] *)
      assert (plock g = Some t) as EP by (apply (Jp g HJ); rewrite E; reflexivity).
      assert (forall u, u <> t -> building (at_ (thr g u)) = false) as HU.
      { intros u Hu. destruct (building (at_ (thr g u))) eqn:EB; [|reflexivity].
        assert (holdsP (at_ (thr g u)) = true) as HH by (destruct (at_ (thr g u)); cbn in *; congruence).
        apply (Jp g HJ) in HH. congruence. }
      assert (forall i k, Some (next g) = Some i ->
        In k (checked (klass (set_obj V (heap g) (next g) (mkObj V c acc) i))) ->
        conf_of (set_obj V (heap g) (next g) (mkObj V c acc) i) k = conf g k \/ False \/ exists u, u <> t /\ duty i k (at_ (thr g u))) as HD.
      { intros i k [= <-] _. unfold set_obj. rewrite Nat.eqb_refl. cbn [PolicyConc.conf_of].
        destruct (Ju g HJ t c [] acc E k) as [H|(u & H)]; [intros []|left; exact H|right; right].
        exists u. split; [intros ->; rewrite E in H; discriminate|]. destruct (at_ (thr g u)); cbn in *; try discriminate. exact I. }
      assert (forall i, i < next g -> klass (set_obj V (heap g) (next g) (mkObj V c acc) i) = klass (heap g i)) as HK.
      { intros i Hi. unfold set_obj. destruct (Nat.eqb_spec i (next g)); [lia|reflexivity]. }
      assert (forall u c0 ks acc0 k, u <> t -> at_ (thr g u) = Build V c0 ks acc0 -> ~ In k ks -> False) as HN.
      { intros u c0 ks acc0 k Hu H _. specialize (HU u Hu). rewrite H in HU. discriminate. }
      destruct (managed c) eqn:EM.
      + apply (moves g t (Build V c [] acc) (WantM V)); try assumption; try reflexivity; try discriminate; cbn; try tauto; try (apply Nat.le_succ_diag_r).
        * apply put_at.
        * apply (others_hold g t (Build V c [] acc) (WantM V)); cbn; auto.
        * intros i [= <-]. apply Nat.lt_succ_diag_r.
        * intros u c0 ks acc0 k H Hk. destruct (Nat.eqb_spec u t) as [->|Hu]; [discriminate|]. destruct (HN u c0 ks acc0 k Hu H Hk).
      + apply (moves g t (Build V c [] acc) Rest); try assumption; try reflexivity; try discriminate; cbn; try tauto; try (apply Nat.le_succ_diag_r).
        * apply put_at.
        * apply (others_hold g t (Build V c [] acc) Rest); cbn; auto.
        * intros i [= <-]. apply Nat.lt_succ_diag_r.
        * intros u c0 ks acc0 k H Hk. destruct (Nat.eqb_spec u t) as [->|Hu]; [discriminate|]. destruct (HN u c0 ks acc0 k Hu H Hk).
        * intros i [= <-]. unfold set_obj. rewrite Nat.eqb_refl. cbn. congruence.
    - (* Build *)
      apply (shift g t (Build V c (k :: ks) acc) (Build V c ks (cupd V acc k (conf g k)))); try assumption; try reflexivity; try discriminate; cbn; try tauto.
      + apply put_at.
      + apply (Jp g HJ). rewrite E. reflexivity.
      + intros c' ks' acc' k' [= <- <- <-] Hk.
        destruct (key_eqb k' k) eqn:EK; [apply key_eqb_ok in EK; subst; left; apply cupd_same|].
        assert (k' <> k) as NK by (intros ->; assert (key_eqb k k = true) by (apply key_eqb_ok; reflexivity); congruence).
        rewrite cupd_other by exact NK.
        destruct (Ju g HJ t c (k :: ks) acc E k') as [H|(u & H)]; [intros [->|H]; contradiction|left; exact H|right].
        exists u. split; [|exact H]. intros ->. rewrite E in H. discriminate.
    - (* WantM *) destruct (mlock g) eqn:EM; [exact HJ|].
      apply (shift g t (WantM V) (TellP V)); try assumption; try reflexivity; try discriminate; cbn; try tauto; try congruence.
      + apply put_at.
      + apply (Jp g HJ). rewrite E. reflexivity.
    - (* TellP *) destruct (cur g) as [i|] eqn:EC; [|exact HJ].
      apply (moves g t (TellP V) Rest); try assumption; try reflexivity; try discriminate; cbn; try tauto; try apply Nat.le_refl.
      + apply put_at.
      + apply (others_hold g t (TellP V) Rest); cbn; auto.
      + intros _ u _. destruct (building (at_ (thr g u))) eqn:EB; [|reflexivity]. rewrite (Jb g HJ u EB) in EC. discriminate.
      + intros i' H. apply (Jc g HJ). congruence.
      + intros i' k H1 H2. assert (cur g = Some i') as H1' by congruence. destruct (Jd g HJ i' k H1' H2) as [H|(u & H)]; [left; exact H|right; right].
        exists u. split; [|exact H]. intros ->. rewrite E in H. exact H.
      + intros u c ks acc k H Hk. destruct (Nat.eqb_spec u t) as [->|Hu]; [discriminate|].
        exfalso. assert (cur g = None) by (apply (Jb g HJ u); rewrite H; reflexivity). congruence.
      + intros i' [= <-] HM. left. eexists. repeat split; reflexivity.
    - (* Get2 *) unfold with_cur. destruct (plock g) eqn:EP; [exact HJ|]. destruct (cur g) as [i|] eqn:EC; [|exact HJ].
      unfold goes. rewrite EP.
      apply (shift g t (Get2 V) (Cmp V i CACHE_KEYS false)); try assumption; try reflexivity; try discriminate; cbn; try tauto; try congruence.
      + apply put_at.
      + intros i' [= <-]. apply (Jc g HJ). exact EC.
    - (* Cmp [] *) destruct ch.
      + apply (shift g t (Cmp V i [] true) (Get3 V)); try assumption; try reflexivity; try discriminate; cbn; try tauto; try congruence. apply put_at.
      + apply (shift g t (Cmp V i [] false) Rest); try assumption; try reflexivity; try discriminate; cbn; try tauto; try congruence. apply put_at.
    - (* Cmp *) assert (i < next g) as HI by (apply (Jr g HJ t); rewrite E; reflexivity).
      destruct (is_checked (klass (heap g i)) k) eqn:EK.
      + apply (shift g t (Cmp V i (k :: ks) ch) (Cmp V i ks (if same (conf_of (heap g i) k) (conf g k) then ch else true)));
          try assumption; try reflexivity; try discriminate; cbn; try tauto; try congruence. apply put_at.
      + apply (shift g t (Cmp V i (k :: ks) ch) (Fetch V i k ks (if same (conf_of (heap g i) k) (conf g k) then ch else true)));
          try assumption; try reflexivity; try discriminate; cbn; try tauto; try congruence. apply put_at.
    - (* Fetch *) assert (i < next g) as HI by (apply (Jr g HJ t); rewrite E; reflexivity).
      apply (shift g t (Fetch V i k ks ch) (Store V i k (conf g k) ks ch)); try assumption; try reflexivity; try discriminate; cbn; try tauto; try congruence.
      + apply put_at.
      + intros i' k' [= <- <-]. apply (Jw g HJ t). rewrite E. reflexivity.
    - (* Store *) assert (i < next g) as HI by (apply (Jr g HJ t); rewrite E; reflexivity).
      assert (is_checked (klass (heap g i)) k = false) as HC by (apply (Jw g HJ t); rewrite E; reflexivity).
      set (h' := set_obj V (heap g) i (mkObj V (klass (heap g i)) (cupd V (conf_of (heap g i)) k v))).
      assert (forall j, klass (h' j) = klass (heap g j)) as HK.
      { intros j. unfold h', set_obj. destruct (Nat.eqb_spec j i) as [->|]; reflexivity. }
      assert (forall j k', In k' (checked (klass (heap g j))) -> conf_of (h' j) k' = conf_of (heap g j) k') as HV.
      { intros j k' Hk. unfold h', set_obj. destruct (Nat.eqb_spec j i) as [->|]; [|reflexivity]. cbn [PolicyConc.conf_of].
        apply cupd_other. intros ->. rewrite (checked_in _ _ Hk) in HC. discriminate. }
      apply (moves g t (Store V i k v ks ch) (Cmp V i ks ch)); try assumption; try reflexivity; try discriminate; cbn; try tauto; try apply Nat.le_refl.
      + apply put_at.
      + apply (others_hold g t (Store V i k v ks ch) (Cmp V i ks ch)); cbn; auto.
      + intros H u _. destruct (building (at_ (thr g u))) eqn:EB; [|reflexivity]. destruct H. apply (Jb g HJ u EB).
      + apply (Jc g HJ).
      + intros j [= <-]. exact HI.
      + intros j _. apply HK.
      + intros j k' H1 H2. rewrite HK in H2. rewrite HV by exact H2.
        destruct (Jd g HJ j k' H1 H2) as [H|(u & H)]; [left; exact H|right; right].
        exists u. split; [|exact H]. intros ->. rewrite E in H. exact H.
      + intros u c0 ks0 acc0 k0 H Hk. destruct (Nat.eqb_spec u t) as [->|Hu]; [discriminate|].
        destruct (Ju g HJ u c0 ks0 acc0 H k0 Hk) as [H2|(w & H2)]; [left; exact H2|right; right].
        exists w. split; [|exact H2]. intros ->. rewrite E in H2. discriminate.
      + intros j H1 H2. rewrite HK in H2. destruct (Jt g HJ j H1 H2) as [(o & O1 & O2 & O3)|(u & H)].
        * left. exists o. split; [exact O1|]. rewrite HK. split; [exact O2|]. intros k' Hk. rewrite HV by exact Hk. apply O3. exact Hk.
        * right. right. exists u. split; [|exact H]. intros ->. rewrite E in H. discriminate.
    - (* Get3 *) unfold with_cur. destruct (plock g) eqn:EP; [exact HJ|]. destruct (cur g) as [i|] eqn:EC; [|exact HJ].
      destruct (managed (klass (heap g i))); unfold goes; rewrite EP.
      + apply (shift g t (Get3 V) (WantM2 V)); try assumption; try reflexivity; try discriminate; cbn; try tauto; try congruence. apply put_at.
      + apply (shift g t (Get3 V) Rest); try assumption; try reflexivity; try discriminate; cbn; try tauto; try congruence. apply put_at.
    - (* WantM2 *) destruct (mlock g) eqn:EM; [exact HJ|].
      apply (shift g t (WantM2 V) (Tell2 V)); try assumption; try reflexivity; try discriminate; cbn; try tauto; try congruence. apply put_at.
    - (* Tell2 *)
      assert (forall u c0 ks acc k, (if Nat.eqb u t then Rest else at_ (thr g u)) = Build V c0 ks acc -> ~ In k ks ->
        acc k = conf g k \/ False \/ exists u, u <> t /\ early (at_ (thr g u)) = true) as HU.
      { intros u c0 ks0 acc0 k0 H Hk. destruct (Nat.eqb_spec u t) as [->|Hu]; [discriminate|].
        destruct (Ju g HJ u c0 ks0 acc0 H k0 Hk) as [H2|(w & H2)]; [left; exact H2|right; right].
        exists w. split; [|exact H2]. intros ->. rewrite E in H2. discriminate. }
      destruct (cur g) as [i|] eqn:EC.
      + apply (moves g t (Tell2 V) Rest); try assumption; try reflexivity; try discriminate; cbn; try tauto; try apply Nat.le_refl.
        * apply put_at.
        * apply (others_hold g t (Tell2 V) Rest); cbn; auto.
        * intros _ u _. destruct (building (at_ (thr g u))) eqn:EB; [|reflexivity]. rewrite (Jb g HJ u EB) in EC. discriminate.
        * intros i' H. apply (Jc g HJ). congruence.
        * intros i' k H1 H2. assert (cur g = Some i') as H1' by congruence. destruct (Jd g HJ i' k H1' H2) as [H|(u & H)]; [left; exact H|right; right].
          exists u. split; [|exact H]. intros ->. rewrite E in H. exact H.
        * intros u c0 ks acc k H Hk. destruct (HU u c0 ks acc k H Hk) as [H2|[[]|H2]]; auto.
        * intros i' [= <-] HM. left. eexists. repeat split; reflexivity.
      + apply (moves g t (Tell2 V) Rest); try assumption; try reflexivity; try discriminate; cbn; try tauto; try apply Nat.le_refl.
        * apply put_at.
        * apply (others_hold g t (Tell2 V) Rest); cbn; auto.
        * intros u c0 ks acc k H Hk. destruct (HU u c0 ks acc k H Hk) as [H2|[[]|H2]]; auto.
  Qed.

  Lemma run_J sched g : J g -> J (run sched g).
  Proof using same_ok. revert g. induction sched as [|t s IH]; intros g H; [exact H|]. apply IH, step_J, H. Qed.
End Proofs.
