(** PolicyConc.v: classes of policies, and that the threads can always be completed. *)
From Verif Require Import PyBase PolicyConc PolicyConcProofs.
Set Default Proof Using "Type".
Local Open Scope nat_scope.

Section Proofs2.
  Variable V : Type.
  Variable same : V -> V -> bool.
  Hypothesis same_ok : forall a b, same a b = true <-> a = b.
  Variable named : V -> kind.
  Notation sys := (PolicyConc.sys V).
  Notation place := (PolicyConc.place V).
  Notation step := (PolicyConc.step V same named).
  Notation run := (PolicyConc.run V same named).
  Notation at_ := (PolicyConc.at_ V).
  Notation todo := (PolicyConc.todo V).
  Notation thr := (PolicyConc.thr V).
  Notation conf := (PolicyConc.conf V).
  Notation heap := (PolicyConc.heap V).
  Notation cur := (PolicyConc.cur V).
  Notation plock := (PolicyConc.plock V).
  Notation mlock := (PolicyConc.mlock V).
  Notation klass := (PolicyConc.klass V).
  Notation J := (J V).

  (** *** The name of the policy is left alone *)
  Definition keeps (c : change V) : Prop := Forall (fun kv => fst kv <> Kpol) c.
  Definition keeps_place (k0 : kind) (p : place) : Prop :=
    match p with Setting _ a => keeps a | Build _ c _ _ => c = k0 | _ => True end.
  Record K (v0 : V) (g : sys) : Prop := mkK {
    Kc : conf g Kpol = v0;
    Kh : forall i, klass (heap g i) = named v0;
    Kt : forall t, keeps_place (named v0) (at_ (thr g t)) /\ Forall keeps (todo (thr g t)) }.

  Lemma put_K v0 (g : sys) t p : K v0 g -> keeps_place (named v0) p ->
    forall u, keeps_place (named v0) (at_ (put V g t p u)) /\ Forall keeps (todo (put V g t p u)).
  Proof.
    intros HK Hp u. unfold put. destruct (Nat.eqb u t); [split; [exact Hp|apply (Kt v0 g HK)]|apply (Kt v0 g HK)].
  Qed.
  Lemma goes_K v0 g t p : K v0 g -> keeps_place (named v0) p -> K v0 (goes V g t p).
  Proof. intros HK Hp. constructor; [apply HK|apply HK|apply put_K; assumption]. Qed.

  Lemma step_K v0 t g : K v0 g -> K v0 (step t g).
  Proof.
    intros HK. pose proof (Kt v0 g HK t) as [HP HT]. unfold PolicyConc.step, with_cur. destruct (at_ (thr g t)) as
      [|[|[k v] a]|i [|k ks]| |[|k ks]|c [|k ks] acc| | | |i [|k ks] ch|i k ks ch|i k v ks ch| | |] eqn:E;
      try (apply goes_K; [exact HK|exact I]);
      repeat match goal with
        | |- K _ (match ?x with _ => _ end) => destruct x eqn:?
        | |- K _ (if ?x then _ else _) => destruct x eqn:?
        end; try exact HK; try (apply goes_K; [exact HK|exact I]);
      try (constructor; cbn [PolicyConc.conf PolicyConc.heap PolicyConc.thr]; [apply HK|apply HK|apply put_K; [exact HK|exact I]]).
    - constructor; cbn [PolicyConc.conf PolicyConc.heap PolicyConc.thr]; [apply HK|apply HK|].
      intros u. destruct (Nat.eqb u t); [|apply (Kt v0 g HK)]. inversion HT; subst; split; assumption.
    - inversion HP as [|x l HX HL]; subst. cbn in HX. constructor; cbn [PolicyConc.conf PolicyConc.heap PolicyConc.thr].
      + rewrite cupd_other by congruence. apply HK.
      + apply HK.
      + apply put_K; assumption.
    - constructor; cbn [PolicyConc.conf PolicyConc.heap PolicyConc.thr]; [apply HK|apply HK|apply put_K; [exact HK|]].
      cbn. rewrite (Kc v0 g HK). reflexivity.
    - constructor; cbn [PolicyConc.conf PolicyConc.heap PolicyConc.thr]; [apply HK| |apply put_K; [exact HK|exact I]].
      intros i. unfold set_obj. destruct (Nat.eqb i _); [exact HP|apply HK].
    - constructor; cbn [PolicyConc.conf PolicyConc.heap PolicyConc.thr]; [apply HK| |apply put_K; [exact HK|exact I]].
      intros i. unfold set_obj. destruct (Nat.eqb i _); [exact HP|apply HK].
    - apply goes_K; [exact HK|exact HP].
    - constructor; cbn [PolicyConc.conf PolicyConc.heap PolicyConc.thr]; [apply HK| |apply put_K; [exact HK|exact I]].
      intros j. unfold set_obj. destruct (Nat.eqb j i); apply HK.
  Qed.

  Lemma run_K v0 sched g : K v0 g -> K v0 (run sched g).
  Proof. revert g. induction sched as [|t s IH]; intros g H; [exact H|]. apply IH, step_K, H. Qed.

  (** *** Everybody can finish *)
  Definition weight (p : place) : nat :=
    match p with
    | Rest => 0
    | Setting _ a => 40 + List.length a
    | Out1 _ _ ks => 32 + List.length ks
    | WantP _ => 20
    | Out2 _ ks => 12 + List.length ks
    | Build _ _ ks _ => 4 + List.length ks
    | WantM _ => 3
    | TellP _ => 2
    | Get2 _ => 30
    | Cmp _ _ ks _ => 5 + 3 * List.length ks
    | Fetch _ _ _ ks _ => 7 + 3 * List.length ks
    | Store _ _ _ _ ks _ => 6 + 3 * List.length ks
    | Get3 _ => 4
    | WantM2 _ => 3
    | Tell2 _ => 2
    end.
  Fixpoint later (l : list (change V)) : nat := match l with [] => 0 | c :: cs => 41 + List.length c + later cs end.
  Definition size (th : PolicyConc.thread V) : nat := weight (at_ th) + later (todo th).

  Definition can_go (g : sys) (t : nat) : Prop :=
    match at_ (thr g t) with
    | Rest => todo (thr g t) <> []
    | Setting _ [] | WantP _ | Get2 _ | Get3 _ => plock g = None
    | WantM _ | WantM2 _ => mlock g = None
    | _ => True
    end.

  Lemma checked_le c : List.length (checked c) <= 2.
  Proof. destruct c; cbn; lia. Qed.

  Lemma step_others t g u : u <> t -> thr (step t g) u = thr g u.
  Proof.
    intros Hu. assert (forall p, put V g t p u = thr g u) as HP.
    { intros p. unfold put. destruct (Nat.eqb_spec u t); [contradiction|reflexivity]. }
    unfold PolicyConc.step, with_cur, goes. destruct (at_ (thr g t)) as
      [|[|[k v] a]|i [|k ks]| |[|k ks]|c [|k ks] acc| | | |i [|k ks] ch|i k ks ch|i k v ks ch| | |];
      repeat match goal with
        | |- thr (match ?x with _ => _ end) _ = _ => destruct x
        | |- thr (if ?x then _ else _) _ = _ => destruct x
        end; cbn [PolicyConc.thr]; try apply HP; try reflexivity.
    destruct (Nat.eqb_spec u t); [contradiction|reflexivity].
  Qed.

  Lemma step_smaller t g : J g -> can_go g t -> size (thr (step t g) t) < size (thr g t).
  Proof.
    clear same_ok. intros HJ HG. assert (forall p, put V g t p t = mkThr V p (todo (thr g t))) as HP.
    { intros p. unfold put. rewrite Nat.eqb_refl. reflexivity. }
    assert (plock g = None -> exists i, cur g = Some i) as HC.
    { intros HP0. destruct (cur g) as [i|] eqn:EC; [eauto|]. destruct (Jn V g HJ EC) as [u Hu]. exfalso.
      assert (plock g = Some u) by (apply (Jp V g HJ); destruct (at_ (thr g u)); cbn in *; congruence). congruence. }
    assert (holdsP V (at_ (thr g t)) = true -> building V (at_ (thr g t)) = false -> exists i, cur g = Some i) as HC2.
    { intros HH HB. destruct (cur g) as [i|] eqn:EC; [eauto|]. destruct (Jn V g HJ EC) as [u Hu]. exfalso.
      assert (plock g = Some u) by (apply (Jp V g HJ); destruct (at_ (thr g u)); cbn in *; congruence).
      apply (Jp V g HJ) in HH. assert (u = t) by congruence. subst. congruence. }
    unfold can_go in HG. unfold size at 2. unfold PolicyConc.step, with_cur, goes.
    destruct (at_ (thr g t)) as
      [|[|[k v] a]|i [|k ks]| |[|k ks]|c [|k ks] acc| | | |i [|k ks] ch|i k ks ch|i k v ks ch| | |] eqn:E.
    - destruct (todo (thr g t)) as [|c cs]; [contradiction|]. cbn [PolicyConc.thr]. rewrite Nat.eqb_refl. cbn. lia.
    - rewrite HG. destruct (HC HG) as [i ->]. cbn [PolicyConc.thr]. rewrite HP. unfold size. cbn.
      pose proof (checked_le (klass (heap g i))). lia.
    - cbn [PolicyConc.thr]. rewrite HP. unfold size. cbn. lia.
    - cbn [PolicyConc.thr]. rewrite HP. unfold size. cbn. lia.
    - destruct (same _ _); cbn [PolicyConc.thr]; rewrite HP; unfold size; cbn; lia.
    - rewrite HG. destruct (HC HG) as [i ->]. cbn [PolicyConc.thr]. rewrite HP. unfold size. cbn.
      pose proof (checked_le (klass (heap g i))). lia.
    - cbn [PolicyConc.thr]. rewrite HP. unfold size. cbn. lia.
    - destruct (HC2 eq_refl eq_refl) as [i ->]. destruct (same _ _); cbn [PolicyConc.thr]; rewrite HP; unfold size; cbn; lia.
    - destruct (managed c); cbn [PolicyConc.thr]; rewrite HP; unfold size; cbn; lia.
    - cbn [PolicyConc.thr]. rewrite HP. unfold size. cbn. lia.
    - rewrite HG. cbn [PolicyConc.thr]. rewrite HP. unfold size. cbn. lia.
    - destruct (HC2 eq_refl eq_refl) as [i ->]. cbn [PolicyConc.thr]. rewrite HP. unfold size. cbn. lia.
    - rewrite HG. destruct (HC HG) as [i ->]. cbn [PolicyConc.thr]. rewrite HP. unfold size. cbn. lia.
    - destruct ch; cbn [PolicyConc.thr]; rewrite HP; unfold size; cbn; lia.
    - destruct (is_checked _ _); cbn [PolicyConc.thr]; rewrite HP; unfold size; cbn; lia.
    - cbn [PolicyConc.thr]. rewrite HP. unfold size. cbn. lia.
    - cbn [PolicyConc.thr]. rewrite HP. unfold size. cbn. lia.
    - rewrite HG. destruct (HC HG) as [i ->]. destruct (managed _); cbn [PolicyConc.thr]; rewrite HP; unfold size; cbn; lia.
    - rewrite HG. cbn [PolicyConc.thr]. rewrite HP. unfold size. cbn. lia.
    - destruct (cur g); cbn [PolicyConc.thr]; rewrite HP; unfold size; cbn; lia.
  Qed.

  (** Somebody can go on as long as somebody has something to do. *)
  Lemma someone g t : J g -> size (thr g t) <> 0 -> exists u, can_go g u /\ size (thr g u) <> 0.
  Proof.
    clear same_ok. intros HJ HS.
    destruct (mlock g) as [u|] eqn:EM.
    { exists u. apply (Jm V g HJ) in EM. unfold can_go, size. destruct (at_ (thr g u)); cbn in *; try discriminate; split; auto; lia. }
    destruct (plock g) as [u|] eqn:EP.
    { exists u. apply (Jp V g HJ) in EP. unfold can_go, size. destruct (at_ (thr g u)); cbn in *; try discriminate; split; auto; lia. }
    exists t. split; [|exact HS]. unfold can_go. destruct (at_ (thr g t)) as [|[|]| | | | | | | | | | | | |] eqn:E; auto.
    intros H. apply HS. unfold size. rewrite E, H. reflexivity.
  Qed.

  Fixpoint total (g : sys) (n : nat) : nat := match n with 0 => 0 | S n => size (thr g n) + total g n end.
  Lemma total_le g g' n : (forall u, u < n -> size (thr g' u) <= size (thr g u)) -> total g' n <= total g n.
  Proof. induction n; intros H; cbn; [lia|]. pose proof (H n ltac:(lia)). specialize (IHn (fun u Hu => H u ltac:(lia))). lia. Qed.
  Lemma total_lt g g' n t : t < n -> size (thr g' t) < size (thr g t) -> (forall u, u < n -> size (thr g' u) <= size (thr g u)) ->
    total g' n < total g n.
  Proof.
    induction n; intros HT HL H; [lia|]. cbn. destruct (Nat.eq_dec t n) as [->|N].
    - pose proof (total_le g g' n (fun u Hu => H u ltac:(lia))). lia.
    - pose proof (H n ltac:(lia)). specialize (IHn ltac:(lia) HL (fun u Hu => H u ltac:(lia))). lia.
  Qed.
  Lemma total_zero g n : total g n = 0 -> forall u, u < n -> size (thr g u) = 0.
  Proof. induction n; cbn; intros H u Hu; [lia|]. destruct (Nat.eq_dec u n) as [->|]; [lia|apply IHn; lia]. Qed.

  Lemma can_finish n g : J g -> (forall t, n <= t -> size (thr g t) = 0) ->
    exists sched, forall t, size (thr (run sched g) t) = 0.
  Proof using same_ok.
    remember (total g n) as m eqn:Em. revert g Em. induction m as [m IH] using lt_wf_ind. intros g -> HJ HO.
    destruct (Nat.eq_dec (total g n) 0) as [Z|Z].
    - exists []. intros t. destruct (Nat.lt_ge_cases t n); [apply (total_zero g n Z t); assumption|apply HO; assumption].
    - assert (exists t, size (thr g t) <> 0) as [t Ht].
      { clear IH HO HJ. induction n as [|n IHn]; [cbn in Z; lia|]. cbn in Z.
        destruct (Nat.eq_dec (size (thr g n)) 0) as [Y|Y]; [apply IHn; lia|eauto]. }
      destruct (someone g t HJ Ht) as (u & HG & HS).
      assert (u < n) as Hu by (destruct (Nat.lt_ge_cases u n) as [|H]; [assumption|specialize (HO u H); lia]).
      pose proof (step_smaller u g HJ HG) as HL.
      assert (forall x, size (thr (step u g) x) <= size (thr g x)) as HA.
      { intros x. destruct (Nat.eq_dec x u) as [->|N]; [lia|rewrite step_others by exact N; lia]. }
      destruct (IH (total (step u g) n)) with (g := step u g) as [s Hs].
      + apply total_lt with (t := u); auto.
      + reflexivity.
      + apply step_J; assumption.
      + intros x Hx. specialize (HO x Hx). specialize (HA x). lia.
      + exists (u :: s). exact Hs.
  Qed.
End Proofs2.
