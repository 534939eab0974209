(** Threads that change settings: what holds at every moment of every schedule. *)
From Verif Require Import PyBase ListLemmas MemCache MemCacheProofs MemCacheProofs2
  MemCacheConc MemCacheConcProofs SettingsConc SettingsConcProofs.
Set Default Proof Using "Type".

Section Sys.
  Variables Req Ent W C : Type.
  Variable key_of : Req -> string.
  Variable est_size : Ent -> Z.
  Variable size_of : W -> Z.
  Variable view : C -> mconf.
  Notation state := (MemCache.state W).
  Notation call := (SettingsConc.call Req Ent W C).
  Notation place := (SettingsConc.place Req Ent W C).
  Notation thread := (SettingsConc.thread Req Ent W C).
  Notation sys := (SettingsConc.sys Req Ent W C).
  Notation step1 := (SettingsConc.step1 key_of est_size size_of view).
  Notation steps := (SettingsConc.steps key_of est_size size_of view).
  Notation upd1 := (MemCacheConc.upd1 W).
  Notation upd2 := (MemCacheConc.upd2 W).
  Notation upd3 := (MemCacheConc.upd3 W).
  Notation tame := (SettingsConcProofs.tame W).
  Notation in_force := (SettingsConcProofs.in_force W).
  Implicit Types (g : sys).

  (** A thread that has written, or may still write, without having read the options back. *)
  Definition pending (p : place) : bool :=
    match p with Writing _ | Notify | U1 => true | _ => false end.
  Definition holds (p : place) : bool :=
    match p with U1 | U2 _ | U3 _ | U4 _ _ => true | _ => false end.
  Definition quiet (f : nat -> thread) : Prop := forall k, pending (place_ (f k)) = false.

  Lemma put_same (f : nat -> thread) k t : put f k t k = t.
  Proof. unfold put. rewrite Nat.eqb_refl. reflexivity. Qed.
  Lemma put_other (f : nat -> thread) k t h : h <> k -> put f k t h = f h.
  Proof. intros N. unfold put. destruct (Nat.eqb_spec h k); [contradiction|reflexivity]. Qed.

  Lemma quiet_put f k t : quiet (put f k t) -> pending (place_ t) = false.
  Proof. intros H. specialize (H k). rewrite put_same in H. exact H. Qed.
  Lemma quiet_old f k t : quiet (put f k t) -> pending (place_ (f k)) = false -> quiet f.
  Proof.
    intros H E h. destruct (Nat.eq_dec h k) as [->|N]; [exact E|].
    specialize (H h). rewrite put_other in H by exact N. exact H.
  Qed.

  Section With.
    (** The configurations that can be in force. *)
    Variable K : C -> Prop.

    Definition writes_ok (fs : list (C -> C)) : Prop :=
      forall f, In f fs -> forall c, K c -> K (f c).
    Definition prog_ok (l : list call) : Prop := forall fs, In (Change fs) l -> writes_ok fs.
    Definition place_ok (p : place) : Prop :=
      match p with Writing fs => writes_ok fs | _ => True end.

    (** The values read come from configurations that were in force. *)
    Definition was_max (m : option Z) : Prop := exists a, K a /\ c_max (view a) = m.
    Definition was_pol (p : string) : Prop := exists b, K b /\ c_policy (view b) = p.

    Definition cond (c : C) (s : state) (l : option nat) (f : nat -> thread) : Prop :=
      match l with
      | None => tame s /\ (quiet f -> fits (view c) -> in_force (view c) s)
      | Some h =>
          match place_ (f h) with
          | U1 => tame s
          | U2 ch => exists s0 m, tame s0 /\ was_max m /\ set_max m s0 = (s, ch) /\
                                  (quiet f -> m = c_max (view c))
          | U3 ch => exists s0 m b p, tame s0 /\ was_max m /\ upd1 (mkConf m b p) s0 = (s, ch) /\
                                  (quiet f -> m = c_max (view c) /\ b = c_strict (view c))
          | U4 ch r => exists s0 m b p s1, tame s0 /\ was_max m /\ was_pol p /\
                                  upd1 (mkConf m b p) s0 = (s1, ch) /\
                                  upd2 (mkConf m b p) s1 = (s, r) /\
                                  (quiet f -> mkConf m b p = view c)
          | _ => False
          end
      end.

    (** Every exception of an update comes from a limit of one configuration and a policy of
        another, or the same. *)
    Definition fault_ok (x : nat * fault) : Prop :=
      match snd x with
      | InUpdate e =>
          exists m p, was_max m /\ was_pol p /\ (p = "lru" \/ p = "largest")%string /\
            ((m = None /\ e = TypeError) \/ (exists z, m = Some z /\ z <= 0 /\ e = ValueError))
      | InGet _ => True
      end.

    Definition J g : Prop :=
      K (conf g) /\
      (forall k, prog_ok (prog (thr g k)) /\ place_ok (place_ (thr g k))) /\
      (forall k, holds (place_ (thr g k)) = true <-> slock g = Some k) /\
      cond (conf g) (mem g) (slock g) (thr g) /\
      (forall x, In x (faults g) -> fault_ok x).

    Lemma cond_other c c' s l f k t :
      cond c s l f -> l <> Some k -> (quiet (put f k t) -> quiet f /\ c' = c) ->
      cond c' s l (put f k t).
    Proof.
      intros H N HQ. unfold cond in *. destruct l as [h|].
      - assert (h <> k) as NE by congruence.
        rewrite put_other by exact NE.
        destruct (place_ (f h)); auto.
        + destruct H as (s0 & m & A & B & D & E). exists s0, m.
          repeat (split; [assumption|]). intros Q. destruct (HQ Q) as [Q1 ->]. auto.
        + destruct H as (s0 & m & b & p & A & B & D & E). exists s0, m, b, p.
          repeat (split; [assumption|]). intros Q. destruct (HQ Q) as [Q1 ->]. auto.
        + destruct H as (s0 & m & b & p & s1 & A & B & D & E & F & G). exists s0, m, b, p, s1.
          repeat (split; [assumption|]). intros Q. destruct (HQ Q) as [Q1 ->]. auto.
      - destruct H as [A B]. split; [exact A|]. intros Q. destruct (HQ Q) as [Q1 ->]. auto.
    Qed.

    Lemma holds_put (f : nat -> thread) (l : option nat) k t :
      (forall h, holds (place_ (f h)) = true <-> l = Some h) ->
      holds (place_ t) = holds (place_ (f k)) ->
      forall h, holds (place_ (put f k t h)) = true <-> l = Some h.
    Proof.
      intros H E h. destruct (Nat.eq_dec h k) as [->|N].
      - rewrite put_same, E. apply H.
      - rewrite put_other by exact N. apply H.
    Qed.

    Lemma ok_put (f : nat -> thread) k t :
      (forall h, prog_ok (prog (f h)) /\ place_ok (place_ (f h))) ->
      prog_ok (prog t) -> place_ok (place_ t) ->
      forall h, prog_ok (prog (put f k t h)) /\ place_ok (place_ (put f k t h)).
    Proof.
      intros H A B h. destruct (Nat.eq_dec h k) as [->|N].
      - rewrite put_same. auto.
      - rewrite put_other by exact N. apply H.
    Qed.

    Lemma prog_tl a l : prog_ok (a :: l) -> prog_ok l.
    Proof. intros H fs I. apply H. right. exact I. Qed.
    Lemma left_ok (t : thread) b : prog_ok (prog t) -> prog_ok (prog (left_by t b)).
    Proof. intros H. cbn. destruct (_ && _); [intros fs []|exact H]. Qed.

    Hypothesis K_known : forall c, K c -> known (view c).
    Hypothesis size_nonneg : forall w, 0 <= size_of w.

    Lemma set_both m b p s0 s1 ch1 s2 ch2 :
      set_max m s0 = (s1, ch1) -> set_strict b s1 = (s2, ch2) ->
      upd1 (mkConf m b p) s0 = (s2, ch1 || ch2).
    Proof.
      intros A B. unfold set_max in A. inversion A; subst s1 ch1. clear A.
      unfold set_strict in B. cbn in B. inversion B; subst. reflexivity.
    Qed.

    Lemma update_fault c s e :
      tame s -> known c -> snd (update c s) = Raise e ->
      (c_policy c = "lru" \/ c_policy c = "largest")%string /\
      ((c_max c = None /\ e = TypeError) \/
       (exists z, c_max c = Some z /\ z <= 0 /\ e = ValueError)).
    Proof.
      intros HT HK H.
      assert (~ fits c) as NF.
      { intros HF. destruct (update_tame _ _ _ HT HK) as [_ X]. destruct (X HF) as [Y _]. congruence. }
      assert (c_policy c = "lru" \/ c_policy c = "largest")%string as HP.
      { unfold fits in NF. unfold known in HK. tauto. }
      split; [exact HP|].
      assert (c_max c = None \/ exists z, c_max c = Some z /\ z <= 0) as HM.
      { destruct (c_max c) as [z|] eqn:E; [|auto]. right. exists z. split; [reflexivity|].
        destruct (Z_le_gt_dec z 0); [assumption|]. exfalso. apply NF. right. right.
        exists z. split; [exact E|]. split; [lia|exact HP]. }
      clear NF HT HK. unfold update in H.
      set (ch1 := negb (optZ_eqb (max_mem s) (c_max c))) in *.
      set (s1 := mkState (items s) _ _ _ _ _ _) in *.
      set (ch2 := negb (Bool.eqb (strict s1) (c_strict c))) in *.
      set (s2 := mkState (items s1) _ _ _ _ _ _) in *.
      assert (max_mem s2 = c_max c) as HM2.
      { cbn. unfold ch1. destruct (optZ_eqb (max_mem s) (c_max c)) eqn:E; cbn; [|reflexivity].
        apply optZ_eqb_eq in E. exact E. }
      assert (forall q, (q = PLru \/ q = PLargest) -> check q s2 =
               (s2, Raise (match c_max c with None => TypeError | Some _ => ValueError end))) as HC.
      { intros q Hq. assert (check q s2 = (s2, match max_mem s2 with None => Raise TypeError
                | Some m => if m <=? 0 then Raise ValueError else Ok tt end)) as ->.
        { destruct Hq as [-> | ->]; reflexivity. }
        rewrite HM2. destruct HM as [-> | (z & -> & Hz)]; [reflexivity|].
        destruct (Z.leb_spec z 0); [reflexivity|lia]. }
      assert (e = match c_max c with None => TypeError | Some _ => ValueError end) as HE.
      { clearbody ch1 ch2 s2. clear s1.
        destruct (String.eqb_spec (policy_name (pol s2)) (c_policy c)) as [EQ|NE].
        - destruct (ch1 || ch2 || false); [|discriminate H].
          unfold reduce_ in H. rewrite HC in H; [inversion H; reflexivity|].
          destruct HP as [HP|HP]; rewrite HP in EQ; destruct (pol s2); try discriminate; auto.
        - assert (exists q, make_policy (c_policy c) = Some q /\ (q = PLru \/ q = PLargest)) as (q & Eq & Hq).
          { destruct HP as [HP|HP]; rewrite HP; cbn; eauto. }
          rewrite Eq, (HC q Hq) in H. inversion H; reflexivity. }
      destruct HM as [HM|(z & HM & Hz)]; rewrite HM in HE; [left|right; exists z]; auto.
    Qed.

    Lemma pend_quiet (f : nat -> thread) k t (X : Prop) :
      pending (place_ t) = true -> quiet (put f k t) -> X.
    Proof. intros E Q. apply quiet_put in Q. congruence. Qed.

    Lemma step_J k g : J g -> J (step1 k g).
    Proof using K_known size_nonneg.
      intros HJ. pose proof HJ as (JK & JP & JH & JC & JF).
      pose proof (JP k) as [Pk Pl].
      pose proof (JH k) as Hk.
      unfold SettingsConc.step1.
      destruct (place_ (thr g k)) as [|fs| | |ch|ch|ch r|a] eqn:EP.
      - (* Ready *)
        assert (slock g <> Some k) as NL by (intros E; apply Hk in E; discriminate).
        destruct (prog (thr g k)) as [|a rest] eqn:EG; [exact HJ|].
        pose proof (prog_tl _ _ Pk) as Pr.
        assert (forall p, pending p = false -> holds p = false -> place_ok p ->
                  J (mkSys (conf g) (mem g) (slock g)
                       (put (thr g) k (mkThread rest p (catches (thr g k)))) (faults g))) as HQ.
        { intros p N1 N2 N3. split; [exact JK|]. split; [apply ok_put; auto|]. split.
          { apply holds_put; [exact JH|]. cbn. rewrite EP. exact N2. }
          split; [|exact JF]. cbn. eapply cond_other; [exact JC|exact NL|].
          intros Q. split; [|reflexivity]. eapply quiet_old; [exact Q|]. rewrite EP. reflexivity. }
        destruct a as [fs|i r| |]; try (apply HQ; cbn; auto; fail).
        + split; [exact JK|]. split.
          { apply ok_put; auto. cbn. apply Pk. left. reflexivity. }
          split.
          { apply holds_put; [exact JH|]. rewrite EP. reflexivity. }
          split; [|exact JF]. cbn. eapply cond_other; [exact JC|exact NL|].
          apply pend_quiet. reflexivity.
        + destruct (has_cache (pol (mem g))); [apply HQ; cbn; auto|].
          split; [exact JK|]. split.
          { apply ok_put; [exact JP|apply left_ok; exact Pr|exact I]. }
          split.
          { apply holds_put; [exact JH|]. rewrite EP. reflexivity. }
          split.
          { cbn. eapply cond_other; [exact JC|exact NL|].
            intros Q. split; [|reflexivity]. eapply quiet_old; [exact Q|]. rewrite EP. reflexivity. }
          cbn. intros x Hx. unfold note in Hx. destruct (raised (create i r)); [|auto].
          destruct Hx as [<-|Hx]; [exact I|auto].
      - (* Writing *)
        assert (slock g <> Some k) as NL by (intros E; apply Hk in E; discriminate).
        destruct fs as [|f fs].
        + split; [exact JK|]. split; [apply ok_put; [exact JP|exact Pk|exact I]|]. split.
          { apply holds_put; [exact JH|]. rewrite EP. reflexivity. }
          split; [|exact JF]. cbn. eapply cond_other; [exact JC|exact NL|].
          apply pend_quiet. reflexivity.
        + split; [cbn; apply Pl; [left; reflexivity|exact JK]|]. split.
          { apply ok_put; auto. cbn. intros f' Hf. apply Pl. right. exact Hf. }
          split.
          { apply holds_put; [exact JH|]. rewrite EP. reflexivity. }
          split; [|exact JF]. cbn. eapply cond_other; [exact JC|exact NL|].
          apply pend_quiet. reflexivity.
      - (* Notify *)
        destruct (slock g) as [h|] eqn:EL; [exact HJ|].
        split; [exact JK|]. split; [apply ok_put; [exact JP|exact Pk|exact I]|]. split.
        { cbn. intros h. destruct (Nat.eq_dec h k) as [->|N].
          - rewrite put_same. cbn. tauto.
          - rewrite put_other by exact N. rewrite JH. split; [discriminate|congruence]. }
        split; [|exact JF]. cbn. rewrite put_same. cbn. destruct JC as [A _]. exact A.
      - (* U1 *)
        assert (slock g = Some k) as EL by (apply Hk; reflexivity).
        destruct (set_max _ _) as [s ch] eqn:ES.
        unfold cond in JC. rewrite EL, EP in JC.
        split; [exact JK|]. split; [apply ok_put; [exact JP|exact Pk|exact I]|]. split.
        { apply holds_put; [exact JH|]. rewrite EP. reflexivity. }
        split; [|exact JF]. cbn [conf mem slock thr]. unfold cond. rewrite EL, put_same. cbn [place_].
        exists (mem g), (c_max (view (conf g))). split; [exact JC|].
        split; [exists (conf g); auto|]. split; [exact ES|reflexivity].
      - (* U2 *)
        assert (slock g = Some k) as EL by (apply Hk; reflexivity).
        destruct (set_strict _ _) as [s ch2] eqn:ES.
        unfold cond in JC. rewrite EL, EP in JC. destruct JC as (s0 & m & A & B & D & E).
        split; [exact JK|]. split; [apply ok_put; [exact JP|exact Pk|exact I]|]. split.
        { apply holds_put; [exact JH|]. rewrite EP. reflexivity. }
        split; [|exact JF]. cbn [conf mem slock thr]. unfold cond. rewrite EL, put_same. cbn [place_].
        exists s0, m, (c_strict (view (conf g))), (c_policy (view (conf g))).
        split; [exact A|]. split; [exact B|]. split; [eapply set_both; eassumption|].
        intros Q. split; [|reflexivity]. apply E. eapply quiet_old; [exact Q|]. rewrite EP. reflexivity.
      - (* U3 *)
        assert (slock g = Some k) as EL by (apply Hk; reflexivity).
        destruct (upd2 _ _) as [s r] eqn:ES.
        unfold cond in JC. rewrite EL, EP in JC. destruct JC as (s0 & m & b & p & A & B & D & E).
        split; [exact JK|]. split; [apply ok_put; [exact JP|exact Pk|exact I]|]. split.
        { apply holds_put; [exact JH|]. rewrite EP. reflexivity. }
        split; [|exact JF]. cbn [conf mem slock thr]. unfold cond. rewrite EL, put_same. cbn [place_].
        exists s0, m, b, (c_policy (view (conf g))), (mem g).
        split; [exact A|]. split; [exact B|]. split; [exists (conf g); auto|].
        split; [exact D|]. split; [exact ES|].
        intros Q. destruct E as [-> ->]; [|destruct (view (conf g)); reflexivity].
        eapply quiet_old; [exact Q|]. rewrite EP. reflexivity.
      - (* U4 *)
        assert (slock g = Some k) as EL by (apply Hk; reflexivity).
        destruct (upd3 _ _ _) as [s x] eqn:ES.
        unfold cond in JC. rewrite EL, EP in JC.
        destruct JC as (s0 & m & b & p & s1 & A & B & D & E & F & G).
        pose proof (update_split W (mkConf m b p) s0) as HU. rewrite E, F, ES in HU.
        assert (known (mkConf m b p)) as HK.
        { destruct D as (b' & Kb & <-). apply K_known in Kb. exact Kb. }
        destruct (update_tame _ _ _ A HK) as [T1 T2]. rewrite HU in T1, T2. cbn [fst snd] in T1, T2.
        split; [exact JK|]. split; [apply ok_put; [exact JP|apply left_ok; exact Pk|exact I]|]. split.
        { cbn. intros h. destruct (Nat.eq_dec h k) as [->|N].
          - rewrite put_same. cbn. split; discriminate.
          - rewrite put_other by exact N. rewrite JH, EL. split; [congruence|discriminate]. }
        split.
        { cbn. split; [exact T1|]. intros Q HF.
          rewrite <- G in HF |- *; try (eapply quiet_old; [exact Q|rewrite EP; reflexivity]).
          apply T2. exact HF. }
        cbn. intros y Hy. unfold note in Hy. destruct x as [u|e|]; cbn in Hy; auto.
        destruct Hy as [<-|Hy]; [|auto]. cbn.
        destruct (update_fault (mkConf m b p) s0 e A HK) as [U1 U2]; [rewrite HU; reflexivity|].
        exists m, p. cbn in U1, U2. auto.
      - (* Asking *)
        destruct (slock g) as [h|] eqn:EL; [exact HJ|].
        destruct JC as [T1 T2].
        destruct (MemCache.step _ _ _ _ _) as [s x] eqn:ES.
        assert (tame s /\ (forall c, fits c -> in_force c (mem g) -> in_force c s)) as [T3 T4].
        { destruct a as [fs|i r| |]; cbn in ES.
          - inversion ES; subst. auto.
          - destruct (MemCache.get _ _ _ i r (mem g)) as [[s' cl] d] eqn:EG. inversion ES; subst.
            eapply get_tame; eassumption.
          - inversion ES; subst. eapply clear_tame; eassumption.
          - inversion ES; subst. auto. }
        split; [exact JK|]. split; [apply ok_put; [exact JP|apply left_ok; exact Pk|exact I]|]. split.
        { apply holds_put; [exact JH|]. rewrite EP. reflexivity. }
        split.
        { cbn. split; [exact T3|]. intros Q HF. apply T4; [exact HF|]. apply T2; [|exact HF].
          eapply quiet_old; [exact Q|]. rewrite EP. reflexivity. }
        cbn. intros y Hy. unfold note in Hy. destruct (out_raised _ _ _ x); [|auto].
        destruct Hy as [<-|Hy]; [exact I|auto].
    Qed.

    Lemma steps_J l : forall g, J g -> J (steps l g).
    Proof using K_known size_nonneg.
      induction l as [|k l IH]; intros g H; cbn; [exact H|]. apply IH. apply step_J. exact H.
    Qed.

    Lemma start_J c s progs :
      K c -> tame s -> (fits (view c) -> in_force (view c) s) ->
      (forall k, prog_ok (fst (progs k))) -> J (start c s progs).
    Proof.
      intros A B D E. split; [exact A|]. split; [cbn; auto|]. split; [cbn; split; discriminate|].
      split; [cbn; auto|]. intros x [].
    Qed.
  End With.
End Sys.
