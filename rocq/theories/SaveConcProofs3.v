(** Every save can be brought to its end. *)
From Verif Require Import PyBase Protocol ProtocolProofs SaveConc SaveConcProofs SaveConcProofs2.

Section SaveEnds.
  Variable recheck unlinks : bool.
  Set Default Proof Using "recheck unlinks".
  Notation sperform := (sperform recheck unlinks).
  Notation sgo := (sgo recheck unlinks).
  Notation srun := (srun recheck unlinks).
  Implicit Types (w : disk) (c : bytes).

  (** Some steps of processes, without failures; [leads_of j]: of process j. *)
  Definition leads w w' : Prop := exists l, Forall (fun a => exists i, a = SGo i) l /\ srun l w = Some w'.
  Definition leads_of j w w' : Prop := exists l, Forall (fun a => a = SGo j) l /\ srun l w = Some w'.
  Lemma leads_of_leads j w w' : leads_of j w w' -> leads w w'.
  Proof. intros (l & F & R). exists l. split; [|exact R]. revert F. apply Forall_impl. intros a ->. eauto. Qed.
  Lemma srun_app l1 : forall l2 w w1 w', srun l1 w = Some w1 -> srun l2 w1 = Some w' -> srun (l1 ++ l2) w = Some w'.
  Proof. induction l1 as [|a l1 IH]; intros l2 w w1 w' R1 R2; cbn in *; [injection R1 as ->; exact R2|]. destruct (sperform a w); [eauto|discriminate]. Qed.
  Lemma leads_trans w w1 w' : leads w w1 -> leads w1 w' -> leads w w'.
  Proof. intros (l1 & F1 & R1) (l2 & F2 & R2). exists (l1 ++ l2). split; [apply Forall_app; auto|exact (srun_app _ _ _ _ _ R1 R2)]. Qed.
  Lemma leads_of_refl j w : leads_of j w w.
  Proof. exists []. split; [constructor|reflexivity]. Qed.
  Lemma leads_of_step j w w1 w' : sgo j w = Some w1 -> leads_of j w1 w' -> leads_of j w w'.
  Proof. intros G (l & F & R). exists (SGo j :: l). split; [constructor; auto|]. cbn. rewrite G. exact R. Qed.
  Lemma leads_locks w w' : leads w w' -> locks w -> locks w'.
  Proof.
    intros (l & _ & R). revert w R. induction l as [|a l IH]; intros w R L; cbn in R; [injection R as <-; exact L|]. destruct (sperform a w) as [w1|] eqn:P; [|discriminate]. apply (IH w1 R). exact (perform_locks _ _ _ _ _ P L).
  Qed.

  (** A process that has the lock writes its text and lets go, all by itself. *)
  Definition lets_go j k w w' : Prop :=
    leads_of j w w' /\ sholder w' k = None /\ slock w' = slock w /\ (forall i, i <> j -> sprocs w' i = sprocs w i).
  Lemma write_rest j k c m : forall n w, (List.length c - n <= m)%nat -> (n <= List.length c)%nat -> sprocs w j = SWriting k c n ->
    exists w', lets_go j k w w' /\ sprocs w' j = SUnlinking /\ (file w = Some (firstn n c) -> file w' = Some c).
  Proof.
    induction m as [|m IH]; intros n w M LE E.
    - assert (NB : nth_error c n = None) by (apply nth_error_None; lia).
      set (w1 := at_pc j (SReleasing k c) w). assert (G1 : sgo j w = Some w1) by (unfold SaveConc.sgo; rewrite E, NB; reflexivity).
      set (w2 := at_pc j SUnlinking (hold k None w1)). assert (G2 : sgo j w1 = Some w2) by (unfold SaveConc.sgo, w1; cbn; rewrite upd_at; reflexivity).
      exists w2. split; [split; [apply (leads_of_step _ _ _ _ G1), (leads_of_step _ _ _ _ G2), leads_of_refl|]|].
      + cbn. rewrite upd_at. split; [reflexivity|]. split; [reflexivity|]. intros i N. rewrite !upd_away by exact N. reflexivity.
      + cbn. rewrite upd_at. split; [reflexivity|]. intros F. rewrite F, firstn_all2 by lia. reflexivity.
    - destruct (nth_error c n) as [b|] eqn:NB.
      + set (w1 := at_pc j (SWriting k c (S n)) (with_file (Some (write_at (content w) n b)) w)). assert (G1 : sgo j w = Some w1) by (unfold SaveConc.sgo; rewrite E, NB; reflexivity).
        assert (LT : (n < List.length c)%nat) by (apply nth_error_Some; congruence).
        destruct (IH (S n) w1) as (w' & (L & H & S' & O) & U & F); [lia|lia|cbn; apply upd_at|]. exists w'. split; [split; [exact (leads_of_step _ _ _ _ G1 L)|]|].
        * split; [exact H|]. split; [exact S'|]. intros i N. rewrite (O i N). cbn. apply upd_away, N.
        * split; [exact U|]. intros X. apply F. cbn. unfold content. rewrite X. f_equal. apply write_next, NB.
      + apply (IH n w); [|lia|exact E]. apply nth_error_None in NB. lia.
  Qed.
  Lemma entered_lets_go j k c w : sprocs w j = Entered k c -> exists w', lets_go j k w w' /\ sprocs w' j = SUnlinking /\ file w' = Some c.
  Proof.
    intros E. set (w1 := at_pc j (SWriting k c 0) (with_file (Some []) w)). assert (G1 : sgo j w = Some w1) by (unfold SaveConc.sgo; rewrite E; reflexivity).
    destruct (write_rest j k c (List.length c) 0 w1) as (w' & (L & H & S' & O) & U & F); [lia|lia|cbn; apply upd_at|]. exists w'. split; [split; [exact (leads_of_step _ _ _ _ G1 L)|]|].
    - split; [exact H|]. split; [exact S'|]. intros i N. rewrite (O i N). cbn. apply upd_away, N.
    - split; [exact U|]. apply F. reflexivity.
  Qed.
  (** Progress of a process in the file. *)
  Definition within w : Prop := forall i k c n, sprocs w i = SWriting k c n -> (n <= List.length c)%nat.
  Lemma perform_within a w w' : sperform a w = Some w' -> within w -> within w'.
  Proof.
    intros P H. destruct (perform_cases recheck unlinks a w w' P) as (i & O & _ & C). intros j k c n J. destruct (Nat.eq_dec j i) as [->|N]; [|rewrite (O j N) in J; exact (H _ _ _ _ J)].
    destruct C as [(_ & X & _)|[(k' & c' & _ & E & _)|(k' & c' & n' & b & _ & NB & E & _)]]; [exfalso; exact (X _ _ _ J)| |]; rewrite E in J; injection J as <- <- <-; [apply Nat.le_0_l|]. apply nth_error_Some. congruence.
  Qed.
  Lemma leads_within w w' : leads w w' -> within w -> within w'.
  Proof.
    intros (l & _ & R). revert w R. induction l as [|a l IH]; intros w R L; cbn in R; [injection R as <-; exact L|]. destruct (sperform a w) as [w1|] eqn:P; [|discriminate]. apply (IH w1 R). exact (perform_within _ _ _ P L).
  Qed.
  Lemma holder_lets_go j k w : within w -> locked_by (sprocs w j) = Some k -> exists w', lets_go j k w w'.
  Proof.
    intros W L. destruct (sprocs w j) as [|c|k' c|k' c|k' c|k' c n|k' c| |k'] eqn:E; try discriminate; injection L as ->.
    - (* the lock file may be another one by now *)
      destruct (recheck && negb (match slock w with Some l => Nat.eqb l k | None => false end)) eqn:RC.
      + exists (at_pc j (SOpening c) (hold k None w)). split; [eapply leads_of_step; [unfold SaveConc.sgo; rewrite E, RC; reflexivity|apply leads_of_refl]|]. cbn. rewrite upd_at. split; [reflexivity|]. split; [reflexivity|]. intros i N. apply upd_away, N.
      + set (w1 := at_pc j (Entered k c) w). assert (G1 : sgo j w = Some w1) by (unfold SaveConc.sgo; rewrite E, RC; reflexivity).
        destruct (entered_lets_go j k c w1) as (w' & (LD & H & S' & O) & _ & _); [cbn; apply upd_at|]. exists w'. split; [exact (leads_of_step _ _ _ _ G1 LD)|]. split; [exact H|]. split; [exact S'|]. intros i N. rewrite (O i N). cbn. apply upd_away, N.
    - destruct (entered_lets_go j k c w E) as (w' & H & _). eauto.
    - destruct (write_rest j k c (List.length c - n) n w (le_n _) (W _ _ _ _ E) E) as (w' & H & _). eauto.
    - exists (at_pc j SUnlinking (hold k None w)). split; [eapply leads_of_step; [unfold SaveConc.sgo; rewrite E; reflexivity|apply leads_of_refl]|]. cbn. rewrite upd_at. split; [reflexivity|]. split; [reflexivity|]. intros i N. apply upd_away, N.
    - exists (at_pc j Idle (hold k None w)). split; [eapply leads_of_step; [unfold SaveConc.sgo; rewrite E; reflexivity|apply leads_of_refl]|]. cbn. rewrite upd_at. split; [reflexivity|]. split; [reflexivity|]. intros i N. apply upd_away, N.
  Qed.

  (** *** To the end *)
  Definition done i (o : option bytes) w : Prop := exists w', leads w w' /\ sprocs w' i = Idle /\ forall c, o = Some c -> file w' = Some c.
  Lemma done_step i o w w1 : sgo i w = Some w1 -> done i o w1 -> done i o w.
  Proof. intros G (w' & L & H). exists w'. split; [|exact H]. apply (leads_trans _ w1); [|exact L]. apply (leads_of_leads i). apply (leads_of_step _ _ _ _ G), leads_of_refl. Qed.
  Lemma done_leads i o w w1 : leads w w1 -> done i o w1 -> done i o w.
  Proof. intros L0 (w' & L & H). exists w'. split; [exact (leads_trans _ _ _ L0 L)|exact H]. Qed.
  Lemma done_unlinking i o w : sprocs w i = SUnlinking -> (forall c, o = Some c -> file w = Some c) -> done i o w.
  Proof.
    intros E F. exists (at_pc i Idle (if unlinks then with_lock None w else w)). split; [apply (leads_of_leads i); eapply leads_of_step; [unfold SaveConc.sgo; rewrite E; reflexivity|apply leads_of_refl]|].
    cbn. destruct unlinks; cbn; rewrite upd_at; auto.
  Qed.
  Lemma done_entered i k c w : sprocs w i = Entered k c -> done i (Some c) w.
  Proof. intros E. destruct (entered_lets_go i k c w E) as (w' & (L & _) & U & F). apply (done_leads _ _ _ w' (leads_of_leads _ _ _ L)), done_unlinking; [exact U|]. intros c' X. injection X as <-. exact F. Qed.
  Lemma done_opening i c w : locks w -> within w -> sprocs w i = SOpening c -> done i (Some c) w.
  Proof.
    intros L W E.
    assert (X : exists k w1, sgo i w = Some w1 /\ sprocs w1 i = SFlocking k c /\ slock w1 = Some k).
    { unfold SaveConc.sgo. rewrite E. destruct (slock w) as [k|] eqn:SL; do 2 eexists; (split; [reflexivity|]); cbn; rewrite upd_at; auto. }
    destruct X as (k & w1 & G & E1 & SL). apply (done_step _ _ _ w1 G).
    assert (LD1 : leads w w1) by (apply (leads_of_leads i); apply (leads_of_step _ _ _ _ G), leads_of_refl). pose proof (leads_locks _ _ LD1 L) as L1. pose proof (leads_within _ _ LD1 W) as W1.
    (* whoever has the lock lets go *)
    assert (Y : exists w2, leads w1 w2 /\ sprocs w2 i = SFlocking k c /\ slock w2 = Some k /\ sholder w2 k = None).
    { destruct (sholder w1 k) as [j|] eqn:SH; [|exists w1; split; [apply (leads_of_leads i), leads_of_refl|auto]].
      destruct L1 as (H & _). pose proof (proj2 (H j k) SH) as LJ. destruct (holder_lets_go j k w1 W1 LJ) as (w2 & LD & HN & S2 & O). exists w2. split; [exact (leads_of_leads _ _ _ LD)|].
      rewrite S2, (O i); [auto|]. intros ->. rewrite E1 in LJ. discriminate LJ. }
    destruct Y as (w2 & LD & E2 & S2 & H2). apply (done_leads _ _ _ w2 LD).
    set (w3 := at_pc i (SChecking k c) (hold k (Some i) w2)). apply (done_step _ _ _ w3); [unfold SaveConc.sgo; rewrite E2, H2; reflexivity|].
    apply (done_step _ _ _ (at_pc i (Entered k c) w3)); [unfold SaveConc.sgo, w3; cbn; rewrite upd_at, S2, Nat.eqb_refl, andb_false_r; reflexivity|].
    apply (done_entered i k c). cbn. apply upd_at.
  Qed.
  Lemma done_checking i k c w : locks w -> within w -> sprocs w i = SChecking k c -> done i (Some c) w.
  Proof.
    intros L W E. destruct (sgo i w) as [w1|] eqn:G; [|unfold SaveConc.sgo in G; rewrite E in G; destruct (recheck && _); discriminate]. apply (done_step _ _ _ w1 G).
    assert (LD1 : leads w w1) by (apply (leads_of_leads i); apply (leads_of_step _ _ _ _ G), leads_of_refl). unfold SaveConc.sgo in G. rewrite E in G. destruct (recheck && _); injection G as <-.
    - apply done_opening; [exact (leads_locks _ _ LD1 L)|exact (leads_within _ _ LD1 W)|]. cbn. apply upd_at.
    - apply (done_entered i k c). cbn. apply upd_at.
  Qed.
  Lemma done_flocking i k c w : locks w -> within w -> sprocs w i = SFlocking k c -> done i (Some c) w.
  Proof.
    intros L W E. destruct (sgo i w) as [w1|] eqn:G; [|unfold SaveConc.sgo in G; rewrite E in G; destruct (sholder w k); discriminate]. apply (done_step _ _ _ w1 G).
    assert (LD1 : leads w w1) by (apply (leads_of_leads i); apply (leads_of_step _ _ _ _ G), leads_of_refl). unfold SaveConc.sgo in G. rewrite E in G. destruct (sholder w k); injection G as <-.
    - apply done_opening; [exact (leads_locks _ _ LD1 L)|exact (leads_within _ _ LD1 W)|]. cbn. apply upd_at.
    - apply (done_checking i k c); [exact (leads_locks _ _ LD1 L)|exact (leads_within _ _ LD1 W)|]. cbn. apply upd_at.
  Qed.
  (** The text of a process that has not opened the file yet. *)
  Definition to_save (p : spc) : option bytes := match p with SOpening c | SFlocking _ c | SChecking _ c | Entered _ c => Some c | _ => None end.
  Lemma done_all i w : locks w -> within w -> done i (to_save (sprocs w i)) w.
  Proof.
    intros L W. destruct (sprocs w i) as [|c|k c|k c|k c|k c n|k c| |k] eqn:E; cbn [to_save].
    - exists w. split; [apply (leads_of_leads i), leads_of_refl|]. split; [exact E|discriminate].
    - apply done_opening; assumption.
    - apply (done_flocking i k c); assumption.
    - apply (done_checking i k c); assumption.
    - apply (done_entered i k c); assumption.
    - destruct (write_rest i k c (List.length c - n) n w (le_n _) (W _ _ _ _ E) E) as (w' & (LD & _) & U & _). apply (done_leads _ _ _ w' (leads_of_leads _ _ _ LD)), done_unlinking; [exact U|discriminate].
    - apply (done_step _ _ _ (at_pc i SUnlinking (hold k None w))); [unfold SaveConc.sgo; rewrite E; reflexivity|]. apply done_unlinking; [cbn; apply upd_at|discriminate].
    - apply done_unlinking; [exact E|discriminate].
    - eexists. split; [apply (leads_of_leads i); eapply leads_of_step; [unfold SaveConc.sgo; rewrite E; reflexivity|apply leads_of_refl]|]. cbn. rewrite upd_at. split; [reflexivity|discriminate].
  Qed.
  Lemma run_done l f b w i : srun l (disk0 f b) = Some w -> done i (to_save (sprocs w i)) w.
  Proof.
    intros R. assert (X : forall l w0, srun l w0 = Some w -> locks w0 -> within w0 -> locks w /\ within w).
    { clear l R. induction l as [|a l IH]; intros w0 R L W; cbn in R; [injection R as <-; auto|]. destruct (sperform a w0) as [w1|] eqn:P; [|discriminate]. apply (IH w1 R); [exact (perform_locks _ _ _ _ _ P L)|exact (perform_within _ _ _ P W)]. }
    destruct (X l _ R) as [L W]; [apply (disk0_ok [] f b)|intros j k c n; discriminate|]. apply done_all; assumption.
  Qed.
End SaveEnds.
