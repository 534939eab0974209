(** What is in the configuration file while processes save it. *)
From Verif Require Import PyBase Protocol ProtocolProofs SaveConc SaveConcProofs.

Section SaveFile.
  Variable recheck unlinks : bool.
  Set Default Proof Using "recheck unlinks".
  Notation sperform := (sperform recheck unlinks).
  Notation srun := (srun recheck unlinks).
  Variable saved : list bytes.
  Variable f0 : option bytes.
  Implicit Types (w : disk) (c : bytes).
  Ltac other i j := destruct (Nat.eq_dec j i) as [->|]; [rewrite ?upd_at in *|rewrite ?upd_away in * by assumption].

  Definition text (p : spc) : option bytes :=
    match p with SOpening c | SFlocking _ c | SChecking _ c | Entered _ c | SWriting _ c _ | SReleasing _ c => Some c | _ => None end.
  Definition known w : Prop := forall i c, text (sprocs w i) = Some c -> In c saved.
  Definition progress w : Prop :=
    (forall i k c n, sprocs w i = SWriting k c n -> (n <= List.length c)%nat /\ file w = Some (firstn n c)) /\
    (forall i k c, sprocs w i = SReleasing k c -> file w = Some c) /\
    (file w = f0 \/ exists c n, In c saved /\ file w = Some (firstn n c)).
  Lemma write_next c n b : nth_error c n = Some b -> write_at (firstn n c) n b = firstn (S n) c.
  Proof using Type.
    intros N. assert (L : List.length (firstn n c) = n) by (apply firstn_length_le; assert (n < List.length c)%nat by (apply nth_error_Some; congruence); lia).
    rewrite <- L at 2. rewrite write_at_end. symmetry. apply firstn_nth, N.
  Qed.
  Ltac quiet := split; [intros j N; apply upd_away, N|]; split; [split; [reflexivity|cbn; congruence]|]; left; split; [reflexivity|]; split; [discriminate|]; split; [discriminate|]; right; right; discriminate.
  (** What a step does to the others, to its own process and to the file. *)
  Lemma perform_cases a w w' : sperform a w = Some w' -> exists i,
    (forall j, j <> i -> sprocs w' j = sprocs w j) /\
    (match a with Save j c => j = i /\ sprocs w' i = SOpening c | SGo j | SFail j | SCrash j => j = i /\ (forall c, text (sprocs w' i) = Some c -> text (sprocs w i) = Some c) end) /\
    ((file w' = file w /\ (forall k c n, sprocs w' i <> SWriting k c n) /\ (forall k c, sprocs w' i = SReleasing k c -> exists n, sprocs w i = SWriting k c n /\ nth_error c n = None) /\
      ((exists j, a = SFail j \/ a = SCrash j) \/ (exists k c n, sprocs w i = SWriting k c n /\ sprocs w' i = SReleasing k c) \/ forall k c n, sprocs w i <> SWriting k c n)) \/
     (exists k c, sprocs w i = Entered k c /\ sprocs w' i = SWriting k c 0 /\ file w' = Some []) \/
     (exists k c n b, sprocs w i = SWriting k c n /\ nth_error c n = Some b /\ sprocs w' i = SWriting k c (S n) /\ file w' = Some (write_at (content w) n b))).
  Proof using Type.
    intros P. destruct a as [i c|i|i|i]; cbn in P; exists i.
    - destruct (sprocs w i) eqn:E; try discriminate. injection P as <-. cbn. rewrite upd_at. split; [intros j N; apply upd_away, N|]. split; [auto|]. left. repeat split; try discriminate. right. right. discriminate.
    - unfold sgo in P. destruct (sprocs w i) as [|c|k c|k c|k c|k c n|k c| |k] eqn:E; try discriminate.
      + destruct (slock w) as [k|]; injection P as <-; cbn; rewrite upd_at; quiet.
      + destruct (sholder w k); injection P as <-; cbn; rewrite upd_at; quiet.
      + destruct (recheck && _); injection P as <-; cbn; rewrite upd_at; quiet.
      + injection P as <-. cbn. rewrite upd_at. split; [intros j N; apply upd_away, N|]. split; [split; [reflexivity|cbn; congruence]|]. right. left. eauto 6.
      + destruct (nth_error c n) as [b|] eqn:NB; injection P as <-; cbn; rewrite upd_at; (split; [intros j N; apply upd_away, N|]; split; [split; [reflexivity|cbn; congruence]|]).
        * right. right. exists k, c, n, b. auto.
        * left. split; [reflexivity|]. split; [discriminate|]. split; [intros k' c' X; injection X as <- <-; eauto|]. right. left. exists k, c, n. auto.
      + injection P as <-. cbn. rewrite upd_at. quiet.
      + injection P as <-. destruct unlinks; cbn; rewrite upd_at; quiet.
      + injection P as <-. cbn. rewrite upd_at. quiet.
    - destruct (sprocs w i) as [|c|k c|k c|k c|k c n|k c| |k] eqn:E; try discriminate; injection P as <-; cbn; rewrite upd_at; (split; [intros j N; apply upd_away, N|]; split; [split; [reflexivity|discriminate]|]; left; repeat split; try discriminate; left; eauto).
    - injection P as <-. destruct (locked_by (sprocs w i)); cbn; rewrite upd_at; (split; [intros j N; apply upd_away, N|]; split; [split; [reflexivity|discriminate]|]; left; repeat split; try discriminate; left; eauto).
  Qed.
  Lemma perform_known a w w' : sperform a w = Some w' -> (forall i c, a = Save i c -> In c saved) -> known w -> known w'.
  Proof using Type.
    intros P S K j c T. destruct (perform_cases a w w' P) as (i & O & X & _). destruct (Nat.eq_dec j i) as [->|N]; [|rewrite (O j N) in T; exact (K _ _ T)].
    destruct a as [q d|q|q|q]; destruct X as [-> X]; try exact (K _ _ (X _ T)). rewrite X in T. injection T as <-. eapply S. reflexivity.
  Qed.
  Lemma perform_progress a w w' : sperform a w = Some w' -> alone_locked w -> known w -> progress w -> progress w'.
  Proof using Type.
    intros P AL K (W & R & F). destruct (perform_cases a w w' P) as (i & O & _ & C).
    (* nobody else writes or has just written *)
    assert (NW : locked_by (sprocs w i) <> None -> forall j, j <> i -> locked_by (sprocs w j) = None).
    { intros LI j N. destruct (locked_by (sprocs w j)) eqn:E; [|reflexivity]. exfalso. apply N, AL; [congruence|exact LI]. }
    destruct C as [(FE & N1 & N2 & _)|[(k & c & E1 & E2 & FE)|(k & c & n & b & E1 & NB & E2 & FE)]]; unfold progress; rewrite FE.
    - split; [|split; [|exact F]].
      + intros j k c n J. destruct (Nat.eq_dec j i) as [->|N]; [exfalso; exact (N1 _ _ _ J)|]. rewrite (O j N) in J. exact (W _ _ _ _ J).
      + intros j k c J. destruct (Nat.eq_dec j i) as [->|N]; [|rewrite (O j N) in J; exact (R _ _ _ J)]. destruct (N2 k c J) as (n & E & NN). destruct (W _ _ _ _ E) as [_ X]. rewrite X. f_equal. apply firstn_all2, nth_error_None, NN.
    - assert (N' := NW ltac:(rewrite E1; discriminate)). split; [|split].
      + intros j k' c' n J. destruct (Nat.eq_dec j i) as [->|N]; [rewrite E2 in J; injection J as <- <- <-; split; [apply Nat.le_0_l|reflexivity]|]. specialize (N' j N). rewrite (O j N) in J. rewrite J in N'. discriminate N'.
      + intros j k' c' J. destruct (Nat.eq_dec j i) as [->|N]; [congruence|]. specialize (N' j N). rewrite (O j N) in J. rewrite J in N'. discriminate N'.
      + right. exists c, 0%nat. split; [apply (K i); rewrite E1; reflexivity|reflexivity].
    - assert (N' := NW ltac:(rewrite E1; discriminate)). destruct (W _ _ _ _ E1) as [LE FW]. unfold content in *. rewrite FW. rewrite (write_next c n b NB). split; [|split].
      + intros j k' c' n' J. destruct (Nat.eq_dec j i) as [->|N]; [rewrite E2 in J; injection J as <- <- <-; split; [|reflexivity]; apply nth_error_Some; congruence|]. specialize (N' j N). rewrite (O j N) in J. rewrite J in N'. discriminate N'.
      + intros j k' c' J. destruct (Nat.eq_dec j i) as [->|N]; [congruence|]. specialize (N' j N). rewrite (O j N) in J. rewrite J in N'. discriminate N'.
      + right. exists c, (S n). split; [apply (K i); rewrite E1; reflexivity|reflexivity].
  Qed.
  (** When no process fails, the text is whole whenever nobody writes. *)
  Definition whole w : Prop := (forall i k c n, sprocs w i <> SWriting k c n) -> file w = f0 \/ exists c, In c saved /\ file w = Some c.
  Lemma perform_whole a w w' : sperform a w = Some w' -> (forall i, a <> SFail i /\ a <> SCrash i) -> known w -> progress w -> progress w' -> whole w -> whole w'.
  Proof using Type.
    intros P NF K (W & _) (_ & R' & _) H N. destruct (perform_cases a w w' P) as (i & O & _ & C).
    destruct C as [(FE & _ & _ & [(j & [X|X])|[(k & c & n & E1 & E2)|X]])|[(k & c & _ & E2 & _)|(k & c & n & b & _ & _ & E2 & _)]]; try (exfalso; exact (N _ _ _ _ E2)).
    - exfalso. apply (proj1 (NF j)), X.
    - exfalso. apply (proj2 (NF j)), X.
    - right. exists c. split; [apply (K i); rewrite E1; reflexivity|exact (R' _ _ _ E2)].
    - rewrite FE. apply H. intros j k c n J. destruct (Nat.eq_dec j i) as [->|NJ]; [exact (X _ _ _ J)|]. apply (N j k c n). rewrite (O j NJ). exact J.
  Qed.

  (** *** Runs *)
  Lemma saves_cons a l : saves (a :: l) = (call_of a + saves l)%nat.
  Proof using Type. unfold saves. destruct a; reflexivity. Qed.
  Lemma run_all l : forall w n w', srun l w = Some w' -> locks w -> (unlinks = false /\ same_lock w \/ counted n w /\ (n + saves l <= 2)%nat) -> (forall i c, In (Save i c) l -> In c saved) -> known w -> progress w ->
    (alone_locked w' /\ progress w') /\ ((forall a, In a l -> match a with SFail _ | SCrash _ => False | _ => True end) -> whole w -> whole w').
  Proof.
    induction l as [|a l IH]; intros w n w' R L C S K P; cbn [SaveConc.srun] in R.
    - injection R as <-. split; [split; [|exact P]|auto]. destruct C as [[_ C]|[C N]]; [apply same_alone; assumption|]. apply (counted_alone n); auto. cbn in N. lia.
    - destruct (sperform a w) as [w1|] eqn:PE; [|discriminate R].
      assert (AL : alone_locked w) by (destruct C as [[_ C]|[C N]]; [apply same_alone; assumption|apply (counted_alone n); auto; lia]).
      assert (K1 : known w1) by (apply (perform_known a w w1 PE); [intros i c ->; eapply S; left; reflexivity|exact K]). pose proof (perform_progress a w w1 PE AL K P) as P1.
      assert (C1 : unlinks = false /\ same_lock w1 \/ counted (n + call_of a) w1 /\ ((n + call_of a) + saves l <= 2)%nat).
      { destruct C as [[U C]|[C N]]; [left; split; [exact U|]; apply (perform_same _ _ _ _ _ PE); [intros [X _]; congruence|exact C]|right]. split; [exact (perform_counted _ _ _ _ _ _ PE C)|]. rewrite saves_cons in N. lia. }
      destruct (IH w1 _ w' R (perform_locks _ _ _ _ _ PE L) C1 ltac:(intros; eapply S; right; eassumption) K1 P1) as [H1 H2]. split; [exact H1|]. intros NF WH. apply H2; [intros b B; apply NF; right; exact B|].
      apply (perform_whole a w w1 PE); auto. intros i. specialize (NF a (or_introl eq_refl)). split; intros ->; exact NF.
  Qed.
  Lemma disk0_ok b : locks (disk0 f0 b) /\ same_lock (disk0 f0 b) /\ counted 0 (disk0 f0 b) /\ known (disk0 f0 b) /\ progress (disk0 f0 b) /\ whole (disk0 f0 b).
  Proof using Type.
    assert (SL : same_lock (disk0 f0 b)) by (intros i k; discriminate). repeat split; try discriminate; auto.
    - intros k X. cbn in *. destruct b; [injection X as <-; lia|discriminate].
    - exists []. split; [intros i; discriminate|]. left. split; [exact SL|]. cbn. lia.
    - intros _. left. reflexivity.
  Qed.

  (** *** Whatever happens: bytes *)
  Definition byte_from (p b : nat) : Prop := b = 0%nat \/ (exists l, f0 = Some l /\ nth_error l p = Some b) \/ exists c, In c saved /\ nth_error c p = Some b.
  Definition bytes_from w : Prop := forall l p b, file w = Some l -> nth_error l p = Some b -> byte_from p b.
  Lemma nth_write l n b p x : nth_error (write_at l n b) p = Some x -> x = 0%nat \/ nth_error l p = Some x \/ p = n /\ x = b.
  Proof using Type.
    unfold write_at. set (h := l ++ repeat 0%nat (n - List.length l)). assert (LH : (n <= List.length h)%nat) by (unfold h; rewrite app_length, repeat_length; lia). assert (LF : List.length (firstn n h) = n) by (apply firstn_length_le, LH).
    intros X. destruct (Nat.lt_trichotomy p n) as [LT|[->|GT]].
    - rewrite nth_error_app1 in X by (rewrite LF; exact LT). assert (FN : nth_error (firstn n h) p = nth_error h p) by (rewrite <- (firstn_skipn n h) at 2; symmetry; apply nth_error_app1; rewrite LF; exact LT). rewrite FN in X. unfold h in X. destruct (Nat.lt_ge_cases p (List.length l)) as [A|A]; [rewrite nth_error_app1 in X by exact A; auto|].
      rewrite nth_error_app2 in X by exact A. left. apply nth_error_In in X. apply repeat_spec in X. exact X.
    - rewrite nth_error_app2 in X by (rewrite LF; lia). rewrite LF, Nat.sub_diag in X. cbn in X. injection X as <-. auto.
    - rewrite nth_error_app2 in X by (rewrite LF; lia). rewrite LF in X. replace (p - n)%nat with (S (p - S n)) in X by lia. cbn [nth_error] in X. right. left. rewrite <- X. rewrite <- (firstn_skipn (S n) l) at 1. destruct (Nat.le_gt_cases (S n) (List.length l)) as [A|A].
      + rewrite nth_error_app2; rewrite firstn_length_le by exact A; [reflexivity|lia].
      + rewrite skipn_all2 in X |- * by lia. destruct (p - S n)%nat; discriminate X.
  Qed.
  Lemma perform_bytes a w w' : sperform a w = Some w' -> known w -> bytes_from w -> bytes_from w'.
  Proof using Type.
    intros P K B. destruct (perform_cases a w w' P) as (i & _ & _ & C). unfold bytes_from. destruct C as [(FE & _)|[(k & c & _ & _ & FE)|(k & c & n & b & E1 & NB & _ & FE)]]; rewrite FE.
    - exact B.
    - intros l p b X. injection X as <-. destruct p; discriminate.
    - intros l p x X Y. injection X as <-. apply nth_write in Y. destruct Y as [->|[Y|[-> ->]]]; [left; reflexivity| |right; right; exists c; split; [apply (K i); rewrite E1; reflexivity|exact NB]].
      unfold content in Y. destruct (file w) as [l|] eqn:FW; [exact (B l p x FW Y)|destruct p; discriminate].
  Qed.
  Lemma run_bytes l : forall w w', srun l w = Some w' -> (forall i c, In (Save i c) l -> In c saved) -> known w -> bytes_from w -> bytes_from w'.
  Proof.
    induction l as [|a l IH]; intros w w' R S K B; cbn [SaveConc.srun] in R; [injection R as <-; exact B|]. destruct (sperform a w) as [w1|] eqn:PE; [|discriminate R].
    apply (IH w1 w' R); [intros; eapply S; right; eassumption| |exact (perform_bytes a w w1 PE K B)]. apply (perform_known a w w1 PE); [intros i c ->; eapply S; left; reflexivity|exact K].
  Qed.
End SaveFile.
