(** Who writes the configuration file, and what is in it. *)
From Verif Require Import PyBase Protocol ProtocolProofs SaveConc.

Section SaveProofs.
  Variable recheck unlinks : bool.
  Set Default Proof Using "recheck unlinks".
  Notation sgo := (sgo recheck unlinks).
  Notation sperform := (sperform recheck unlinks).
  Notation srun := (srun recheck unlinks).
  Implicit Types (w : disk) (c : bytes).

  Lemma upd_at {A} (f : nat -> A) i v : upd f i v i = v.
  Proof using Type. unfold upd. rewrite Nat.eqb_refl. reflexivity. Qed.
  Lemma upd_away {A} (f : nat -> A) i j v : j <> i -> upd f i v j = f j.
  Proof using Type. intros N. unfold upd. destruct (Nat.eqb_spec j i); [contradiction|reflexivity]. Qed.

  (** The lock file a process has open. *)
  Definition opened_lock (p : spc) : option nat := match p with SFlocking k _ => Some k | _ => locked_by p end.
  Definition active (p : spc) : bool := match p with Idle => false | _ => true end.
  (** flock: an inode is held by the process that locked it. *)
  Definition locks w : Prop :=
    (forall i k, locked_by (sprocs w i) = Some k <-> sholder w k = Some i) /\
    (forall i k, opened_lock (sprocs w i) = Some k -> (k < snext w)%nat) /\ (forall k, slock w = Some k -> (k < snext w)%nat).
  Lemma locked_opened p k : locked_by p = Some k -> opened_lock p = Some k.
  Proof using Type. destruct p; cbn; congruence. Qed.
  (** No lock file was deleted while open. *)
  Definition same_lock w : Prop := forall i k, opened_lock (sprocs w i) = Some k -> slock w = Some k.
  Definition alone_locked w : Prop := forall i j, locked_by (sprocs w i) <> None -> locked_by (sprocs w j) <> None -> i = j.
  Lemma same_alone w : locks w -> same_lock w -> alone_locked w.
  Proof using Type.
    intros (H & _) S i j I J. destruct (locked_by (sprocs w i)) as [k|] eqn:EI; [|contradiction]. destruct (locked_by (sprocs w j)) as [k'|] eqn:EJ; [|contradiction].
    pose proof (S _ _ (locked_opened _ _ EI)) as SI. pose proof (S _ _ (locked_opened _ _ EJ)) as SJ. rewrite SI in SJ. injection SJ as <-. apply H in EI, EJ. rewrite EI in EJ. injection EJ as ->. reflexivity.
  Qed.

  (** *** What one step does to the locks *)
  Ltac other i j := destruct (Nat.eq_dec j i) as [->|]; [rewrite ?upd_at in *|rewrite ?upd_away in * by assumption].
  Lemma locks_keep i p w : locks w -> locked_by p = locked_by (sprocs w i) -> (forall k, opened_lock p = Some k -> (k < snext w)%nat) -> forall f, locks (at_pc i p (with_file f w)).
  Proof using Type.
    intros (H & O & L) E P f. split; [|split; [|exact L]]; intros j k; cbn; other i j; [rewrite E; apply H|apply H|apply P|apply O].
  Qed.
  Lemma locks_take i k p w : locks w -> locked_by (sprocs w i) = None -> sholder w k = None -> locked_by p = Some k -> (k < snext w)%nat -> locks (at_pc i p (hold k (Some i) w)).
  Proof using Type.
    intros (H & O & L) N F P K. split; [|split; [|exact L]].
    - intros j k'. cbn. unfold upd at 2. destruct (Nat.eqb_spec k' k) as [->|NK]; other i j.
      + rewrite P. tauto.
      + rewrite H, F. split; [discriminate|congruence].
      + rewrite P. split; [congruence|]. intros X. apply H in X. congruence.
      + apply H.
    - intros j k'. cbn. other i j; [|apply O]. intros X. apply locked_opened in P. congruence.
  Qed.
  Lemma locks_drop i k p w : locks w -> locked_by (sprocs w i) = Some k -> opened_lock p = None -> locks (at_pc i p (hold k None w)).
  Proof using Type.
    intros (H & O & L) N P. assert (LP : locked_by p = None) by (destruct (locked_by p) eqn:E; [apply locked_opened in E; congruence|reflexivity]). split; [|split; [|exact L]].
    - intros j k'. cbn. unfold upd at 2. destruct (Nat.eqb_spec k' k) as [->|NK]; other i j.
      + rewrite LP. split; discriminate.
      + split; [|discriminate]. intros X. apply H in X. apply H in N. congruence.
      + rewrite LP. split; [discriminate|]. intros X. apply H in X. congruence.
      + apply H.
    - intros j k'. cbn. other i j; [congruence|apply O].
  Qed.
  Lemma with_same w : with_file (file w) w = w.
  Proof using Type. destruct w. reflexivity. Qed.
  Lemma locks_keep0 i p w : locks w -> locked_by p = locked_by (sprocs w i) -> (forall k, opened_lock p = Some k -> (k < snext w)%nat) -> locks (at_pc i p w).
  Proof using Type. intros L E P. rewrite <- (with_same w). apply locks_keep; assumption. Qed.
  Lemma perform_locks a w w' : sperform a w = Some w' -> locks w -> locks w'.
  Proof.
    intros P L. pose proof L as (H & O & LL). destruct a as [i c|i|i|i]; cbn in P.
    - destruct (sprocs w i) eqn:E; try discriminate. injection P as <-. apply locks_keep0; [exact L|rewrite E; reflexivity|discriminate].
    - unfold SaveConc.sgo in P. pose proof (O i) as OI. destruct (sprocs w i) as [|c|k c|k c|k c|k c n|k c| |k] eqn:E; try discriminate.
      + destruct (slock w) as [k|] eqn:SL; injection P as <-.
        * apply locks_keep0; [exact L|rewrite E; reflexivity|]. cbn. intros k' X. injection X as <-. apply LL. reflexivity.
        * set (w1 := mkDisk _ _ _ _ _). assert (L1 : locks w1).
          { split; [exact H|]. split; [intros j k X; specialize (O j k X); cbn; lia|]. cbn. intros k X. injection X as <-. lia. }
          apply locks_keep0; [exact L1|cbn; rewrite E; reflexivity|]. cbn. intros k' X. injection X as <-. lia.
      + destruct (sholder w k) as [h|] eqn:SH; injection P as <-.
        * apply locks_keep0; [exact L|rewrite E; reflexivity|discriminate].
        * apply locks_take; [exact L|rewrite E; reflexivity|exact SH|reflexivity|apply OI; reflexivity].
      + destruct (recheck && _); injection P as <-.
        * apply locks_drop; [exact L|rewrite E; reflexivity|reflexivity].
        * apply locks_keep0; [exact L|rewrite E; reflexivity|]. intros k' X. apply OI. exact X.
      + injection P as <-. apply locks_keep; [exact L|rewrite E; reflexivity|]. intros k' X. apply OI. exact X.
      + destruct (nth_error c n); injection P as <-; [apply locks_keep|apply locks_keep0]; try exact L; try (rewrite E; reflexivity); intros k' X; apply OI; exact X.
      + injection P as <-. apply locks_drop; [exact L|rewrite E; reflexivity|reflexivity].
      + injection P as <-. destruct unlinks; [|apply locks_keep0; [exact L|rewrite E; reflexivity|discriminate]].
        apply locks_keep0; [|cbn; rewrite E; reflexivity|discriminate]. split; [exact H|]. split; [exact O|]. discriminate.
      + injection P as <-. apply locks_drop; [exact L|rewrite E; reflexivity|reflexivity].
    - pose proof (O i) as OI. destruct (sprocs w i) as [|c|k c|k c|k c|k c n|k c| |k] eqn:E; try discriminate; injection P as <-; (apply locks_keep0; [exact L|rewrite E; reflexivity|intros k' X; apply OI; exact X]).
    - injection P as <-. destruct (locked_by (sprocs w i)) as [k|] eqn:E; [apply locks_drop; auto|]. apply locks_keep0; [exact L|rewrite E; reflexivity|discriminate].
  Qed.

  (** *** As long as no lock file is deleted *)
  Definition unlinking a w : Prop := unlinks = true /\ exists i, a = SGo i /\ sprocs w i = SUnlinking.
  Lemma perform_same a w w' : sperform a w = Some w' -> ~ unlinking a w -> same_lock w -> same_lock w'.
  Proof.
    intros P NU S. assert (KEEP : forall i p w1, sprocs w1 = sprocs w -> slock w1 = slock w -> (forall k, opened_lock p = Some k -> slock w = Some k) -> same_lock (at_pc i p w1)).
    { intros i p w1 E1 E2 X j k. cbn. rewrite E1, E2. other i j; [apply X|apply S]. }
    destruct a as [i c|i|i|i]; cbn in P.
    - destruct (sprocs w i) eqn:E; try discriminate. injection P as <-. apply KEEP; auto; discriminate.
    - unfold SaveConc.sgo in P. pose proof (S i) as SI. destruct (sprocs w i) as [|c|k c|k c|k c|k c n|k c| |k] eqn:E; try discriminate.
      + destruct (slock w) as [k|] eqn:SL; injection P as <-.
        * apply KEEP; auto.
        * intros j k. cbn. other i j; [cbn; auto|]. intros X. specialize (S j k X). congruence.
      + destruct (sholder w k) as [h|] eqn:SH; injection P as <-; apply KEEP; auto; discriminate.
      + destruct (recheck && _); injection P as <-; apply KEEP; auto; discriminate.
      + injection P as <-. apply KEEP; auto.
      + destruct (nth_error c n); injection P as <-; apply KEEP; auto.
      + injection P as <-. apply KEEP; auto; discriminate.
      + injection P as <-. destruct unlinks eqn:U; [|apply KEEP; auto; discriminate]. exfalso. apply NU. split; [exact U|]. eauto.
      + injection P as <-. apply KEEP; auto; discriminate.
    - pose proof (S i) as SI. destruct (sprocs w i) as [|c|k c|k c|k c|k c n|k c| |k] eqn:E; try discriminate; injection P as <-; apply KEEP; auto.
    - injection P as <-. destruct (locked_by (sprocs w i)); apply KEEP; auto; discriminate.
  Qed.

  (** *** At most two calls *)
  Definition saves (l : list sact) : nat := List.length (filter (fun a => match a with Save _ _ => true | _ => false end) l).
  (** [n] calls so far: the active processes are in a list of that length, or of one less once a lock
      file was deleted. *)
  Definition counted (n : nat) w : Prop :=
    exists L : list nat, (forall i, active (sprocs w i) = true -> In i L) /\ ((same_lock w /\ List.length L <= n) \/ S (List.length L) <= n)%nat.
  Lemma counted_alone n w : locks w -> counted n w -> (n <= 2)%nat -> alone_locked w.
  Proof using Type.
    intros LK (L & A & [[S _]|C]) N; [apply same_alone; assumption|]. intros i j I J.
    assert (X : forall q, locked_by (sprocs w q) <> None -> In q L) by (intros q Q; apply A; destruct (sprocs w q); cbn in *; congruence).
    pose proof (X i I) as IL. pose proof (X j J) as JL. destruct L as [|x [|y L]]; [contradiction| |cbn in C; lia]. cbn in IL, JL. intuition congruence.
  Qed.
  Lemma perform_active a w w' i : sperform a w = Some w' -> active (sprocs w' i) = true -> active (sprocs w i) = true \/ exists c, a = Save i c.
  Proof.
    intros P. destruct a as [j c|j|j|j]; cbn in P.
    - destruct (sprocs w j) eqn:E; try discriminate. injection P as <-. cbn. other j i; eauto.
    - unfold SaveConc.sgo in P. destruct (sprocs w j) as [|c|k c|k c|k c|k c n|k c| |k] eqn:E; try discriminate;
        repeat match goal with H : context [match ?x with _ => _ end] |- _ => match type of x with option _ => destruct x | bool => destruct x end end; injection P as <-; cbn; other j i; rewrite ?E; cbn; auto.
    - destruct (sprocs w j) as [|c|k c|k c|k c|k c n|k c| |k] eqn:E; try discriminate; injection P as <-; cbn; other j i; rewrite ?E; cbn; auto.
    - injection P as <-. destruct (locked_by (sprocs w j)); cbn; other j i; cbn; auto; discriminate.
  Qed.
  Definition call_of (a : sact) : nat := match a with Save _ _ => 1 | _ => 0 end.
  Lemma perform_counted a w w' n : sperform a w = Some w' -> counted n w -> counted (n + call_of a) w'.
  Proof.
    intros P (L & A & C). pose proof (perform_active a w w') as PA.
    destruct a as [i c|i|i|i].
    - assert (E : sprocs w i = Idle) by (cbn in P; destruct (sprocs w i); [reflexivity|discriminate..]).
      destruct (in_dec Nat.eq_dec i L) as [IN|NI].
      + exists L. split; [intros j J; destruct (PA j P J) as [X|[c' X]]; [auto|injection X as -> ->; exact IN]|]. cbn.
        destruct C as [[S C]|C]; [left; split; [|lia]; apply (perform_same (Save i c) w w' P); [intros (_ & q & X & _); discriminate X|exact S]|right; lia].
      + exists (i :: L). split; [intros j J; destruct (PA j P J) as [X|[c' X]]; [right; auto|injection X as -> ->; left; reflexivity]|]. cbn.
        destruct C as [[S C]|C]; [left; split; [|lia]; apply (perform_same (Save i c) w w' P); [intros (_ & q & X & _); discriminate X|exact S]|right; lia].
    - rewrite Nat.add_0_r. destruct C as [[S C]|C].
      + destruct (sprocs w i) eqn:E; try (exists L; split; [intros j J; destruct (PA j P J) as [X|[c' X]]; [auto|discriminate X]|]; left; split; [|exact C]; apply (perform_same (SGo i) w w' P); [intros (_ & q & X & Y); injection X as <-; congruence|exact S]).
        (* os.unlink *)
        exists (remove Nat.eq_dec i L). split.
        * intros j J. destruct (PA j P J) as [X|[c' X]]; [|discriminate X]. apply in_in_remove; [|auto]. intros ->. cbn in P. unfold SaveConc.sgo in P. rewrite E in P. injection P as <-. destruct unlinks; cbn in J; rewrite upd_at in J; discriminate J.
        * right. assert (IN : In i L) by (apply A; rewrite E; reflexivity). pose proof (remove_length_lt Nat.eq_dec L i IN). lia.
      + exists L. split; [intros j J; destruct (PA j P J) as [X|[c' X]]; [auto|discriminate X]|right; exact C].
    - rewrite Nat.add_0_r. exists L. split; [intros j J; destruct (PA j P J) as [X|[c' X]]; [auto|discriminate X]|]. destruct C as [[S C]|C]; [left|right; exact C]. split; [|exact C]. apply (perform_same (SFail i) w w' P); [intros (_ & q & X & _); discriminate X|exact S].
    - rewrite Nat.add_0_r. exists L. split; [intros j J; destruct (PA j P J) as [X|[c' X]]; [auto|discriminate X]|]. destruct C as [[S C]|C]; [left|right; exact C]. split; [|exact C]. apply (perform_same (SCrash i) w w' P); [intros (_ & q & X & _); discriminate X|exact S].
  Qed.
End SaveProofs.
