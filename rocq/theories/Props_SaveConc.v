(** C137: what is in the configuration file when several processes save it. *)
From Verif Require Import PyBase Protocol ProtocolProofs SaveConc SaveConcProofs SaveConcProofs2 SaveConcProofs3.

(** The texts that were to be saved in a run. *)
Definition texts (l : list sact) : list bytes := flat_map (fun a => match a with Save _ c => [c] | _ => [] end) l.
Lemma texts_in l i c : In (Save i c) l -> In c (texts l).
Proof. intros H. apply in_flat_map. exists (Save i c). cbn. auto. Qed.
Definition calls (l : list sact) : nat := List.length (texts l).
Lemma calls_saves l : calls l = saves l.
Proof. unfold calls, texts, saves. induction l as [|[i c|i|i|i] l IH]; cbn; auto. Qed.
(** A process that is between opening the file and the end of the with block. *)
Definition at_work (w : disk) (i : nat) : Prop := match sprocs w i with Entered _ _ | SWriting _ _ _ | SReleasing _ _ => True | _ => False end.
Definition writing (w : disk) : Prop := exists i k c n, sprocs w i = SWriting k c n.

Section C137.
  Variable recheck unlinks : bool.
  Notation srun := (srun recheck unlinks).
  (** Lock files are never deleted, or there are at most two calls altogether. *)
  Definition few (l : list sact) : Prop := unlinks = false \/ (calls l <= 2)%nat.
  Lemma few_all l f b w : few l -> srun l (disk0 f b) = Some w ->
    (alone_locked w /\ progress (texts l) f w) /\ ((forall a, In a l -> match a with SFail _ | SCrash _ => False | _ => True end) -> whole (texts l) f w).
  Proof.
    intros F R. destruct (disk0_ok (texts l) f b) as (L & S & C & K & P & W).
    destruct (run_all recheck unlinks (texts l) f l (disk0 f b) 0 w R L) as [H1 H2]; [|apply texts_in|exact K|exact P|].
    - destruct F as [U|N]; [left; auto|right]. split; [exact C|]. rewrite <- calls_saves. exact N.
    - split; [exact H1|]. intros NF. apply H2; assumption.
  Qed.
  (** No two processes are at work on the file. *)
  Theorem C137_one_at_a_time_partial l f b w i j : few l -> srun l (disk0 f b) = Some w -> at_work w i -> at_work w j -> i = j.
  Proof.
    intros F R I J. destruct (few_all l f b w F R) as [[AL _] _]. apply AL; unfold at_work in *; [destruct (sprocs w i)|destruct (sprocs w j)]; try contradiction; discriminate.
  Qed.
  (** The file holds what it held, or the beginning of one text: never a mixture, even when
      processes fail or die. *)
  Theorem C137_no_mixture_partial l f b w : few l -> srun l (disk0 f b) = Some w -> file w = f \/ exists c n, In c (texts l) /\ file w = Some (firstn n c).
  Proof. intros F R. destruct (few_all l f b w F R) as [[_ (_ & _ & H)] _]. exact H. Qed.
  (** A process that has written and closed the file and still has the lock has saved its text. *)
  Theorem C137_saved_partial l f b w i k c : few l -> srun l (disk0 f b) = Some w -> sprocs w i = SReleasing k c -> file w = Some c.
  Proof. intros F R E. destruct (few_all l f b w F R) as [[_ (_ & H & _)] _]. exact (H _ _ _ E). Qed.
  (** When no process fails or dies, the file holds what it held or a whole text whenever nobody is
      writing. *)
  Theorem C137_whole_partial l f b w : few l -> srun l (disk0 f b) = Some w -> (forall a, In a l -> match a with SFail _ | SCrash _ => False | _ => True end) -> ~ writing w ->
    file w = f \/ exists c, In c (texts l) /\ file w = Some c.
  Proof. intros F R NF NW. destruct (few_all l f b w F R) as [_ H]. apply (H NF). intros i k c n E. apply NW. exists i, k, c, n. exact E. Qed.
  (** Without any condition: every byte of the file is what it was, or comes from that place of one
      of the texts, or is zero. *)
  Theorem C137_bytes l f b w t p x : srun l (disk0 f b) = Some w -> file w = Some t -> nth_error t p = Some x ->
    x = 0%nat \/ (exists t0, f = Some t0 /\ nth_error t0 p = Some x) \/ exists c, In c (texts l) /\ nth_error c p = Some x.
  Proof.
    intros R. destruct (disk0_ok (texts l) f b) as (_ & _ & _ & K & _). apply (run_bytes recheck unlinks (texts l) f l (disk0 f b) w R (texts_in l) K). intros t0 q y E N. right. left. exists t0. auto.
  Qed.
  (** From every state, also after failures and deaths, a process that is saving can be brought to
      the end by steps of processes, and if it had not opened the file yet its text is then in it:
      nobody waits for ever. *)
  Theorem C137_can_finish l f b w i : srun l (disk0 f b) = Some w -> exists l' w', Forall (fun a => exists j, a = SGo j) l' /\ srun (l ++ l') (disk0 f b) = Some w' /\ sprocs w' i = Idle /\
    forall c, (sprocs w i = SOpening c \/ exists k, sprocs w i = SFlocking k c \/ sprocs w i = SChecking k c \/ sprocs w i = Entered k c) -> file w' = Some c.
  Proof.
    intros R. destruct (run_done recheck unlinks l f b w i R) as (w' & (l' & F & R') & I & X). exists l', w'. split; [exact F|]. split; [exact (srun_app _ _ _ _ _ _ _ R R')|]. split; [exact I|].
    intros c H. apply X. destruct H as [->|(k & [->|[->| ->]])]; reflexivity.
  Qed.
End C137.

(** ** Refuted *)
Definition go (i n : nat) : list sact := repeat (SGo i) n.
(** Two processes, one of which saves twice: it deletes, after its first save, the lock file that the
    other has locked; its second save makes a new one, and both write at once.  Neither fails, and
    with both versions of the lock package the file ends up with a text that is no beginning of
    anything that was saved. *)
Theorem C137_mixed_refuted recheck : exists l w, srun recheck true l (disk0 (Some [7; 7]%nat) false) = Some w /\
  (forall i, sprocs w i = Idle) /\ (forall a, In a l -> match a with SFail _ | SCrash _ => False | Save i _ | SGo i => (i < 2)%nat end) /\
  texts l = [[1; 1]; [1; 2; 3]; [5; 6]]%nat /\ file w = Some [5; 6; 3]%nat /\ forall c n, In c (texts l) -> file w <> Some (firstn n c).
Proof.
  exists ([Save 0 [1; 1]] ++ go 0 8 ++ [Save 1 [1; 2; 3]] ++ go 1 3 ++ go 0 1 ++ [Save 0 [5; 6]] ++ go 0 4 ++ go 1 4 ++ go 0 2 ++ go 1 3 ++ go 0 3)%nat.
  destruct recheck; eexists; (split; [vm_compute; reflexivity|]); (split; [intros [|[|i]]; reflexivity|]);
    (split; [intros a A; cbn in A; repeat (destruct A as [<-|A]; [cbn; lia|]); contradiction|]); (split; [reflexivity|]); (split; [reflexivity|]);
    intros c n C; cbn in C; repeat (destruct C as [<-|C]; [destruct n as [|[|[|n]]]; cbn; try discriminate; destruct n; discriminate|]); contradiction.
Qed.
(** Nobody locks the file to read it: with one process saving and nothing going wrong, another that
    starts meanwhile finds it empty, though both the old and the new text are not. *)
Theorem C137_read_refuted recheck unlinks : exists l w, srun recheck unlinks l (disk0 (Some [7; 7]%nat) false) = Some w /\ texts l = [[1; 2]]%nat /\ file w = Some [].
Proof. exists ([Save 0 [1; 2]] ++ go 0 4)%nat. destruct recheck, unlinks; eexists; vm_compute; auto. Qed.

(** ** The hypotheses are met *)
(** Two calls that overlap, in both orders of the lock; the deletion of the lock file happens while
    the other process has it locked. *)
Definition overlap : list sact := ([Save 0 [1; 1]; Save 1 [1; 2; 3]] ++ go 0 2 ++ go 1 2 ++ go 0 6 ++ go 1 3 ++ go 0 1 ++ go 1 2)%nat.
Example C137_few_met recheck : few true overlap /\ exists w k, srun recheck true overlap (disk0 None true) = Some w /\ sprocs w 0%nat = Idle /\ sprocs w 1%nat = SWriting k [1; 2; 3]%nat 1 /\ file w = Some [1]%nat.
Proof. split; [right; vm_compute; lia|]. destruct recheck; do 2 eexists; vm_compute; auto. Qed.
Example C137_saved_met recheck : exists w k, srun recheck true (overlap ++ go 1 3) (disk0 None true) = Some w /\ sprocs w 1%nat = SReleasing k [1; 2; 3]%nat /\ file w = Some [1; 2; 3]%nat /\ few true (overlap ++ go 1 3).
Proof. destruct recheck; do 2 eexists; (split; [vm_compute; reflexivity|]); (split; [reflexivity|]); (split; [reflexivity|]); right; vm_compute; lia. Qed.
(** A process waits for a lock whose holder is about to delete its file. *)
Example C137_can_finish_met recheck : exists w k, srun recheck true ([Save 0 [1; 1]; Save 1 [1; 2; 3]] ++ go 0 8 ++ go 1 1)%nat (disk0 None true) = Some w /\ sprocs w 1%nat = SFlocking k [1; 2; 3]%nat /\ sprocs w 0%nat = SUnlinking.
Proof. destruct recheck; do 2 eexists; vm_compute; auto. Qed.
(** Three calls, with lock files left where they are: the schedule above gives no mixture. *)
Example C137_kept_met : exists l w, calls l = 3%nat /\ srun true false l (disk0 (Some [7; 7]%nat) false) = Some w /\ (forall i, sprocs w i = Idle) /\ file w = Some [5; 6]%nat.
Proof. exists ([Save 0 [1; 1]] ++ go 0 8 ++ [Save 1 [1; 2; 3]] ++ go 1 3 ++ go 0 1 ++ [Save 0 [5; 6]] ++ go 0 4 ++ go 1 7 ++ go 0 9)%nat. eexists. split; [reflexivity|]. split; [vm_compute; reflexivity|]. split; [intros [|[|i]]; reflexivity|reflexivity]. Qed.

Print Assumptions C137_one_at_a_time_partial.
Print Assumptions C137_no_mixture_partial.
Print Assumptions C137_saved_partial.
Print Assumptions C137_whole_partial.
Print Assumptions C137_bytes.
Print Assumptions C137_can_finish.
Print Assumptions C137_mixed_refuted.
Print Assumptions C137_read_refuted.
