(** C43, C50, C82: concurrent creation of a cache file, crashes included. *)
From Verif Require Import PyBase Protocol ProtocolProofs.
Set Default Proof Using "Type".

Section Props.
  (** Either version of the lock package. *)
  Variable recheck : bool.
  Variable valid : bytes -> Prop.
  Notation reachable := (reachable recheck valid).

  (** At any moment, whatever crashed or failed before: the file under the final name, if there
      is one, is the complete output of a successful creation. *)
  Theorem C43_complete_partial w j : reachable w -> final w = Some j -> valid (data w j).
  Proof using. intros R. apply (i_final _ _ (inv_reach _ _ _ R)). Qed.

  (** At most one process is between the opening of the temporary file and the renaming. *)
  Definition runs_creation (p : pc) : Prop := match p with Creating _ | Writing _ _ _ _ | Renaming _ _ => True | _ => False end.
  Theorem C50_one_creator_partial w i j : reachable w -> runs_creation (procs w i) -> runs_creation (procs w j) -> i = j.
  Proof using.
    intros R A B. assert (H : forall p, runs_creation p -> exists k, creating p = Some k) by (intros []; cbn; try contradiction; eauto).
    destruct (H _ A) as [k K]. destruct (H _ B) as [k' K']. exact (one_creator _ w i j k k' (inv_reach _ _ _ R) K K').
  Qed.
  (** Nobody creates the file while it exists. *)
  Theorem C50_not_again_partial w i : reachable w -> runs_creation (procs w i) -> final w = None.
  Proof using.
    intros R A. assert (H : exists k, creating (procs w i) = Some k) by (destruct (procs w i); cbn in *; try contradiction; eauto).
    destruct H as [k K]. apply (i_creating _ _ (inv_reach _ _ _ R) i k K).
  Qed.

  (** No temporary file lies beside a cache file. *)
  Theorem C43_no_leftover_partial w : reachable w -> final w <> None -> tmp w = None.
  Proof using.
    induction 1 as [|t l c|a w w' R IH H G E]; [reflexivity|intros F; destruct F; reflexivity|]. intros F. pose proof (inv_reach _ _ _ R) as I.
    destruct a as [i|i c|i|i|i| |]; cbn in E.
    - unfold go in E. destruct (procs w i) as [| |k|k|k|k|k ino c n|k c|k|k| |k| | |]; try discriminate E; try (inversion E; subst; exact (IH F)).
      + destruct (lockf w); inversion E; subst; exact (IH F).
      + destruct (holder w k); inversion E; subst; exact (IH F).
      + destruct (recheck && _); inversion E; subst; exact (IH F).
      + destruct (nth_error c n); inversion E; subst; exact (IH F).
      + destruct (tmp w) eqn:T; inversion E; subst; [reflexivity|exact T].
    - assert (C : exists k, creating (procs w i) = Some k) by (destruct (procs w i); try discriminate E; cbn; eauto). destruct C as [k C]. destruct (i_creating _ _ I i k C) as [FN _].
      destruct (procs w i); try discriminate E. destruct (tmp w); inversion E; subst; cbn in F; contradiction.
    - destruct (procs w i) as [| |k|k|k|k|k ino c' n|k c'|k|k| |k| | |]; try discriminate E; inversion E; subst; exact (IH F).
    - inversion E; subst. destruct (holds (procs w i)); exact (IH F).
    - destruct (procs w i) as [| |k|k|k|k|k ino c' n|k c'|k|k| |k| | |]; try discriminate E; inversion E; subst; exact (IH F).
    - inversion E; subst. reflexivity.
    - inversion E; subst. destruct F; reflexivity.
  Qed.

  (** Files that are made are new. *)
  Lemma used w : reachable w -> (forall j, tmp w = Some j -> (j < next w)%nat) /\ forall j, final w = Some j -> (j < next w)%nat.
  Proof using.
    induction 1 as [|t l c|a w w' R [IT IF] H G E]; [split; discriminate|split; [|discriminate]; intros j; destruct t; [intros Q; injection Q as <-; cbn; lia|discriminate]|].
    destruct a as [i|i c|i|i|i| |]; cbn in E.
    - unfold go in E. destruct (procs w i) as [| |k|k|k|k|k ino c n|k c|k|k| |k| | |]; try discriminate E; try (inversion E; subst; split; assumption).
      + destruct (lockf w); inversion E; subst; cbn; (split; [|]); intros j Q; [apply IT in Q|apply IF in Q|apply IT in Q|apply IF in Q]; cbn; lia.
      + destruct (holder w k); inversion E; subst; split; assumption.
      + destruct (recheck && _); inversion E; subst; split; assumption.
      + destruct (nth_error c n); inversion E; subst; split; assumption.
      + destruct (tmp w) eqn:T; inversion E; subst; cbn; [|rewrite ?T; split; assumption]. split; [discriminate|]. intros j Q. injection Q as <-. apply IT. reflexivity.
    - destruct (procs w i) as [| |k|k|k|k|k ino c' n|k c'|k|k| |k| | |]; try discriminate E. destruct (tmp w) eqn:T; inversion E; subst; cbn; [rewrite ?T; split; assumption|].
      split; intros j Q; [injection Q as <-; lia|]. apply IF in Q. lia.
    - destruct (procs w i) as [| |k|k|k|k|k ino c' n|k c'|k|k| |k| | |]; try discriminate E; inversion E; subst; split; assumption.
    - inversion E; subst. destruct (holds (procs w i)); split; assumption.
    - destruct (procs w i) as [| |k|k|k|k|k ino c' n|k c'|k|k| |k| | |]; try discriminate E; inversion E; subst; split; assumption.
    - inversion E; subst. split; [discriminate|exact IF].
    - inversion E; subst. split; [exact IT|discriminate].
  Qed.
  (** What may happen to a world afterwards. *)
  Inductive later (w : world) : world -> Prop :=
  | l_now : later w w
  | l_act a v v' : later w v -> honest valid a -> gentle a v -> perform recheck a v = Some v' -> later w v'.
  Lemma later_reachable w v : reachable w -> later w v -> reachable v.
  Proof using. intros R. induction 1 as [|a v v' L IH H G E]; [exact R|]. exact (r_act _ _ a v v' IH H G E). Qed.
  (** Nobody has a file open for writing that was put in place, not even after it was deleted. *)
  Definition at_rest (w : world) (j : nat) : Prop := (j < next w)%nat /\ tmp w <> Some j /\ forall i k c n, procs w i <> Writing k j c n.
  Lemma rest_goto w i p j : at_rest w j -> (forall k c n, p <> Writing k j c n) -> at_rest (goto i p w) j.
  Proof using. intros (N & T & W) P. split; [exact N|]. split; [exact T|]. intros i' k c n. cbn. unfold upd. destruct (Nat.eqb i' i); [apply P|apply W]. Qed.
  Lemma rest_step a w w' j : perform recheck a w = Some w' -> at_rest w j -> at_rest w' j /\ data w' j = data w j.
  Proof using recheck valid.
    intros E (N & T & W). assert (NW : forall ino, (exists i k c n, procs w i = Writing k ino c n) -> ino <> j) by (intros ino (i & k & c & n & P) ->; exact (W i k c n P)).
    assert (AR : forall v i p, next v = next w -> tmp v = tmp w \/ tmp v = None -> procs v = procs w -> (forall k c n, p <> Writing k j c n) -> at_rest (goto i p v) j).
    { intros v i p Nv Tv Pv Hp. apply rest_goto; [|exact Hp]. unfold at_rest. rewrite Nv, Pv. split; [exact N|]. split; [|exact W]. destruct Tv as [->| ->]; [exact T|discriminate]. }
    destruct a as [i|i c|i|i|i| |]; cbn in E.
    - unfold go in E. destruct (procs w i) as [| |k|k|k|k|k ino c n|k c|k|k| |k| | |] eqn:P; try discriminate E.
      + inversion E; subst. split; [apply AR; auto; destruct (final w); discriminate|reflexivity].
      + destruct (lockf w); inversion E; subst; (split; [|reflexivity]); [apply AR; auto; discriminate|]. apply rest_goto; [|discriminate]. split; [cbn; lia|]. split; [exact T|exact W].
      + destruct (holder w k); inversion E; subst; (split; [apply AR; auto; discriminate|reflexivity]).
      + destruct (recheck && _); inversion E; subst; (split; [apply AR; auto; discriminate|reflexivity]).
      + inversion E; subst. split; [apply AR; auto; destruct (final w); discriminate|reflexivity].
      + assert (D : ino <> j) by (apply NW; eauto 6). destruct (nth_error c n); inversion E; subst; (split; [apply AR; auto; intros; try discriminate; congruence|]); [|reflexivity]. cbn. apply upd_neq. auto.
      + destruct (tmp w) eqn:Q; inversion E; subst; (split; [apply AR; cbn; auto; discriminate|reflexivity]).
      + inversion E; subst; (split; [apply AR; auto; discriminate|reflexivity]).
      + inversion E; subst; (split; [apply AR; auto; discriminate|reflexivity]).
      + inversion E; subst; (split; [apply AR; auto; discriminate|reflexivity]).
      + inversion E; subst; (split; [apply AR; auto; discriminate|reflexivity]).
    - destruct (procs w i) as [| |k|k|k|k|k ino c' n|k c'|k|k| |k| | |] eqn:P; try discriminate E. destruct (tmp w) as [t|] eqn:Q; inversion E; subst.
      + assert (D : t <> j) by congruence. split; [apply AR; auto; intros; congruence|]. cbn. apply upd_neq. auto.
      + split; [|cbn; apply upd_neq; lia]. apply rest_goto; [|intros k' c' n' X; injection X as _ X _ _; lia]. split; [cbn; lia|]. split; [cbn; intros X; injection X as X; lia|exact W].
    - destruct (procs w i) as [| |k|k|k|k|k ino c' n|k c'|k|k| |k| | |]; try discriminate E; inversion E; subst; (split; [apply AR; auto; discriminate|reflexivity]).
    - inversion E; subst. destruct (holds (procs w i)); (split; [apply AR; auto; discriminate|reflexivity]).
    - destruct (procs w i) as [| |k|k|k|k|k ino c' n|k c'|k|k| |k| | |]; try discriminate E; inversion E; subst; (split; [apply AR; auto; discriminate|reflexivity]).
    - inversion E; subst. split; [|reflexivity]. split; [exact N|]. split; [discriminate|exact W].
    - inversion E; subst. split; [|reflexivity]. split; [exact N|]. split; [exact T|exact W].
  Qed.
  (** Whoever has opened the file reads the complete output of one creation, unchanged, whatever
      happens meanwhile: the file may be deleted and made again. *)
  Theorem C43_opened_partial w v j : reachable w -> final w = Some j -> later w v -> data v j = data w j /\ valid (data v j).
  Proof using.
    intros R F L. assert (K : at_rest v j /\ data v j = data w j).
    { induction L as [|a v v' L [IH ID] H G E].
      - split; [|reflexivity]. split; [exact (proj2 (used w R) j F)|]. split; [rewrite (C43_no_leftover_partial w R); [discriminate|congruence]|].
        intros i k c n P. pose proof (C50_not_again_partial w i R) as X. rewrite P in X. specialize (X Logic.I). congruence.
      - destruct (rest_step a v v' j E IH) as [IH' Q]. split; [exact IH'|]. rewrite Q. exact ID. }
    split; [apply K|]. rewrite (proj2 K). exact (C43_complete_partial w j R F).
  Qed.

  (** Without deletions the file stays, and whoever returns from the call has it. *)
  Inductive undisturbed : world -> Prop :=
  | u_new : undisturbed world0
  | u_old t l c : undisturbed (restarted t l c)
  | u_act a w w' : undisturbed w -> honest valid a -> a <> DeleteFinal -> perform recheck a w = Some w' -> undisturbed w'.
  Lemma undisturbed_reachable w : undisturbed w -> reachable w.
  Proof using. induction 1 as [| |a w w' U IH H D E]; [constructor|constructor|]. apply (r_act _ _ a w); auto. destruct a; cbn; auto. congruence. Qed.
  Lemma final_stays a w w' : a <> DeleteFinal -> perform recheck a w = Some w' -> final w <> None -> final w' <> None.
  Proof using.
    intros D E F. destruct a as [i|i c|i|i|i| |]; cbn in E; try congruence.
    - unfold go in E. destruct (procs w i) as [| |k|k|k|k|k ino c n|k c|k|k| |k| | |]; try discriminate E; try (inversion E; subst; exact F).
      + destruct (lockf w); inversion E; subst; exact F.
      + destruct (holder w k); inversion E; subst; exact F.
      + destruct (recheck && _); inversion E; subst; exact F.
      + destruct (nth_error c n); inversion E; subst; exact F.
      + destruct (tmp w); inversion E; subst; [discriminate|exact F].
    - destruct (procs w i) as [| |k|k|k|k|k ino c' n|k c'|k|k| |k| | |]; try discriminate E. destruct (tmp w); inversion E; subst; exact F.
    - destruct (procs w i) as [| |k|k|k|k|k ino c' n|k c'|k|k| |k| | |]; try discriminate E; inversion E; subst; exact F.
    - inversion E; subst. destruct (holds (procs w i)); exact F.
    - destruct (procs w i) as [| |k|k|k|k|k ino c' n|k c'|k|k| |k| | |]; try discriminate E; inversion E; subst; exact F.
    - inversion E; subst. exact F.
  Qed.
  (** [Go i] leading to [Finished] is the return of cache_file. *)
  Theorem C43_returned_partial w w' i : undisturbed w -> perform recheck (Go i) w = Some w' -> procs w' i = Finished ->
    exists j, final w' = Some j /\ valid (data w' j).
  Proof using.
    intros U E P. assert (R : reachable w') by (apply (r_act _ _ (Go i) w); cbn; auto using undisturbed_reachable). pose proof (inv_reach _ _ _ R) as I.
    assert (F : final w' <> None).
    { pose proof (i_end _ _ (inv_reach _ _ _ (undisturbed_reachable w U)) i) as EN. cbn in E. unfold go in E. destruct (procs w i) as [| |k|k|k|k|k ino c n|k c|k|k| |k| | |] eqn:PI; try discriminate E.
      - inversion E; subst w'. cbn in P. rewrite upd_eq in P. cbn. destruct (final w); discriminate.
      - destruct (lockf w); inversion E; subst w'; cbn in P; rewrite upd_eq in P; discriminate P.
      - destruct (holder w k); inversion E; subst w'; cbn in P; rewrite upd_eq in P; discriminate P.
      - destruct (recheck && _); inversion E; subst w'; cbn in P; rewrite upd_eq in P; discriminate P.
      - inversion E; subst w'; cbn in P; rewrite upd_eq in P. destruct (final w); discriminate P.
      - destruct (nth_error c n); inversion E; subst w'; cbn in P; rewrite upd_eq in P; discriminate P.
      - destruct (tmp w); inversion E; subst w'; cbn in P; rewrite upd_eq in P; discriminate P.
      - inversion E; subst w'; cbn in P; rewrite upd_eq in P; discriminate P.
      - inversion E; subst w'; cbn in P; rewrite upd_eq in P; discriminate P.
      - inversion E; subst w'. exact EN.
      - inversion E; subst w'; cbn in P; rewrite upd_eq in P; discriminate P. }
    destruct (final w') as [j|] eqn:FJ; [|contradiction]. exists j. split; [reflexivity|]. exact (i_final _ _ I j FJ).
  Qed.
  (** Once created it is never created again. *)
  Theorem C50_once_partial w w' l : undisturbed w -> final w <> None -> (forall a, In a l -> a <> DeleteFinal) -> Forall (honest valid) l -> run recheck l w = Some w' ->
    final w' <> None /\ forall i, ~ runs_creation (procs w' i).
  Proof using.
    revert w. induction l as [|a l IH]; intros w U F D H E; cbn in E.
    - inversion E; subst w'. split; [exact F|]. intros i C. apply F. exact (C50_not_again_partial w i (undisturbed_reachable w U) C).
    - destruct (perform recheck a w) as [w1|] eqn:P; [|discriminate E]. inversion H; subst.
      assert (DA : a <> DeleteFinal) by (apply D; left; reflexivity). apply (IH w1); auto; [econstructor; eauto|exact (final_stays a w w1 DA P F)|intros; apply D; right; assumption].
  Qed.

  (** ** C82: the lock is always given back *)
  (** Whoever has the lock is alive and inside, ... *)
  Theorem C82_holder_alive w k j : reachable w -> holder w k = Some j -> match procs w j with Finished | Failed | Crashed | Start | Opening | Flocking _ | Unlinking => False | _ => True end.
  Proof using. intros R H. apply (i_hold _ _ (inv_reach _ _ _ R)) in H. destruct (procs w j); cbn in H; try discriminate H; exact Logic.I. Qed.
  (** ... can give it back by its own steps, whatever the others do or do not, ... *)
  Definition own (j : nat) (a : act) : Prop := match a with Go i => i = j | Begin i c => i = j /\ valid c | _ => False end.
  Definition gives_back (w : world) (k j : nat) : Prop := exists l w', Forall (own j) l /\ run recheck l w = Some w' /\ holder w' k = None /\ forall i, i <> j -> procs w' i = procs w i.
  Lemma back_step w k j a w1 : own j a -> perform recheck a w = Some w1 -> (forall i, i <> j -> procs w1 i = procs w i) -> gives_back w1 k j -> gives_back w k j.
  Proof using. intros O E N (l & w' & F & R & H & P). exists (a :: l), w'. split; [constructor; assumption|]. split; [cbn; rewrite E; exact R|]. split; [exact H|]. intros i D. rewrite (P i D). apply N, D. Qed.
  Lemma back_now w k j a w1 : own j a -> perform recheck a w = Some w1 -> (forall i, i <> j -> procs w1 i = procs w i) -> holder w1 k = None -> gives_back w k j.
  Proof using. intros O E N H. exists [a], w1. split; [constructor; [assumption|constructor]|]. split; [cbn; rewrite E; reflexivity|auto]. Qed.
  Ltac others := intros; cbn; try (rewrite !upd_neq by assumption; reflexivity).
  Theorem C82_gives_back c0 w k j : valid c0 -> holds (procs w j) = Some k -> gives_back w k j.
  Proof using.
    intros V0.
    assert (FA : forall w, procs w j = Failing k -> gives_back w k j).
    { intros v P. eapply (back_now _ _ _ (Go j)); [|cbn; unfold go; rewrite P; reflexivity|..]; [reflexivity|others|]. cbn. apply upd_eq. }
    assert (RL : forall w, procs w j = Releasing k -> gives_back w k j).
    { intros v P. eapply (back_now _ _ _ (Go j)); [|cbn; unfold go; rewrite P; reflexivity|..]; [reflexivity|others|]. cbn. apply upd_eq. }
    assert (CR : forall w, procs w j = Created k -> gives_back w k j).
    { intros v P. eapply (back_step _ _ _ (Go j)); [|cbn; unfold go; rewrite P; reflexivity|..]; [reflexivity|others|]. apply RL. cbn. apply upd_eq. }
    assert (RN : forall c w, procs w j = Renaming k c -> gives_back w k j).
    { intros c v P. destruct (tmp v) as [t|] eqn:T; (eapply (back_step _ _ _ (Go j)); [|cbn; unfold go; rewrite P, T; reflexivity|..]; [reflexivity|others|]); [apply CR|apply FA]; cbn; apply upd_eq. }
    assert (WR : forall ino c m n w, (List.length c - n <= m)%nat -> procs w j = Writing k ino c n -> gives_back w k j).
    { intros ino c. induction m as [|m IH]; intros n v L P; destruct (nth_error c n) as [b|] eqn:NB.
      - assert (n < List.length c)%nat by (apply nth_error_Some; congruence). lia.
      - eapply (back_step _ _ _ (Go j)); [|cbn; unfold go; rewrite P, NB; reflexivity|..]; [reflexivity|others|]. apply (RN c). cbn. apply upd_eq.
      - assert (n < List.length c)%nat by (apply nth_error_Some; congruence). eapply (back_step _ _ _ (Go j)); [|cbn; unfold go; rewrite P, NB; reflexivity|..]; [reflexivity|others|]. apply (IH (S n)); [lia|]. cbn. apply upd_eq.
      - eapply (back_step _ _ _ (Go j)); [|cbn; unfold go; rewrite P, NB; reflexivity|..]; [reflexivity|others|]. apply (RN c). cbn. apply upd_eq. }
    assert (BE : forall w, procs w j = Creating k -> gives_back w k j).
    { intros v P. destruct (tmp v) as [t|] eqn:T; (eapply (back_step _ _ _ (Begin j c0)); [split; [reflexivity|exact V0]|cbn; rewrite P, T; reflexivity|others|]); (eapply WR; [reflexivity|cbn; apply upd_eq]). }
    assert (IN : forall w, procs w j = Inside k -> gives_back w k j).
    { intros v P. eapply (back_step _ _ _ (Go j)); [|cbn; unfold go; rewrite P; reflexivity|..]; [reflexivity|others|]. destruct (final v); [apply RL|apply BE]; cbn; apply upd_eq. }
    intros H. destruct (procs w j) as [| |k0|k0|k0|k0|k0 ino c n|k0 c|k0|k0| |k0| | |] eqn:P; cbn in H; try discriminate H; inversion H; subst k0; eauto.
    destruct (recheck && negb (match lockf w with Some l => Nat.eqb l k | None => false end)) eqn:RC.
    - eapply (back_now _ _ _ (Go j)); [|cbn; unfold go; rewrite P, RC; reflexivity|..]; [reflexivity|others|]. cbn. apply upd_eq.
    - eapply (back_step _ _ _ (Go j)); [|cbn; unfold go; rewrite P, RC; reflexivity|..]; [reflexivity|others|]. apply IN. cbn. apply upd_eq.
  Qed.
  (** ... and then the next who asks gets it. *)
  Theorem C82_next_gets_it w i k : procs w i = Flocking k -> holder w k = None -> exists w', perform recheck (Go i) w = Some w' /\ holder w' k = Some i.
  Proof using. intros P H. cbn. unfold go. rewrite P, H. eexists. split; [reflexivity|]. cbn. apply upd_eq. Qed.
  (** A crash gives the lock back too. *)
  Theorem C82_crash w i k : holds (procs w i) = Some k -> exists w', perform recheck (Crash i) w = Some w' /\ holder w' k = None.
  Proof using. intros H. cbn. rewrite H. eexists. split; [reflexivity|]. cbn. apply upd_eq. Qed.
End Props.

(** ** Witnesses *)
Definition gos (i n : nat) : list act := repeat (Go i) n.
Definition good (c : bytes) : Prop := c = [7; 8]%nat.
(** A crash while writing, a failure, and a creation. *)
Definition history : list act :=
  [Call 0%nat] ++ gos 0 5 ++ [Begin 0 [7; 8]%nat] ++ gos 0 1 ++ [Crash 0%nat] ++    (* dies after one byte *)
  [Call 1%nat] ++ gos 1 5 ++ [Begin 1 [7; 8]%nat; Fail 1%nat] ++ gos 1 1 ++         (* fails *)
  [Call 2%nat; Call 3%nat] ++ gos 2 4 ++ gos 3 3 ++ gos 2 1 ++ [Begin 2 [7; 8]%nat] ++ gos 2 3.
Example C43_example recheck : exists w, run recheck history world0 = Some w /\ Forall (honest good) history /\ tmp w <> None /\ final w = None /\ procs w 2%nat = Renaming 0 [7; 8]%nat /\ procs w 3%nat = Opening /\
  exists w', run recheck (history ++ gos 2 4 ++ gos 3 1) world0 = Some w' /\ procs w' 2%nat = Finished /\ final w' = Some 1%nat /\ data w' 1%nat = [7; 8]%nat.
Proof.
  destruct recheck; (eexists; split; [vm_compute; reflexivity|]; split; [repeat constructor|]; split; [discriminate|]; split; [reflexivity|]; split; [reflexivity|]; split; [reflexivity|]; eexists; split; [vm_compute; reflexivity|]; repeat split).
Qed.
(** The file is deleted when nobody is about to give up the lock, and made again. *)
Definition remade : list act := [Call 0%nat] ++ gos 0 5 ++ [Begin 0 [7; 8]%nat] ++ gos 0 7 ++ [DeleteFinal; Call 1%nat] ++ gos 1 5 ++ [Begin 1 [7; 8]%nat] ++ gos 1 4.
Fixpoint gently recheck (l : list act) (w : world) : Prop :=
  match l with [] => True | a :: r => gentle a w /\ match perform recheck a w with Some w' => gently recheck r w' | None => False end end.
Lemma gently_later recheck l : forall w v v', later recheck good w v -> Forall (honest good) l -> gently recheck l v -> run recheck l v = Some v' -> later recheck good w v'.
Proof.
  induction l as [|a l IH]; intros w v v' L H G R; cbn in *; [injection R as <-; exact L|]. destruct G as [G1 G2]. inversion H; subst. destruct (perform recheck a v) as [v1|] eqn:E; [|contradiction].
  apply (IH w v1 v'); auto. exact (l_act _ _ w a v v1 L H2 G1 E).
Qed.
Example C43_opened_met recheck : exists w v, reachable recheck good w /\ final w = Some 1%nat /\ later recheck good w v /\ final v = Some 3%nat /\ data v 1%nat = [7; 8]%nat.
Proof.
  destruct (run recheck (firstn 14 remade) world0) as [w|] eqn:E; [|destruct recheck; vm_compute in E; discriminate E]. exists w.
  destruct (run recheck (skipn 14 remade) w) as [v|] eqn:E2; [|destruct recheck; (vm_compute in E; injection E as <-; vm_compute in E2; discriminate E2)]. exists v.
  assert (R : later recheck good world0 w). { apply (gently_later recheck (firstn 14 remade) world0 world0 w); [constructor|repeat constructor| |exact E]. destruct recheck; cbn; repeat split. }
  split; [apply (later_reachable recheck good world0 w); [constructor|exact R]|].
  split; [destruct recheck; vm_compute in E; injection E as <-; reflexivity|].
  split. { apply (gently_later recheck (skipn 14 remade) w w v); [constructor|repeat constructor| |exact E2].
    destruct recheck; vm_compute in E; injection E as <-; cbn; (split; [|repeat split]); intros [|i]; exact I. }
  destruct recheck; vm_compute in E; injection E as <-; vm_compute in E2; injection E2 as <-; split; reflexivity.
Qed.
(** The window: a process that waited for the lock gets it on the file its predecessor is about to
    delete; the cache file is deleted (forced download, eviction); the lock file goes; a third
    process makes a new lock file. *)
Definition window : list act :=
  [Call 0%nat] ++ gos 0 4 ++ [Call 1%nat] ++ gos 1 2 ++ gos 0 1 ++ [Begin 0 [7; 8]%nat] ++ gos 0 6 ++
  gos 1 2 ++ [DeleteFinal] ++ gos 1 1 ++ [Begin 1 [7; 8]%nat] ++ gos 0 1 ++ [Call 2%nat] ++ gos 2 5.
Theorem C50_window_refuted recheck : exists w, run recheck window world0 = Some w /\ Forall (honest good) window /\ runs_creation (procs w 1%nat) /\ runs_creation (procs w 2%nat).
Proof. destruct recheck; (eexists; split; [vm_compute; reflexivity|]; split; [repeat constructor|]; split; exact I). Qed.
(** The third process truncates the temporary file when the second has written it; the second puts it in place. *)
Theorem C43_window_refuted recheck : let l := window ++ gos 1 3 ++ [Begin 2 [7; 8]%nat] ++ gos 1 1 in
  exists w j, run recheck l world0 = Some w /\ Forall (honest good) l /\ final w = Some j /\ ~ good (data w j) /\ data w j = [].
Proof. destruct recheck; (do 2 eexists; split; [vm_compute; reflexivity|]; split; [repeat constructor|]; split; [reflexivity|]; split; [discriminate|reflexivity]). Qed.

Print Assumptions C43_complete_partial.
Print Assumptions C43_opened_partial.
Print Assumptions C43_no_leftover_partial.
Print Assumptions C43_returned_partial.
Print Assumptions C43_window_refuted.
Print Assumptions C50_one_creator_partial.
Print Assumptions C50_not_again_partial.
Print Assumptions C50_once_partial.
Print Assumptions C50_window_refuted.
Print Assumptions C82_holder_alive.
Print Assumptions C82_gives_back.
Print Assumptions C82_next_gets_it.
Print Assumptions C82_crash.
