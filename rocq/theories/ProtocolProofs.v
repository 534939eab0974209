(** Invariant of the creation of a cache file. *)
From Verif Require Import PyBase Protocol.
Set Default Proof Using "Type".

Section ProtocolProofs.
  Variable recheck : bool.
  (** The contents a successful creation for this key may have. *)
  Variable valid : bytes -> Prop.

  (** Creations write valid contents (or fail). *)
  Definition honest (a : act) : Prop := match a with Begin _ c => valid c | _ => True end.
  (** The file is not deleted while a process that found it or made it is about to give up
      the lock, nor while one waits for a lock file that was deleted. *)
  Definition calm (w : world) : Prop := forall i,
    match procs w i with
    | Created _ | Releasing _ | Unlinking => False
    | Flocking k | Checking k | Inside k | Failing k => lockf w = Some k
    | _ => True
    end.
  Definition gentle (a : act) (w : world) : Prop := match a with DeleteFinal => calm w | _ => True end.

  Inductive reachable : world -> Prop :=
  | r_new : reachable world0
  | r_old t l c : reachable (restarted t l c)
  | r_act a w w' : reachable w -> honest a -> gentle a w -> perform recheck a w = Some w' -> reachable w'.

  Definition creating (p : pc) : option nat :=
    match p with Creating k | Writing k _ _ _ | Renaming k _ => Some k | _ => None end.

  Record inv (w : world) : Prop := {
    i_hold : forall i k, holds (procs w i) = Some k <-> holder w k = Some i;
    i_fd : forall i k, holds (procs w i) = Some k \/ procs w i = Flocking k -> lockf w = Some k \/ final w <> None;
    i_end : forall i, match procs w i with Created _ | Releasing _ | Unlinking => final w <> None | _ => True end;
    i_creating : forall i k, creating (procs w i) = Some k -> final w = None /\ lockf w = Some k;
    i_writing : forall i k ino c n, procs w i = Writing k ino c n -> valid c /\ data w ino = firstn n c /\ (n <= List.length c)%nat /\ (tmp w = Some ino \/ tmp w = None);
    i_renaming : forall i k c, procs w i = Renaming k c -> valid c /\ forall j, tmp w = Some j -> data w j = c;
    i_final : forall j, final w = Some j -> valid (data w j) }.

  Lemma upd_eq {A} (f : nat -> A) i v : upd f i v i = v.
  Proof using. clear. unfold upd. rewrite Nat.eqb_refl. reflexivity. Qed.
  Lemma upd_neq {A} (f : nat -> A) i v j : j <> i -> upd f i v j = f j.
  Proof using. clear. intros H. unfold upd. destruct (Nat.eqb_spec j i); [contradiction|reflexivity]. Qed.
  Lemma write_at_end l b : write_at l (List.length l) b = l ++ [b].
  Proof using. clear. unfold write_at. rewrite Nat.sub_diag. cbn [repeat]. rewrite app_nil_r, firstn_all, skipn_all2 by lia. reflexivity. Qed.
  Lemma firstn_nth (c : bytes) n b : nth_error c n = Some b -> firstn (S n) c = firstn n c ++ [b].
  Proof using. clear. revert n. induction c as [|x c IH]; intros [|n] H; cbn in *; try discriminate; [inversion H; reflexivity|]. rewrite <- (IH n H). reflexivity. Qed.

  (** Obligations of a process at [p] in a world. *)
  Record fits (w : world) (p : pc) : Prop := {
    f_fd : forall k, holds p = Some k \/ p = Flocking k -> lockf w = Some k \/ final w <> None;
    f_end : match p with Created _ | Releasing _ | Unlinking => final w <> None | _ => True end;
    f_creating : forall k, creating p = Some k -> final w = None /\ lockf w = Some k;
    f_writing : forall k ino c n, p = Writing k ino c n -> valid c /\ data w ino = firstn n c /\ (n <= List.length c)%nat /\ (tmp w = Some ino \/ tmp w = None);
    f_renaming : forall k c, p = Renaming k c -> valid c /\ forall j, tmp w = Some j -> data w j = c }.
  Lemma inv_fits w : inv w <-> (forall i k, holds (procs w i) = Some k <-> holder w k = Some i) /\ (forall i, fits w (procs w i)) /\ (forall j, final w = Some j -> valid (data w j)).
  Proof using.
    split.
    - intros [A B C D E F G]. split; [exact A|]. split; [|exact G]. intros i. split; eauto. exact (C i).
    - intros (A & B & C). split; [exact A|intros; eapply f_fd; eauto|intros i; exact (f_end _ _ (B i))|intros; eapply f_creating; eauto|intros; eapply f_writing; eauto|intros; eapply f_renaming; eauto|exact C].
  Qed.
  Lemma one_creator w i i' k k' : inv w -> creating (procs w i) = Some k -> creating (procs w i') = Some k' -> i = i'.
  Proof using.
    intros I C C'. destruct (i_creating _ I _ _ C) as [_ L]. destruct (i_creating _ I _ _ C') as [_ L']. assert (k = k') by congruence. subst k'.
    assert (H : forall j, creating (procs w j) = Some k -> holds (procs w j) = Some k) by (intros j; destruct (procs w j); cbn; congruence).
    apply H, (i_hold _ I) in C. apply H, (i_hold _ I) in C'. congruence.
  Qed.
  (** The new world of a step of process [i]: the others still fit, so does [i], and the locks are right. *)
  Lemma inv_step w w' i p : inv w -> procs w' = upd (procs w) i p ->
    (forall k, holds p = Some k <-> holder w' k = Some i) -> (forall j k, j <> i -> (holder w' k = Some j <-> holder w k = Some j)) ->
    fits w' p -> (forall j, j <> i -> fits w' (procs w j)) -> (forall j, final w' = Some j -> valid (data w' j)) -> inv w'.
  Proof using.
    intros I P H1 H2 F1 F2 FN. apply inv_fits. split; [|split; [|exact FN]].
    - intros j k. rewrite P. destruct (Nat.eq_dec j i) as [->|N]; [rewrite upd_eq; apply H1|]. rewrite (upd_neq _ _ _ _ N), H2 by exact N. apply (i_hold _ I).
    - intros j. rewrite P. destruct (Nat.eq_dec j i) as [->|N]; [rewrite upd_eq; exact F1|rewrite (upd_neq _ _ _ _ N); apply F2, N].
  Qed.
  Lemma fits_ext w w' p : fits w p -> lockf w' = lockf w -> final w' = final w -> tmp w' = tmp w -> data w' = data w -> fits w' p.
  Proof using. intros [A B C D E] L F T G. split; rewrite ?L, ?F, ?T, ?G; assumption. Qed.
  Lemma inv_goto w i p : inv w -> holds p = holds (procs w i) -> fits w p -> inv (goto i p w).
  Proof using.
    intros I H F. pose proof (proj1 (inv_fits w) I) as (A & B & C). apply (inv_step w _ i p); [exact I|reflexivity| |reflexivity| |intros j _; apply (fits_ext w); [exact (B j)|reflexivity..]|exact C].
    - intros k. rewrite H. apply A.
    - apply (fits_ext w); [exact F|reflexivity..].
  Qed.
  Lemma inv_release w i k p : inv w -> holds (procs w i) = Some k -> holds p = None -> fits w p -> inv (goto i p (set_holder k None w)).
  Proof using.
    intros I H P F. pose proof (proj1 (inv_fits w) I) as (A & B & C).
    apply (inv_step w _ i p); [exact I|reflexivity| | |apply (fits_ext w); [exact F|reflexivity..]|intros j _; apply (fits_ext w); [exact (B j)|reflexivity..]|exact C]; cbn [holder goto set_holder final data].
    - intros k'. rewrite P. split; [discriminate|]. destruct (Nat.eq_dec k' k) as [->|N]; [rewrite upd_eq; discriminate|]. rewrite upd_neq by exact N. intros X. apply A in X. congruence.
    - intros j k' J. destruct (Nat.eq_dec k' k) as [->|N]; [|rewrite upd_neq by exact N; reflexivity]. rewrite upd_eq. split; [discriminate|]. intros X. apply A in H. congruence.
  Qed.
  Lemma quiet_fits w p : holds p = None -> (forall k, p <> Flocking k) -> p <> Unlinking -> fits w p.
  Proof using. intros H F U. split; destruct p; cbn in *; try discriminate; try congruence; auto; intros k [X|X]; congruence. Qed.
  Lemma holding_fits w p k : holds p = Some k -> lockf w = Some k \/ final w <> None -> creating p = None -> match p with Created _ | Releasing _ | Unlinking => final w <> None | _ => True end -> fits w p.
  Proof using. intros H L C E. split; [|exact E|rewrite C; discriminate| |]; [|destruct p; cbn in *; discriminate..]. intros k' [X|X]; [assert (k' = k) by congruence; subst; exact L|subst p; discriminate H]. Qed.

  Lemma inv_perform a w w' : inv w -> honest a -> gentle a w -> perform recheck a w = Some w' -> inv w'.
  Proof using.
    intros I HO GE E. pose proof (proj1 (inv_fits w) I) as (A & B & C). destruct a as [i|i c|i|i|i| |]; cbn [perform honest gentle] in *.
    - unfold go in E. pose proof (B i) as Bi. destruct (procs w i) as [| |k|k|k|k|k ino c n|k c|k|k| |k| | |] eqn:P; try discriminate E.
      + (* Start *) inversion E; subst w'. apply inv_goto; [exact I|rewrite P; destruct (final w); reflexivity|]. apply quiet_fits; destruct (final w); cbn; congruence.
      + (* Opening *) destruct (lockf w) as [k|] eqn:L.
        * inversion E; subst w'. apply inv_goto; [exact I|rewrite P; reflexivity|]. split; cbn; try discriminate; auto. intros k0 [X|X]; [discriminate X|]. inversion X; subst. auto.
        * cbn in E. inversion E; subst w'. clear E.
          apply (inv_step w _ i (Flocking (next w))); try reflexivity; cbn [goto set_lockf holder final data procs]; try assumption.
          -- intros k. cbn. split; [discriminate|]. intros X. apply A in X. rewrite P in X. discriminate X.
          -- split; cbn; try discriminate; auto. intros k0 [X|X]; [discriminate X|]. inversion X; subst. auto.
          -- intros j _. destruct (B j) as [f1 f2 f3 f4 f5]. split; cbn [lockf final tmp data]; try assumption.
             ++ intros k X. right. destruct (f1 k X) as [Y|Y]; [congruence|exact Y].
             ++ intros k X. destruct (f3 k X). congruence.
      + (* Flocking *) destruct (holder w k) as [h|] eqn:H; inversion E; subst w'; clear E.
        * apply inv_goto; [exact I|rewrite P; reflexivity|]. apply quiet_fits; cbn; congruence.
        * apply (inv_step w _ i (Checking k)); try reflexivity; cbn [goto set_holder holder final data procs]; try assumption.
          -- intros k'. cbn. destruct (Nat.eq_dec k' k) as [->|N]; [rewrite upd_eq; tauto|]. rewrite upd_neq by exact N. split; [congruence|]. intros X. apply A in X. rewrite P in X. discriminate X.
          -- intros j k' J. destruct (Nat.eq_dec k' k) as [->|N]; [|rewrite upd_neq by exact N; reflexivity]. rewrite upd_eq, H. split; congruence.
          -- apply (holding_fits _ _ k); try reflexivity. exact (f_fd _ _ Bi k (or_intror eq_refl)).
          -- intros j _. apply (fits_ext w); [exact (B j)|reflexivity..].
      + (* Checking *) destruct (recheck && _).
        * inversion E; subst w'. apply inv_release; [exact I|rewrite P; reflexivity|reflexivity|]. apply quiet_fits; cbn; congruence.
        * inversion E; subst w'. apply inv_goto; [exact I|rewrite P; reflexivity|]. apply (holding_fits _ _ k); try reflexivity. exact (f_fd _ _ Bi k (or_introl eq_refl)).
      + (* Inside *) inversion E; subst w'. apply inv_goto; [exact I|rewrite P; destruct (final w); reflexivity|]. destruct (final w) as [j|] eqn:F.
        * apply (holding_fits _ _ k); try reflexivity; [right|]; rewrite F; discriminate.
        * destruct (f_fd _ _ Bi k (or_introl eq_refl)) as [L|L]; [|congruence]. split; cbn; try discriminate; auto; intros k0; [intros [X|X]; [|discriminate X]; left; congruence|intros X; inversion X; subst; auto].
      + (* Writing *) destruct (f_writing _ _ Bi _ _ _ _ eq_refl) as (V & D & LN & T). destruct (nth_error c n) as [b|] eqn:NB; inversion E; subst w'; clear E.
        * assert (LT : (n < List.length c)%nat) by (apply nth_error_Some; congruence). destruct (f_creating _ _ Bi k eq_refl) as [FN LK].
          assert (DD : write_at (data w ino) n b = firstn (S n) c).
          { rewrite D. replace n with (List.length (firstn n c)) at 2 by (rewrite firstn_length; lia). rewrite write_at_end. symmetry. apply firstn_nth, NB. }
          apply (inv_step w _ i (Writing k ino c (S n))); try reflexivity; cbn [goto set_data holder final data procs].
          -- exact I.
          -- intros k'. rewrite <- A, P. reflexivity.
          -- split; cbn [lockf final tmp data set_data goto holds creating]; try discriminate; auto.
             ++ intros k0 [X|X]; [left; congruence|discriminate X].
             ++ intros k0 X. inversion X; subst. auto.
             ++ intros k0 ino0 c0 n0 X. inversion X; subst. rewrite upd_eq. auto.
          -- intros j J. destruct (B j) as [f1 f2 f3 f4 f5].
             assert (NC : creating (procs w j) = None). { destruct (creating (procs w j)) as [k'|] eqn:CJ; [|reflexivity]. destruct J. apply (one_creator w j i k' k I CJ). rewrite P. reflexivity. }
             split; cbn [lockf final tmp data set_data goto]; try assumption; intros; subst; exfalso; [rewrite H in NC; discriminate NC|rewrite H in NC; discriminate NC].
          -- intros j FJ. congruence.
        * apply inv_goto; [exact I|rewrite P; reflexivity|]. destruct (f_creating _ _ Bi k eq_refl) as [FN LK].
          assert (NL : n = List.length c) by (apply nth_error_None in NB; lia). split; cbn; try discriminate; auto.
          -- intros k0 [X|X]; [left; congruence|discriminate X].
          -- intros k0 X. inversion X; subst. auto.
          -- intros k0 c0 X. inversion X; subst. split; [exact V|]. intros j TJ. destruct T as [T|T]; [|congruence]. assert (j = ino) by congruence. subst j. rewrite D, firstn_all. reflexivity.
      + (* Renaming *) destruct (f_renaming _ _ Bi _ _ eq_refl) as [V T]. destruct (f_creating _ _ Bi k eq_refl) as [FN LK]. destruct (tmp w) as [j|] eqn:TW; inversion E; subst w'; clear E.
        * apply (inv_step w _ i (Created k)); try reflexivity; cbn [goto set_tmp set_final holder final data procs]; try assumption.
          -- intros k'. rewrite <- A, P. reflexivity.
          -- apply (holding_fits _ _ k); try reflexivity; cbn; [right|]; discriminate.
          -- intros j' J. destruct (B j') as [f1 f2 f3 f4 f5].
             assert (NC : creating (procs w j') = None). { destruct (creating (procs w j')) as [k'|] eqn:CJ; [|reflexivity]. destruct J. apply (one_creator w j' i k' k I CJ). rewrite P. reflexivity. }
             split; cbn [lockf final tmp data set_tmp set_final goto].
             ++ intros k' _. right. discriminate.
             ++ destruct (procs w j'); auto; discriminate.
             ++ rewrite NC. discriminate.
             ++ intros; subst. rewrite H in NC. discriminate NC.
             ++ intros; subst. rewrite H in NC. discriminate NC.
          -- intros j' FJ. inversion FJ; subst. rewrite (T j' eq_refl). exact V.
        * apply inv_goto; [exact I|rewrite P; reflexivity|]. apply (holding_fits _ _ k); try reflexivity; auto.
      + (* Created *) inversion E; subst w'. apply inv_goto; [exact I|rewrite P; reflexivity|]. pose proof (f_end _ _ Bi) as F. cbn in F. apply (holding_fits _ _ k); try reflexivity; auto.
      + (* Releasing *) inversion E; subst w'. pose proof (f_end _ _ Bi) as F. cbn in F. apply inv_release; [exact I|rewrite P; reflexivity|reflexivity|]. split; cbn; try discriminate; auto; intros k0 [X|X]; discriminate X.
      + (* Unlinking *) inversion E; subst w'. pose proof (f_end _ _ Bi) as F. cbn in F.
        apply (inv_step w _ i Finished); try reflexivity; cbn [goto set_lockf holder final data procs]; try assumption.
        * intros k. cbn. split; [discriminate|]. intros X. apply A in X. rewrite P in X. discriminate X.
        * apply quiet_fits; cbn; congruence.
        * intros j _. destruct (B j) as [f1 f2 f3 f4 f5]. split; cbn [lockf final tmp data]; try assumption; [intros; right; exact F|]. intros k X. destruct (f3 k X). contradiction.
      + (* Failing *) inversion E; subst w'. apply inv_release; [exact I|rewrite P; reflexivity|reflexivity|]. apply quiet_fits; cbn; congruence.
    - destruct (procs w i) as [| |k|k|k|k|k ino c' n|k c'|k|k| |k| | |] eqn:P; try discriminate E. pose proof (B i) as Bi. rewrite P in Bi. destruct (f_creating _ _ Bi k eq_refl) as [FN LK].
      assert (NC : forall j, j <> i -> creating (procs w j) = None). { intros j J. destruct (creating (procs w j)) as [k'|] eqn:CJ; [|reflexivity]. destruct J. apply (one_creator w j i k' k I CJ). rewrite P. reflexivity. }
      assert (G : exists j, w' = goto i (Writing k j c 0) (set_data j [] (set_tmp (Some j) (mkWorld (final w) (tmp w) (lockf w) (data w) (holder w) (next w') (procs w))))).
      { destruct (tmp w) as [j|] eqn:T; cbn in E; inversion E; subst w'; [exists j|exists (next w)]; unfold goto, set_data, set_tmp; cbn; try rewrite T; reflexivity. }
      destruct G as [j G]. revert G. generalize (next w') as nx. intros nx ->. clear E.
      apply (inv_step w _ i (Writing k j c 0)); try reflexivity; cbn [goto set_tmp set_data holder final data procs]; try assumption.
      + intros k'. rewrite <- A, P. reflexivity.
      + split; cbn [lockf final tmp data set_data set_tmp goto holds creating]; try discriminate; auto.
        * intros k0 [X|X]; [left; congruence|discriminate X].
        * intros k0 X. inversion X; subst. auto.
        * intros k0 ino0 c0 n0 X. inversion X; subst. rewrite upd_eq. cbn. repeat split; auto with arith.
      + intros j' J. pose proof (NC j' J) as N. destruct (B j') as [f1 f2 f3 f4 f5]. split; cbn [lockf final tmp data set_data set_tmp goto]; try assumption; intros; subst; exfalso; [rewrite H in N; discriminate N|rewrite H in N; discriminate N].
      + intros j' FJ. congruence.
    - pose proof (B i) as Bi. destruct (procs w i) as [| |k|k|k|k|k ino c' n|k c'|k|k| |k| | |] eqn:P; try discriminate E; inversion E; subst w';
        (apply inv_goto; [exact I|rewrite P; reflexivity|]; apply (holding_fits _ _ k); try reflexivity; exact (f_fd _ _ Bi k (or_introl eq_refl))).
    - inversion E; subst w'. destruct (holds (procs w i)) as [k|] eqn:H; [apply inv_release|apply inv_goto]; auto; apply quiet_fits; cbn; congruence.
    - destruct (procs w i) as [| |k|k|k|k|k ino c' n|k c'|k|k| |k| | |] eqn:P; try discriminate E; inversion E; subst w'; (apply inv_goto; [exact I|rewrite P; reflexivity|]; apply quiet_fits; cbn; congruence).
    - inversion E; subst w'. apply inv_fits. cbn [set_tmp holder procs final data]. split; [exact A|]. split; [|exact C]. intros i. destruct (B i) as [f1 f2 f3 f4 f5]. split; cbn [lockf final tmp data]; try assumption.
      + intros k ino c n X. destruct (f4 _ _ _ _ X) as (X1 & X2 & X3 & _). auto.
      + intros k c X. split; [exact (proj1 (f5 _ _ X))|discriminate].
    - inversion E; subst w'. apply inv_fits. cbn [set_final holder procs final data]. split; [exact A|]. split; [|discriminate]. intros i. pose proof (GE i) as G. destruct (B i) as [f1 f2 f3 f4 f5]. split; cbn [lockf final tmp data]; try assumption.
      + intros k [X|X]; [|rewrite X in G; auto]. left. destruct (creating (procs w i)) as [k'|] eqn:CR.
        * assert (k' = k) by (destruct (procs w i); cbn in *; congruence). subst k'. apply (f3 k eq_refl).
        * destruct (procs w i); cbn in *; try discriminate; try contradiction; congruence.
      + destruct (procs w i); auto.
      + intros k X. split; [reflexivity|apply (f3 k X)].
  Qed.
  Lemma inv_reach w : reachable w -> inv w.
  Proof using.
    induction 1 as [|t l c|a w w' R IH H G E]; [| |exact (inv_perform a w w' IH H G E)].
    - split; cbn; try discriminate; auto; try (intros; intuition discriminate).
    - split; cbn; try discriminate; auto; try (intros; intuition discriminate).
  Qed.
End ProtocolProofs.
