(** What is assumed of numpy and of the operating system, checked against a rule written
    independently: assignment of an array to a part of another one (used by C94-C97, C110, C111,
    C129, C130), and writing of a byte to a file (used by C43, C50). *)
From Verif Require Import PyBase ListLemmas PyStr Float64 GridSpec Regrid RegridSpec Xarray Protocol.
Set Default Proof Using "Type".
Local Open Scope list_scope.
Local Open Scope nat_scope.

(** numpy's broadcasting: shapes are aligned at their last dimensions, missing dimensions count as
    one. *)
Definition aligned (d : nat) (m : nat) (l : list nat) : list nat := repeat d (m - List.length l) ++ l.
Definition longer (n sh : list nat) : nat := Nat.max (List.length n) (List.length sh).
Definition broadcasts (n sh : list nat) : Prop := Forall2 (fun a b => b = a \/ b = 1) (aligned 1 (longer n sh) n) (aligned 1 (longer n sh) sh).

Section Any.
  Context {A : Type}.
  Lemma drop_spec k : forall sh sh', drop_ones k sh = Some sh' <-> sh = repeat 1 k ++ sh'.
  Proof.
    induction k as [|k IH]; intros sh sh'; cbn; [split; [intros H; injection H as ->; reflexivity|intros ->; reflexivity]|].
    destruct sh as [|[|[|n]] sh]; cbn; try (split; intros H; discriminate H).
    rewrite IH. split; [intros ->; reflexivity|intros H; injection H as ->; reflexivity].
  Qed.
  Lemma sizes_ok n : forall sh, List.length n = List.length sh ->
    (forallb (fun p => (snd p =? fst p) || (snd p =? 1)) (combine n sh) = true <-> Forall2 (fun a b => b = a \/ b = 1) n sh).
  Proof.
    induction n as [|x n IH]; intros [|y sh] L; try discriminate L; cbn; [split; [constructor|reflexivity]|]. injection L as L. rewrite Bool.andb_true_iff, Bool.orb_true_iff, !Nat.eqb_eq, (IH sh L).
    split; [intros [H F]; constructor; auto|intros H; inversion H; auto].
  Qed.
  Lemma ones_ok n : Forall2 (fun a b => b = a \/ b = 1) n (repeat 1 (List.length n)).
  Proof. induction n; cbn; constructor; auto. Qed.
  Lemma both_ones k : Forall2 (fun a b : nat => b = a \/ b = 1) (repeat 1 k) (repeat 1 k).
  Proof. induction k; cbn; constructor; auto. Qed.
  Lemma only_ones k : forall l, List.length l = k -> Forall2 (fun a b : nat => b = a \/ b = 1) (repeat 1 k) l -> l = repeat 1 k.
  Proof. induction k as [|k IH]; intros [|x l] L F; try discriminate L; [reflexivity|]. cbn in *. inversion F; subst. rewrite (IH l); [|lia|assumption]. f_equal. lia. Qed.
  Lemma f2_app {X Y} (R : X -> Y -> Prop) a b c d : List.length a = List.length c -> (Forall2 R (a ++ b) (c ++ d) <-> Forall2 R a c /\ Forall2 R b d).
  Proof.
    revert c. induction a as [|x a IH]; intros [|y c] L; try discriminate L; cbn; [intuition constructor|]. injection L as L. split.
    - intros H. inversion H; subst. apply (IH c L) in H5. destruct H5. split; [constructor; assumption|assumption].
    - intros [H1 H2]. inversion H1; subst. constructor; [assumption|]. apply (IH c L). auto.
  Qed.

  (** The assignment is made just when the shapes broadcast. *)
  Theorem C94_numpy_accepts n (r : array A) : (exists f, assign n r = Ok f) <-> broadcasts n (shape r).
  Proof.
    unfold assign, broadcasts, aligned, longer. destruct (le_lt_dec (List.length n) (List.length (shape r))) as [L|L].
    - rewrite Nat.max_r by exact L. rewrite (Nat.sub_diag (List.length (shape r))). cbn [repeat app].
      destruct (drop_ones (List.length (shape r) - List.length n) (shape r)) as [sh|] eqn:D.
      + pose proof D as E. apply drop_spec in E. assert (LS : List.length n = List.length sh). { assert (X := f_equal (@List.length nat) E). rewrite app_length, repeat_length in X. lia. }
        assert (FE : Forall2 (fun a b => b = a \/ b = 1) (repeat 1 (List.length (shape r) - List.length n) ++ n) (shape r) <-> Forall2 (fun a b => b = a \/ b = 1) n sh).
        { set (e := List.length (shape r) - List.length n) in *. rewrite E. rewrite f2_app by reflexivity. split; [intros [_ H]; exact H|intros H; split; [apply both_ones|exact H]]. }
        rewrite FE. replace (List.length n - List.length sh) with 0 by lia. cbn [skipn].
        rewrite <- (sizes_ok n sh LS). destruct (forallb _ (combine n sh)); split; intros H; [reflexivity|eexists; reflexivity|destruct H; discriminate|discriminate H].
      + split; [intros [f H]; discriminate H|]. intros F. exfalso.
        set (e := List.length (shape r) - List.length n) in *. rewrite <- (firstn_skipn e (shape r)) in F. apply f2_app in F; [|rewrite repeat_length, firstn_length; lia]. destruct F as [F _].
        apply only_ones in F; [|rewrite firstn_length; lia].
        assert (X : drop_ones e (shape r) = Some (skipn e (shape r))).
        { apply drop_spec. rewrite <- F. symmetry. apply firstn_skipn. }
        rewrite X in D. discriminate D.
    - rewrite Nat.max_l by lia. replace (List.length (shape r) - List.length n) with 0 by lia. rewrite (Nat.sub_diag (List.length n)). cbn [drop_ones repeat app].
      set (k := List.length n - List.length (shape r)). assert (LK : List.length (skipn k n) = List.length (shape r)) by (rewrite skipn_length; lia).
      assert (LF : List.length (firstn k n) = k) by (rewrite firstn_length; lia).
      assert (FE : Forall2 (fun a b => b = a \/ b = 1) n (repeat 1 k ++ shape r) <-> Forall2 (fun a b => b = a \/ b = 1) (firstn k n) (repeat 1 k) /\ Forall2 (fun a b => b = a \/ b = 1) (skipn k n) (shape r)).
      { rewrite <- f2_app by (rewrite repeat_length; exact LF). rewrite firstn_skipn. reflexivity. }
      rewrite FE, <- (sizes_ok _ _ LK).
      assert (O : Forall2 (fun a b => b = a \/ b = 1) (firstn k n) (repeat 1 k)) by (pose proof (ones_ok (firstn k n)) as O; rewrite LF in O; exact O).
      destruct (forallb _ _); split; intros H; [split; [exact O|reflexivity]|eexists; reflexivity|destruct H; discriminate|destruct H as [_ H]; discriminate H].
  Qed.
  Lemma nth_taken sh : forall idx j, List.length idx = List.length sh -> nth j (map (fun p => if snd p =? 1 then 0 else fst p) (combine idx sh)) 0 = if nth j sh 1 =? 1 then 0 else nth j idx 0.
  Proof.
    induction sh as [|s sh IH]; intros [|i idx] j L; try discriminate L; [destruct j; reflexivity|]. destruct j as [|j]; [reflexivity|]. cbn. apply IH. cbn in L. lia.
  Qed.
  (** The values: dimensions of size one, and missing ones, are repeated. *)
  Theorem C94_numpy_values n (r : array A) f idx : assign n r = Ok f -> List.length idx = List.length n ->
    exists idx', f idx = item r idx' /\ List.length idx' = List.length (shape r) /\
      forall j, nth j (aligned 0 (longer n (shape r)) idx') 0 = if nth j (aligned 1 (longer n (shape r)) (shape r)) 1 =? 1 then 0 else nth j (aligned 0 (longer n (shape r)) idx) 0.
  Proof.
    unfold assign, aligned, longer. intros H LI. destruct (le_lt_dec (List.length n) (List.length (shape r))) as [L|L].
    - destruct (drop_ones (List.length (shape r) - List.length n) (shape r)) as [sh|] eqn:D; [|discriminate H]. apply drop_spec in D. set (e := List.length (shape r) - List.length n) in *.
      assert (LS : List.length n = List.length sh). { assert (X := f_equal (@List.length nat) D). rewrite app_length, repeat_length in X. unfold e in X. lia. }
      rewrite LS, Nat.sub_diag in H. cbn [skipn] in H. destruct (forallb _ (combine n sh)); [|discriminate H]. injection H as <-. eexists. split; [reflexivity|].
      assert (LE : List.length (repeat 0 e ++ map (fun p : nat * nat => if snd p =? 1 then 0 else fst p) (combine idx sh)) = List.length (shape r)).
      { rewrite app_length, repeat_length, map_length, combine_length, LI, LS, Nat.min_id. unfold e. lia. }
      split; [exact LE|]. intros j. rewrite Nat.max_r by exact L. rewrite LE, Nat.sub_diag. cbn [repeat app]. rewrite LI. fold e. rewrite D.
      destruct (Nat.lt_ge_cases j e) as [J|J].
      + rewrite !(app_nth1 (repeat _ e)) by (rewrite repeat_length; exact J). rewrite !nth_repeat. reflexivity.
      + rewrite !(app_nth2 (repeat _ e)) by (rewrite repeat_length; exact J). rewrite !repeat_length. apply nth_taken. lia.
    - replace (List.length (shape r) - List.length n) with 0 in H by lia. cbn [drop_ones repeat app] in H. set (k := List.length n - List.length (shape r)) in *.
      destruct (forallb _ (combine (skipn k n) (shape r))); [|discriminate H]. injection H as <-. eexists. split; [reflexivity|].
      assert (LK : List.length (skipn k idx) = List.length (shape r)) by (rewrite skipn_length, LI; unfold k; lia).
      assert (LE : List.length (map (fun p : nat * nat => if snd p =? 1 then 0 else fst p) (combine (skipn k idx) (shape r))) = List.length (shape r)) by (rewrite map_length, combine_length, LK; apply Nat.min_id).
      split; [exact LE|]. intros j. rewrite Nat.max_l by lia. rewrite LE, LI, Nat.sub_diag. cbn [repeat app]. fold k.
      destruct (Nat.lt_ge_cases j k) as [J|J].
      + rewrite !(app_nth1 (repeat _ k)) by (rewrite repeat_length; exact J). rewrite !nth_repeat. reflexivity.
      + rewrite !(app_nth2 (repeat _ k)) by (rewrite repeat_length; exact J). rewrite !repeat_length, (nth_taken (shape r) _ (j - k) LK). destruct (nth (j - k) (shape r) 1 =? 1); [reflexivity|].
        rewrite <- (firstn_skipn k idx) at 2. rewrite app_nth2; rewrite firstn_length, Nat.min_l by (unfold k; lia); [reflexivity|exact J].
  Qed.
End Any.

(** A byte written at an offset replaces the one that was there; a gap is filled with zeros; the
    rest stays. *)
Theorem C43_write l n b : List.length (write_at l n b) = Nat.max (List.length l) (S n) /\
  forall k, nth k (write_at l n b) 0 = if k =? n then b else nth k l 0.
Proof.
  unfold write_at. assert (LF : List.length (firstn n (l ++ repeat 0 (n - List.length l))) = n) by (rewrite firstn_length, app_length, repeat_length; lia). split.
  - rewrite app_length. cbn [List.length]. rewrite LF, skipn_length. lia.
  - intros k. destruct (Nat.eqb_spec k n) as [->|NE]; [rewrite app_nth2 by lia; rewrite LF, Nat.sub_diag; reflexivity|]. destruct (Nat.lt_ge_cases k n) as [J|J].
    + rewrite app_nth1 by lia. transitivity (nth k (l ++ repeat 0 (n - List.length l)) 0).
      * rewrite <- (firstn_skipn n (l ++ repeat 0 (n - List.length l))) at 2. rewrite app_nth1 by lia. reflexivity.
      * destruct (Nat.lt_ge_cases k (List.length l)) as [K|K]; [rewrite app_nth1 by exact K; reflexivity|]. rewrite app_nth2 by exact K. rewrite nth_repeat. symmetry. apply nth_overflow. exact K.
    + rewrite app_nth2 by lia. rewrite LF. replace (k - n) with (S (k - S n)) by lia. cbn [nth].
      destruct (Nat.lt_ge_cases (S n) (List.length l)) as [K|K].
      * rewrite <- (firstn_skipn (S n) l) at 2. rewrite app_nth2; rewrite firstn_length, Nat.min_l by lia; [reflexivity|lia].
      * rewrite skipn_all2 by exact K. destruct (k - S n); cbn; symmetry; apply nth_overflow; lia.
Qed.

Example C94_numpy_met : broadcasts [3; 2] [1; 1; 2] /\ broadcasts [3; 2] [2] /\ ~ broadcasts [3; 2] [3; 3; 2] /\ ~ broadcasts [3; 2] [3].
Proof.
  unfold broadcasts. cbn. repeat split; try (repeat constructor; fail).
  - intros H. inversion H as [|? ? ? ? E]; subst. destruct E; discriminate.
  - intros H. inversion H as [|? ? ? ? _ H2]; subst. inversion H2 as [|? ? ? ? E]; subst. destruct E; discriminate.
Qed.

Print Assumptions C94_numpy_accepts.
Print Assumptions C94_numpy_values.
Print Assumptions C43_write.
