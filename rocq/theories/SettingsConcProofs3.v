(** Threads that change settings can always be run to their end. *)
From Verif Require Import PyBase ListLemmas MemCache MemCacheConc SettingsConc SettingsConcProofs
  SettingsConcProofs2.
Set Default Proof Using "Type".

Section Ends.
  Variables Req Ent W C : Type.
  Variable key_of : Req -> string.
  Variable est_size : Ent -> Z.
  Variable size_of : W -> Z.
  Variable view : C -> mconf.
  Notation call := (SettingsConc.call Req Ent W C).
  Notation place := (SettingsConc.place Req Ent W C).
  Notation thread := (SettingsConc.thread Req Ent W C).
  Notation sys := (SettingsConc.sys Req Ent W C).
  Notation step1 := (SettingsConc.step1 key_of est_size size_of view).
  Notation steps := (SettingsConc.steps key_of est_size size_of view).
  Notation holds := (SettingsConcProofs2.holds Req Ent W C).
  Implicit Types (g : sys) (t : thread).
  Local Open Scope nat_scope.

  Definition call_work (a : call) : nat :=
    match a with Change fs => List.length fs + 7 | _ => 2 end.
  Definition place_work (p : place) : nat :=
    match p with
    | Ready => 0 | Writing fs => List.length fs + 6 | Notify => 5 | U1 => 4 | U2 _ => 3
    | U3 _ => 2 | U4 _ _ => 1 | Asking _ => 1
    end.
  Definition prog_work (l : list call) : nat := list_sum (map call_work l).
  Definition work t : nat := prog_work (prog t) + place_work (place_ t).

  Definition lockH g : Prop := forall k, holds (place_ (thr g k)) = true <-> slock g = Some k.

  Lemma work_left l p b c : work (left_by (mkThread l p c) b) <= prog_work l.
  Proof.
    unfold work, left_by. cbn [prog place_ catches place_work].
    destruct (_ && _); [change (prog_work []) with 0|]; lia.
  Qed.

  (** A thread's step touches only that thread; it makes progress unless it waits. *)
  Lemma step_works k g :
    (forall h, h <> k -> thr (step1 k g) h = thr g h) /\
    (work (thr g k) > 0 -> (slock g = None \/ slock g = Some k) -> lockH g ->
     work (thr (step1 k g) k) < work (thr g k)) /\
    (work (thr g k) = 0 -> step1 k g = g).
  Proof.
    unfold SettingsConc.step1. destruct (thr g k) as [pr pl ca] eqn:ET. cbn [place_ prog catches].
    destruct pl as [|fs| | |ch|ch|ch r|a].
    - destruct pr as [|a pr].
      + repeat split; auto. cbn. rewrite ET. cbn. lia.
      + split; [|split; [|destruct a; cbn; lia]].
        * intros h N. destruct a; cbn; rewrite ?put_other; auto;
            destruct (has_cache _); cbn; rewrite put_other; auto.
        * intros _ _ _. destruct a as [fs|i r| |]; cbn; rewrite ?put_same; unfold work, prog_work; cbn;
            try lia.
          destruct (has_cache _); cbn; rewrite put_same; cbn; [lia|].
          destruct (_ && _); cbn; lia.
    - destruct fs as [|f fs]; (split; [|split]).
      1,4: intros h N; cbn; rewrite put_other; auto.
      1,3: intros _ _ _; cbn; rewrite put_same; unfold work; cbn; lia.
      1,2: unfold work; cbn; lia.
    - destruct (slock g) as [j|] eqn:EL.
      + split; [auto|]. split; [|unfold work; cbn; lia].
        intros _ [H|H] HL; [discriminate|]. inversion H; subst j. apply HL in EL. rewrite ET in EL. discriminate.
      + split; [intros h N; cbn; rewrite put_other; auto|]. split; [|unfold work; cbn; lia].
        intros _ _ _. cbn. rewrite put_same. unfold work. cbn. lia.
    - destruct (set_max _ _) as [s ch].
      split; [intros h N; cbn; rewrite put_other; auto|]. split; [|unfold work; cbn; lia].
      intros _ _ _. cbn. rewrite put_same. unfold work. cbn. lia.
    - destruct (set_strict _ _) as [s ch2].
      split; [intros h N; cbn; rewrite put_other; auto|]. split; [|unfold work; cbn; lia].
      intros _ _ _. cbn. rewrite put_same. unfold work. cbn. lia.
    - destruct (upd2 _ _ _) as [s r].
      split; [intros h N; cbn; rewrite put_other; auto|]. split; [|unfold work; cbn; lia].
      intros _ _ _. cbn. rewrite put_same. unfold work. cbn. lia.
    - destruct (upd3 _ _ _ _) as [s x].
      split; [intros h N; cbn [thr]; rewrite put_other; auto|]. split; [|unfold work; cbn; lia].
      intros _ _ _. cbn [thr]. rewrite put_same.
      pose proof (work_left pr (U4 ch r) (is_some (raised x)) ca). unfold work at 2. cbn [prog place_ place_work]. lia.
    - destruct (slock g) as [j|] eqn:EL.
      + split; [auto|]. split; [|unfold work; cbn; lia].
        intros _ [H|H] HL; [discriminate|]. inversion H; subst j. apply HL in EL. rewrite ET in EL. discriminate.
      + destruct (MemCache.step _ _ _ _ _) as [s x].
        split; [intros h N; cbn [thr]; rewrite put_other; auto|]. split; [|unfold work; cbn; lia].
        intros _ _ _. cbn [thr]. rewrite put_same.
        pose proof (work_left pr (Asking a) (is_some (out_raised _ _ _ x)) ca).
        unfold work at 2. cbn [prog place_ place_work]. lia.
  Qed.

  Fixpoint total (n : nat) (f : nat -> thread) : nat :=
    match n with O => 0 | S n => work (f n) + total n f end.

  Lemma total_same n (f f' : nat -> thread) :
    (forall k, k < n -> f' k = f k) -> total n f' = total n f.
  Proof.
    induction n as [|n IH]; intros H; cbn; [reflexivity|]. rewrite H by lia. rewrite IH; auto.
  Qed.

  Lemma total_less n (f f' : nat -> thread) k :
    k < n -> (forall h, h <> k -> f' h = f h) -> work (f' k) < work (f k) -> total n f' < total n f.
  Proof.
    induction n as [|n IH]; intros Hk HO HW; cbn; [lia|].
    destruct (Nat.eq_dec k n) as [->|N].
    - rewrite (total_same n f f') by (intros h Hh; apply HO; lia). lia.
    - rewrite (HO n) by lia. specialize (IH ltac:(lia) HO HW). lia.
  Qed.

  Lemma total_zero n (f : nat -> thread) : total n f = 0 -> forall k, k < n -> work (f k) = 0.
  Proof.
    induction n as [|n IH]; intros H k Hk; [lia|]. cbn in H.
    destruct (Nat.eq_dec k n) as [->|N]; [lia|apply IH; lia].
  Qed.

  Lemma total_pos n (f : nat -> thread) : 0 < total n f -> exists k, k < n /\ 0 < work (f k).
  Proof.
    induction n as [|n IH]; cbn; [lia|]. intros H.
    destruct (Nat.eq_dec (work (f n)) 0) as [E|E].
    - destruct IH as (k & A & B); [lia|]. exists k. split; [lia|exact B].
    - exists n. lia.
  Qed.

  Lemma work_zero t : work t = 0 -> place_ t = Ready /\ prog t = [].
  Proof.
    clear key_of est_size size_of view.
    unfold work, prog_work. destruct t as [pr pl ca]. cbn. intros H.
    destruct pl; cbn in H; try lia. destruct pr as [|a pr]; [auto|].
    cbn in H. destruct a; cbn in H; lia.
  Qed.

  Lemma holds_work (p : place) : holds p = true -> 0 < place_work p.
  Proof. destruct p; cbn; try discriminate; lia. Qed.

  Section Runs.
    Variable good : sys -> Prop.
    Hypothesis good_lock : forall g, good g -> lockH g.
    Hypothesis good_step : forall k g, good g -> good (step1 k g).

    Lemma can_end n m : forall g,
      good g -> total n (thr g) <= m -> (forall k, n <= k -> work (thr g k) = 0) ->
      exists l, (forall k, In k l -> k < n) /\ List.length l <= m /\ done (steps l g).
    Proof using good_lock good_step.
      induction m as [|m IH]; intros g HG HT HZ.
      - exists []. split; [intros k []|]. split; [cbn; lia|]. intros k. apply work_zero.
        destruct (Nat.lt_ge_cases k n) as [L|L]; [|auto]. apply (total_zero n (thr g)); [lia|exact L].
      - destruct (Nat.eq_dec (total n (thr g)) 0) as [E|E].
        { exists []. split; [intros k []|]. split; [cbn; lia|]. intros k. apply work_zero.
          destruct (Nat.lt_ge_cases k n) as [L|L]; [|auto]. apply (total_zero n (thr g)); [lia|exact L]. }
        assert (exists k, k < n /\ 0 < work (thr g k) /\ (slock g = None \/ slock g = Some k)) as (k & A & B & D).
        { destruct (slock g) as [h|] eqn:EL.
          - exists h. assert (0 < work (thr g h)) as X.
            { apply (good_lock _ HG) in EL. apply holds_work in EL. unfold work. lia. }
            split; [|auto]. destruct (Nat.lt_ge_cases h n) as [L|L]; [exact L|]. rewrite HZ in X by exact L. lia.
          - destruct (total_pos n (thr g)) as (k & A & B); [lia|]. exists k. auto. }
        destruct (step_works k g) as (S1 & S2 & _).
        specialize (S2 B D (good_lock _ HG)).
        destruct (IH (step1 k g)) as (l & L1 & L2 & L3).
        + apply good_step. exact HG.
        + pose proof (total_less n (thr g) (thr (step1 k g)) k A S1 S2). lia.
        + intros h Hh. rewrite S1 by lia. apply HZ. exact Hh.
        + exists (k :: l). split; [intros j [<-|Hj]; auto|]. split; [cbn; lia|exact L3].
    Qed.
  End Runs.
End Ends.
