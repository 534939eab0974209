(** Threads looking up weights in one local inventory: every call can be finished. *)
From Verif Require Import PyBase ListLemmas PyStr Float64 GridSpec GridVocab GridProofs Index IndexSpec IndexProofs IndexProofs2 Db MemCache Inventory Regrid
  System SystemSpec SystemProofs DbConc DbConcProofs DbConcProofs2.
Set Default Proof Using "Type".
Local Open Scope string_scope.
Local Open Scope list_scope.

Section Threads.
  Context {A rest : Type}.
  Variables (py_str : val -> string) (key_order : list string) (fuel : nat).
  Variable files : fs rest (csr A).
  Variable path : string.
  Notation listed := (listed files path).
  Notation move := (move py_str key_order fuel files path).
  Notation step := (step py_str key_order fuel files path).
  Notation run := (run py_str key_order fuel files path).
  Notation thread := (@thread A rest).
  Notation shared := (@shared rest).
  Notation state := (@state A rest).
  Implicit Types (s : shared) (t : thread) (g : state) (c : call).

  (** ** The lock *)
  Definition busy t : Prop := match at_ t with Idle | Want _ => False | _ => True end.
  Definition lock_inv g : Prop :=
    (lock (sh g) = false /\ forall n, holds (threads g n) = false) \/
    (lock (sh g) = true /\ exists h, holds (threads g h) = true /\ busy (threads g h) /\ forall n, n <> h -> holds (threads g n) = false).
  Lemma move_lock s t : (holds t = true -> busy t) ->
    (lock (fst (move s t)) = lock s /\ holds (snd (move s t)) = holds t /\ (holds t = true -> busy (snd (move s t)))) \/
    (lock s = false /\ lock (fst (move s t)) = true /\ holds (snd (move s t)) = true /\ busy (snd (move s t))) \/
    (holds t = true /\ lock (fst (move s t)) = false /\ holds (snd (move s t)) = false).
  Proof.
    intros B. unfold DbConc.move, busy in *.
    destruct (at_ t) as [|r|r b|r b|r b|r b k [|q l]|r b|[[gi go] m] b k|gi go [[x y] m] b k n i|e|y] eqn:AT;
      try (left; cbn; split; [reflexivity|]; split; [reflexivity|]; intros _; cbn; first [exact I|destruct (the_index s); exact I]).
    - assert (HO : holds t = false) by (destruct (holds t); [contradiction (B eq_refl)|reflexivity]). left. rewrite HO.
      destruct (todo t) as [|c l]; [cbn; rewrite HO; split; [reflexivity|split; [reflexivity|discriminate]]|].
      destruct (gi <- from_dict (c_in c) ;; go <- from_dict (c_out c) ;; Ok (gi, go, c_method c)) as [r|x|]; cbn; (split; [reflexivity|split; [reflexivity|discriminate]]).
    - destruct (lock s) eqn:LK; [left|right; left]; cbn; [rewrite AT; split; [exact LK|split; [reflexivity|exact B]]|auto].
    - left. cbn. split; [reflexivity|split; [reflexivity|intros _]]. destruct listed; [destruct (the_index s)|..]; exact I.
    - left. cbn. split; [reflexivity|split; [reflexivity|intros _]]. destruct (gi' <- from_dict (gd gi) ;; go' <- from_dict (gd go) ;; Ok (gi', go')) as [[a d]|?|]; exact I.
    - left. cbn. split; [reflexivity|split; [reflexivity|intros _]]. destruct (Nat.eqb _ _); [|exact I]. destruct (nth_error _ _) as [[q e]|]; [|destruct b; exact I]. destruct (snd _) as [[]|?|]; exact I.
    - cbn. destruct (holds t) eqn:HO; cbn; [right; right; auto|left; split; [reflexivity|split; [reflexivity|discriminate]]].
  Qed.
  Lemma step_lock g n : lock_inv g -> lock_inv (step g n).
  Proof.
    assert (TH : forall m, m <> n -> threads (step g n) m = threads g m) by (intros m NE; rewrite step_thread; destruct (Nat.eqb_spec m n); [contradiction|reflexivity]).
    assert (TN : threads (step g n) n = snd (move (sh g) (threads g n))) by (rewrite step_thread, Nat.eqb_refl; reflexivity).
    intros [(LK & Q)|(LK & h & HO & BU & Q)].
    - destruct (move_lock (sh g) (threads g n)) as [(E1 & E2 & _)|[(_ & E1 & E2 & E3)|(E & _)]]; [rewrite Q; discriminate|..].
      + left. rewrite step_shared, E1. split; [exact LK|]. intros m. destruct (Nat.eq_dec m n) as [->|NE]; [rewrite TN, E2; apply Q|rewrite TH by exact NE; apply Q].
      + right. rewrite step_shared. split; [exact E1|]. exists n. rewrite TN. split; [exact E2|]. split; [exact E3|]. intros m NE. rewrite TH by exact NE. apply Q.
      + rewrite Q in E. discriminate E.
    - destruct (Nat.eq_dec n h) as [->|NE].
      + destruct (move_lock (sh g) (threads g h) (fun _ => BU)) as [(E1 & E2 & E3)|[(E & _)|(_ & E1 & E2)]].
        * right. rewrite step_shared, E1. split; [exact LK|]. exists h. rewrite TN, E2. split; [exact HO|]. split; [exact (E3 HO)|]. intros m NE. rewrite TH by exact NE. exact (Q m NE).
        * rewrite LK in E. discriminate E.
        * left. rewrite step_shared. split; [exact E1|]. intros m. destruct (Nat.eq_dec m h) as [->|NE]; [rewrite TN; exact E2|rewrite TH by exact NE; exact (Q m NE)].
      + destruct (move_lock (sh g) (threads g n)) as [(E1 & E2 & _)|[(E & _)|(E & _)]]; [rewrite Q by exact NE; discriminate|..].
        * right. rewrite step_shared, E1. split; [exact LK|]. exists h. rewrite TH by (intros H; apply NE; symmetry; exact H). split; [exact HO|]. split; [exact BU|].
          intros m NM. destruct (Nat.eq_dec m n) as [->|NN]; [rewrite TN, E2; exact (Q n NE)|rewrite TH by exact NN; exact (Q m NM)].
        * rewrite LK in E. discriminate E.
        * rewrite Q in E by exact NE. discriminate E.
  Qed.
  Lemma run_lock g l : lock_inv g -> lock_inv (run g l).
  Proof. intros H. apply (run_ind py_str key_order fuel files path lock_inv); [exact H|intros ? ?; apply step_lock]. Qed.

  (** ** A thread left alone finishes its call *)
  Definition ends g n : Prop := exists k, at_ (threads (run g (repeat n k)) n) = Idle /\ todo (threads (run g (repeat n k)) n) = todo (threads g n).
  Lemma at_step g n : threads (step g n) n = snd (move (sh g) (threads g n)).
  Proof. rewrite step_thread, Nat.eqb_refl. reflexivity. Qed.
  Lemma todo_step s t : at_ t <> Idle -> todo (snd (move s t)) = todo t.
  Proof.
    unfold DbConc.move. destruct (at_ t) as [|r|r b|r b|r b|r b k [|q l]|r b|[[gi go] m] b k|gi go [[x y] m] b k n i|e|y]; intros N; try reflexivity; [contradiction N; reflexivity|].
    destruct (lock s); reflexivity.
  Qed.
  Lemma ends_step g n : at_ (threads g n) <> Idle -> ends (step g n) n -> ends g n.
  Proof.
    intros N (k & E1 & E2). exists (S k). cbn [repeat]. change (run g (n :: repeat n k)) with (run (step g n) (repeat n k)). split; [exact E1|]. rewrite E2, at_step. exact (todo_step _ _ N).
  Qed.
  Ltac moves AT := apply ends_step; [rewrite AT; discriminate|].
  Lemma ends_done g n y : at_ (threads g n) = Done y -> ends g n.
  Proof. intros AT. exists 1%nat. cbn [repeat]. change (run g [n]) with (step g n). rewrite at_step, todo_step by (rewrite AT; discriminate). split; [|reflexivity]. unfold DbConc.move. rewrite AT. reflexivity. Qed.
  Lemma ends_load g n e : at_ (threads g n) = Load e -> ends g n.
  Proof. intros AT. moves AT. eapply ends_done. rewrite at_step. unfold DbConc.move. rewrite AT. reflexivity. Qed.
  Section Pass.
    Variables (n : nat) (b : bool).
    Hypothesis X : b = false -> forall g r, at_ (threads g n) = New r true -> ends g n.
    Lemma ends_scan d : forall g gi go r k m i, (m - i <= d)%nat -> at_ (threads g n) = Scan gi go r b k m i -> ends g n.
    Proof using X.
      induction d as [|d IH]; intros g gi go r k m i D AT; moves AT;
        (assert (AT' := at_step g n); unfold DbConc.move in AT'; rewrite AT in AT'; destruct r as [[x y] me]; cbn [snd] in AT';
         destruct (Nat.eqb_spec (List.length (object k (sh g))) m) as [LE|LE]; [|eapply ends_done; rewrite AT'; reflexivity];
         destruct (nth_error (object k (sh g)) i) as [[nm e]|] eqn:NT;
         [|destruct b eqn:B; [eapply ends_done; rewrite AT'; reflexivity|eapply X; [reflexivity|rewrite AT'; reflexivity]]];
         destruct (snd (match_entry py_str key_order fuel e gi go (method_alias me))) as [[]|?|];
         [eapply ends_load; rewrite AT'; reflexivity| |eapply ends_done; rewrite AT'; reflexivity|eapply ends_done; rewrite AT'; reflexivity]);
        assert (L : (i < m)%nat) by (rewrite <- LE; apply nth_error_Some; rewrite NT; discriminate).
      - lia.
      - refine (IH (step g n) gi go (x, y, me) k m (S i) _ _); [lia|rewrite AT'; reflexivity].
    Qed.
    Lemma ends_have g r k : at_ (threads g n) = Have r b k -> ends g n.
    Proof using X.
      intros AT. moves AT. assert (AT' := at_step g n). unfold DbConc.move in AT'. rewrite AT in AT'. destruct r as [[x y] me]. cbn [snd] in AT'.
      destruct (gi' <- from_dict (gd x) ;; go' <- from_dict (gd y) ;; Ok (gi', go')) as [[a d]|?|]; [eapply ends_scan; [apply le_n|rewrite AT'; reflexivity]|eapply ends_done; rewrite AT'; reflexivity..].
    Qed.
    Lemma ends_got g r : at_ (threads g n) = Got r b -> ends g n.
    Proof using X.
      intros AT. moves AT. assert (AT' := at_step g n). unfold DbConc.move in AT'. rewrite AT in AT'. cbn [snd] in AT'.
      destruct (the_index (sh g)); [eapply ends_have|eapply ends_done]; rewrite AT'; reflexivity.
    Qed.
    Lemma ends_enter_some g r : the_index (sh g) <> None -> at_ (threads g n) = Enter r b -> ends g n.
    Proof using X.
      intros TI AT. moves AT. assert (AT' := at_step g n). unfold DbConc.move in AT'. rewrite AT in AT'. cbn [snd] in AT'.
      destruct (the_index (sh g)); [|contradiction TI; reflexivity]. eapply ends_got. rewrite AT'. reflexivity.
    Qed.
    Lemma ends_fill_some l : forall g r k, the_index (sh g) <> None -> at_ (threads g n) = Fill r b k l -> ends g n.
    Proof using X.
      induction l as [|p l IH]; intros g r k TI AT; moves AT; assert (AT' := at_step g n); unfold DbConc.move in AT'; rewrite AT in AT'; cbn [snd] in AT';
        [eapply ends_enter_some|eapply IH]; try (rewrite AT'; reflexivity); rewrite step_shared; unfold DbConc.move; rewrite AT; exact TI.
    Qed.
    Lemma ends_open_some g r : the_index (sh g) <> None -> at_ (threads g n) = Open r b -> ends g n.
    Proof using X.
      intros TI AT. moves AT. assert (AT' := at_step g n). unfold DbConc.move in AT'. rewrite AT in AT'. cbn [snd] in AT'.
      assert (SI : the_index (sh (step g n)) = the_index (sh g)) by (rewrite step_shared; unfold DbConc.move; rewrite AT; reflexivity).
      destruct listed as [l|?|]; [destruct (the_index (sh g)); [|contradiction TI; reflexivity]; eapply ends_fill_some; [rewrite SI; discriminate|rewrite AT'; reflexivity]|eapply ends_done; rewrite AT'; reflexivity..].
    Qed.
    Lemma ends_new g r : at_ (threads g n) = New r b -> ends g n.
    Proof using X.
      intros AT. moves AT. assert (AT' := at_step g n). unfold DbConc.move in AT'. rewrite AT in AT'. cbn [snd] in AT'.
      eapply ends_open_some; [|rewrite AT'; reflexivity]. rewrite step_shared. unfold DbConc.move. rewrite AT. discriminate.
    Qed.
    Lemma ends_enter g r : at_ (threads g n) = Enter r b -> ends g n.
    Proof using X.
      intros AT. moves AT. assert (AT' := at_step g n). unfold DbConc.move in AT'. rewrite AT in AT'. cbn [snd] in AT'.
      destruct (the_index (sh g)); [eapply ends_got|eapply ends_new]; rewrite AT'; reflexivity.
    Qed.
    Lemma ends_fill l : forall g r k, at_ (threads g n) = Fill r b k l -> ends g n.
    Proof using X.
      induction l as [|p l IH]; intros g r k AT; moves AT; assert (AT' := at_step g n); unfold DbConc.move in AT'; rewrite AT in AT'; cbn [snd] in AT';
        [eapply ends_enter|eapply IH]; rewrite AT'; reflexivity.
    Qed.
    Lemma ends_open g r : at_ (threads g n) = Open r b -> ends g n.
    Proof using X.
      intros AT. moves AT. assert (AT' := at_step g n). unfold DbConc.move in AT'. rewrite AT in AT'. cbn [snd] in AT'.
      destruct listed as [l|?|]; [destruct (the_index (sh g)); [eapply ends_fill|eapply ends_done]; rewrite AT'; reflexivity|eapply ends_done; rewrite AT'; reflexivity..].
    Qed.
  End Pass.
  Lemma busy_ends g n : busy (threads g n) -> ends g n.
  Proof.
    assert (X1 : true = false -> forall g r, at_ (threads g n) = New r true -> ends g n) by discriminate.
    assert (X : forall b, b = false -> forall g r, at_ (threads g n) = New r true -> ends g n) by (intros _ _ g0 r; exact (ends_new n true X1 g0 r)).
    unfold busy. destruct (at_ (threads g n)) as [|r|r b|r b|r b|r b k l|r b|r b k|gi go r b k m i|e|y] eqn:AT; try contradiction; intros _.
    - exact (ends_enter n b (X b) g r AT).
    - exact (ends_new n b (X b) g r AT).
    - exact (ends_open n b (X b) g r AT).
    - exact (ends_fill n b (X b) l g r k AT).
    - exact (ends_got n b (X b) g r AT).
    - exact (ends_have n b (X b) g r k AT).
    - exact (ends_scan n b (X b) (m - i) g gi go r k m i (le_n _) AT).
    - exact (ends_load g n e AT).
    - exact (ends_done g n y AT).
  Qed.
  Lemma run_repeat_other g n k m : m <> n -> threads (run g (repeat n k)) m = threads g m.
  Proof.
    intros NE. revert g. induction k as [|k IH]; intros g; [reflexivity|]. cbn [repeat]. change (run g (n :: repeat n k)) with (run (step g n) (repeat n k)). rewrite IH, step_thread.
    destruct (Nat.eqb_spec m n); [contradiction|reflexivity].
  Qed.
  Lemma run_app g l l' : run g (l ++ l') = run (run g l) l'.
  Proof. apply fold_left_app. Qed.
  (** The lock comes free, and nothing happens to the waiting thread meanwhile. *)
  Lemma lock_freed g n : lock_inv g -> holds (threads g n) = false -> exists l, lock (sh (run g l)) = false /\ threads (run g l) n = threads g n.
  Proof.
    intros LI HN. pose proof LI as [(LK & _)|(LK & h & HO & BU & Q)]; [exists []; auto|].
    destruct (busy_ends g h BU) as (k & E & _). exists (repeat h k). assert (NE : n <> h) by (intros ->; rewrite HO in HN; discriminate HN). split; [|exact (run_repeat_other g h k n NE)].
    destruct (run_lock g (repeat h k) LI) as [(L & _)|(_ & h' & HO' & BU' & _)]; [exact L|]. exfalso.
    destruct (Nat.eq_dec h' h) as [->|N2]; [unfold busy in BU'; rewrite E in BU'; exact BU'|]. rewrite run_repeat_other in HO' by exact N2. rewrite (Q h' N2) in HO'. discriminate HO'.
  Qed.
  Lemma any_ends g n : lock_inv g -> (holds (threads g n) = true -> busy (threads g n)) -> exists l, at_ (threads (run g l) n) = Idle /\ todo (threads (run g l) n) = todo (threads g n).
  Proof.
    intros LI HB. destruct (at_ (threads g n)) as [|r|r b|r b|r b|r b k l|r b|r b k|gi go r b k m i|e|y] eqn:AT;
      try (destruct (busy_ends g n) as (kk & E); [unfold busy; rewrite AT; exact I|exists (repeat n kk); exact E]).
    - exists []. auto.
    - assert (HN : holds (threads g n) = false) by (destruct (holds (threads g n)) eqn:HO; [specialize (HB eq_refl); unfold busy in HB; rewrite AT in HB; contradiction|reflexivity]).
      destruct (lock_freed g n LI HN) as (l & LK & TN).
      destruct (busy_ends (step (run g l) n) n) as (k & E1 & E2).
      { unfold busy. rewrite at_step. unfold DbConc.move. rewrite TN, AT, LK. exact I. }
      exists (l ++ n :: repeat n k). rewrite run_app. change (run (run g l) (n :: repeat n k)) with (run (step (run g l) n) (repeat n k)). split; [exact E1|]. rewrite E2, at_step, todo_step by (rewrite TN, AT; discriminate). rewrite TN. reflexivity.
  Qed.
  Lemma inv_holder g n : lock_inv g -> holds (threads g n) = true -> busy (threads g n).
  Proof.
    intros [(_ & Q)|(_ & h & _ & BU & Q)] HO; [rewrite Q in HO; discriminate HO|]. destruct (Nat.eq_dec n h) as [->|NE]; [exact BU|]. rewrite (Q n NE) in HO. discriminate HO.
  Qed.
  Lemma all_ends k : forall g n, lock_inv g -> List.length (todo (threads g n)) = k -> exists l, at_ (threads (run g l) n) = Idle /\ todo (threads (run g l) n) = [].
  Proof.
    induction k as [|k IH]; intros g n LI LE.
    - destruct (any_ends g n LI (inv_holder g n LI)) as (l & E1 & E2). exists l. split; [exact E1|]. rewrite E2. destruct (todo (threads g n)); [reflexivity|discriminate LE].
    - destruct (any_ends g n LI (inv_holder g n LI)) as (l & E1 & E2). destruct (todo (threads g n)) as [|c q] eqn:TD; [discriminate LE|]. injection LE as LE.
      assert (T1 : todo (threads (step (run g l) n) n) = q).
      { rewrite at_step. unfold DbConc.move. rewrite E1, E2. destruct (gi <- from_dict (c_in c) ;; go <- from_dict (c_out c) ;; Ok (gi, go, c_method c)); reflexivity. }
      destruct (IH (step (run g l) n) n (step_lock _ n (run_lock g l LI)) ltac:(rewrite T1; exact LE)) as (l' & E). exists (l ++ n :: l'). rewrite run_app. exact E.
  Qed.
  Lemma start_lock i h progs : lock_inv (mkState (mkShared i h false) (fun n => mkThread (progs n) Idle None false []) : state).
  Proof. left. split; reflexivity. Qed.
End Threads.
