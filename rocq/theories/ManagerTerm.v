(** Every schedule of Manager.v ends. *)
From Coq Require Import Permutation Wellfounded.
From Verif Require Import PyBase Manager ManagerSpec ManagerProofs.
Local Open Scope list_scope.

(** ** Replacing an item of a bag by smaller ones *)
Section Bag.
Context {A : Type} (lt : A -> A -> Prop).
Definition bag_lt (m' m : list A) : Prop :=
  exists x l ys, Permutation m (x :: l) /\ Permutation m' (ys ++ l) /\ forall y, In y ys -> lt y x.

Lemma acc_perm m m0 : Permutation m m0 -> Acc bag_lt m -> Acc bag_lt m0.
Proof.
  intros P [H]. constructor. intros n (x & l & ys & P1 & P2 & P3). apply H. exists x, l, ys.
  split; [transitivity m0; assumption|auto].
Qed.
Lemma acc_cons x : (forall y, lt y x -> forall m, Acc bag_lt m -> Acc bag_lt (y :: m)) ->
  forall m, Acc bag_lt m -> Acc bag_lt (x :: m).
Proof.
  intros HX m HM. induction HM as [m HM IH]. constructor. intros n (z & l & ys & P1 & P2 & P3).
  assert (IZ : In z (x :: m)) by (eapply Permutation_in; [symmetry; exact P1|left; reflexivity]).
  assert (CASES : (z = x /\ Permutation m l) \/ (exists l0, Permutation m (z :: l0) /\ Permutation l (x :: l0))).
  { destruct IZ as [->|IZ]; [left; split; [reflexivity|apply (Permutation_cons_inv P1)]|right].
    apply in_split in IZ. destruct IZ as (m1 & m2 & ->). exists (m1 ++ m2).
    split; [symmetry; apply Permutation_middle|]. apply (Permutation_cons_inv (a := z)).
    rewrite <- P1. rewrite <- Permutation_middle. apply perm_swap. }
  destruct CASES as [[-> P4]|(l0 & P4 & P5)].
  - apply (acc_perm (ys ++ m)); [rewrite P2; apply Permutation_app_head; exact P4|].
    assert (AM : Acc bag_lt m) by (constructor; exact HM). clear - HX P3 AM.
    induction ys as [|y ys IHY]; [exact AM|]. cbn. apply HX; [apply P3; left; reflexivity|].
    apply IHY. intros y' H. apply P3. right. exact H.
  - apply (acc_perm (x :: ys ++ l0)).
    + rewrite P2, P5. apply Permutation_middle.
    + apply IH. exists z, l0, ys. auto.
Qed.
Lemma acc_bag : (forall x, Acc lt x) -> forall m, Acc bag_lt m.
Proof.
  intros W. induction m as [|x m IH].
  - constructor. intros n (x & l & ys & P & _). apply Permutation_nil in P. discriminate.
  - revert m IH. induction (W x) as [x _ IHX]. apply acc_cons. exact IHX.
Qed.
End Bag.

(** ** Trees *)
Inductive child : proc -> proc -> Prop :=
| ch_acq l k : child k (Acq l k)
| ch_rel l k : child k (Rel l k)
| ch_job b k : child b (Put b k)
| ch_put b k f : child (k f) (Put b k)
| ch_await f k o : child (k o) (Await f k)
| ch_read k p m : child (k p m) (Read k)
| ch_set q k : child k (SetPol q k)
| ch_start k : child k (StartM k)
| ch_ask k a : child (k a) (Oracle k).
Lemma acc_child p : Acc child p.
Proof. induction p; constructor; intros ch HC; inversion HC; subst; auto. Qed.

(** A request, or the mark of one that is stored but not announced. *)
Inductive item := IP (p : proc) | IMark.
Definition item_lt (x y : item) : Prop :=
  match x, y with
  | IP p, IP q => child p q
  | IMark, IP _ => True
  | _, IMark => False
  end.
Lemma acc_item x : Acc item_lt x.
Proof.
  assert (M : Acc item_lt IMark) by (constructor; intros [p|] []).
  destruct x as [p|]; [|exact M]. induction (acc_child p) as [p _ IH]. constructor. intros [q|] H; [|exact M]. apply IH. exact H.
Qed.

Definition cur (m : mgr) : list item :=
  match m with MRun _ p _ => [IP p] | MStored _ => [IMark] | _ => [] end.
Definition items (s : sys) : list item :=
  map (fun x => IP (fst x)) (threads s) ++ cur (smgr s) ++ map (fun x => IP (snd x)) (queue s).
Definition weight (m : mgr) : nat :=
  match m with MTest => 2 | MSleep | MRun _ _ false => 1 | _ => 0 end.
Definition awake (l : list (proc * bool)) : nat := List.length (filter (fun x => negb (snd x)) l).
Definition small (s : sys) : nat := (awake (threads s) + weight (smgr s))%nat.

Definition less (s' s : sys) : Prop :=
  bag_lt item_lt (items s') (items s) \/ (items s' = items s /\ (small s' < small s)%nat).
Lemma less_acc s : Acc less s.
Proof.
  assert (X : forall m, Acc (bag_lt item_lt) m -> forall n s, items s = m -> small s = n -> Acc less s); [|].
  { intros m HM. induction HM as [m _ IHM]. intros n. induction n as [n IHN] using (well_founded_ind Wf_nat.lt_wf).
    intros s0 E1 E2. constructor. intros s' [H|[H1 H2]].
    - apply (IHM (items s')) with (n := small s'); auto. rewrite <- E1. exact H.
    - apply (IHN (small s')); auto; [|congruence]. rewrite <- E2. exact H2. }
  eapply X; [apply acc_bag; exact acc_item|reflexivity..].
Qed.

(** ** Steps *)
Lemma map_upd {A B} (g : A -> B) x : forall l n, map g (upd n x l) = upd n (g x) (map g l).
Proof. induction l as [|y l IH]; intros [|n]; cbn; try reflexivity. rewrite IH. reflexivity. Qed.
Lemma upd_split {A} (x y : A) : forall l n, nth_error l n = Some y ->
  exists l1 l2, l = l1 ++ y :: l2 /\ upd n x l = l1 ++ x :: l2 /\ List.length l1 = n.
Proof.
  induction l as [|z l IH]; intros [|n] H; cbn in H; try discriminate.
  - injection H as ->. exists [], l. auto.
  - destruct (IH n H) as (l1 & l2 & E1 & E2 & E3). exists (z :: l1), l2. cbn. rewrite E2, E3. rewrite E1 at 1. auto.
Qed.

(** A thread goes on to [p'], a child, and leaves the requests [more]. *)
Lemma thread_less s s' t p p' z more : nth_error (threads s) t = Some (p, false) ->
  threads s' = threads s ->
  Permutation (cur (smgr s') ++ map (fun x => IP (snd x)) (queue s')) (map IP more ++ cur (smgr s) ++ map (fun x => IP (snd x)) (queue s)) ->
  child p' p -> (forall q, In q more -> child q p) ->
  less (set_thread t (p', z) s') s.
Proof.
  intros N ET P C M. left. unfold items. cbn [set_thread threads smgr queue].
  destruct (upd_split (p', z) (p, false) (threads s) t N) as (l1 & l2 & E1 & E2 & _).
  exists (IP p), (map (fun x => IP (fst x)) (l1 ++ l2) ++ cur (smgr s) ++ map (fun x => IP (snd x)) (queue s)), (IP p' :: map IP more).
  split; [|split].
  - rewrite E1, !map_app. cbn [map fst]. rewrite <- !app_assoc. cbn. symmetry. apply Permutation_middle.
  - rewrite ET, E2, P, !map_app. cbn [map fst app]. rewrite <- !app_assoc. cbn [app].
    rewrite <- Permutation_middle. apply perm_skip.
    rewrite (app_assoc (map (fun x => IP (fst x)) l1)), (app_assoc (map _ l1)).
    rewrite Permutation_app_swap_app. reflexivity.
  - intros y [<-|H]; [exact C|]. apply in_map_iff in H. destruct H as (q & <- & H). apply M. exact H.
Qed.

Lemma awake_asleep l t p : nth_error l t = Some (p, false) -> (awake (upd t (p, true) l) < awake l)%nat.
Proof.
  intros N. destruct (upd_split (p, true) (p, false) l t N) as (l1 & l2 & E1 & -> & _). rewrite E1.
  unfold awake. rewrite !filter_app, !app_length. cbn. lia.
Qed.

Lemma client_less s t a s' : inv s -> step (Cl t) a s = Some s' -> less s' s.
Proof.
  intros I S. cbn in S. destruct (nth_error (threads s) t) as [[p [|]]|] eqn:N; try discriminate.
  destruct (pstep (Cl t) a s p) as [[[s1 p1] z1]|] eqn:E; [|discriminate]. injection S as <-.
  destruct (i_threads s I t p false N) as [(fs & hp & hm & kn & D & P & M & F & ON & OFF) _].
  destruct p as [o|[|] k|[|] k|b k|f k|k|q k|k|k]; cbn in E.
  - discriminate.
  - destruct (pl s); [discriminate|]. injection E as <- <- <-. apply (thread_less s _ t _ _ _ [] N); cbn; try constructor; auto. intros q [].
  - destruct (ml s); [discriminate|]. injection E as <- <- <-. apply (thread_less s _ t _ _ _ [] N); cbn; try constructor; auto. intros q [].
  - injection E as <- <- <-. apply (thread_less s _ t _ _ _ [] N); cbn; try constructor; auto. intros q [].
  - injection E as <- <- <-. apply (thread_less s _ t _ _ _ [] N); cbn; try constructor; auto. intros q [].
  - assert (X : exists m', cur m' = cur (smgr s) /\ s1 = mkSys (pl s) (ml s) (spol s) m' (queue s ++ [(List.length (futs s), b)]) (futs s ++ [mkFut None false]) (threads s) (trace s ++ [EPut (Cl t) (List.length (futs s)) b])
              /\ p1 = k (List.length (futs s))).
    { destruct (smgr s) eqn:EM; try discriminate; injection E as <- <- <-; (eexists; split; [|split]; [|reflexivity|reflexivity]; reflexivity). }
    destruct X as (m' & X1 & -> & ->). apply (thread_less s _ t _ _ _ [b] N); cbn; try constructor; auto.
    + rewrite X1, map_app. cbn. rewrite app_assoc. symmetry. apply Permutation_cons_append.
    + intros q [<-|[]]. constructor.
  - assert (X : (exists o, s1 = mkSys (pl s) (ml s) (spol s) (smgr s) (queue s) (futs s) (threads s) (trace s ++ [EGot (Cl t) f (seen o)]) /\ p1 = k (seen o)) \/
              (s1 = s /\ p1 = Await f k /\ z1 = true)).
    { destruct (nth_error (futs s) f) as [[[o|] [|]]|]; injection E as <- <- <-; auto. left. exists o. auto. }
    destruct X as [(o & -> & ->)|(-> & -> & ->)].
    + apply (thread_less s _ t _ _ _ [] N); cbn; try constructor; auto. intros q [].
    + right. destruct (upd_split (Await f k, true) (Await f k, false) (threads s) t N) as (l1 & l2 & E1 & E2 & _). split.
      * unfold items. cbn [set_thread threads smgr queue]. rewrite E2, E1, !map_app. reflexivity.
      * unfold small. cbn [set_thread threads smgr]. pose proof (awake_asleep (threads s) t _ N). lia.
  - injection E as <- <- <-. apply (thread_less s _ t _ _ _ [] N); cbn; try constructor; auto. intros q [].
  - injection E as <- <- <-. apply (thread_less s _ t _ _ _ [] N); cbn; try constructor; auto. intros q' [].
  - injection E as <- <- <-. assert (kn = KOff) as -> by (inversion D; reflexivity). destruct (OFF eq_refl) as [_ EO].
    pose proof (i_shared s I) as SH. pose proof (i_mgr s SH) as IG. rewrite EO in IG.
    assert (EQ : queue s = []).
    { pose proof (i_puts s SH) as X. rewrite IG, (i_starts s SH) in X. cbn in X. apply app_eq_nil in X. destruct X as [_ X].
      apply map_eq_nil in X. exact X. }
    apply (thread_less s _ t _ _ _ [] N); cbn; try constructor; auto; [rewrite EO, EQ; constructor|]. intros q [].
  - injection E as <- <- <-. apply (thread_less s _ t _ _ _ [] N); cbn; try constructor; auto. intros q [].
Qed.

Lemma bag_one (l r : list item) x ys : (forall y, In y ys -> item_lt y x) -> bag_lt item_lt (l ++ ys ++ r) (l ++ [x] ++ r).
Proof.
  intros H. exists x, (l ++ r), ys. split; [symmetry; apply Permutation_middle|]. split; [apply Permutation_app_swap_app|exact H].
Qed.
Lemma map_wake f l : map (fun x => IP (fst x)) (map (wake f) l) = map (fun x => IP (fst x)) l.
Proof.
  rewrite map_map. apply map_ext. intros [p z]. unfold wake. cbn. destruct p; try reflexivity.
  destruct (Nat.eqb f0 f); reflexivity.
Qed.
Lemma mgr_less s a s' : inv s -> step Mgr a s = Some s' -> less s' s.
Proof.
  intros I S. cbn in S. pose proof (i_mgr s (i_shared s I)) as IG.
  destruct (smgr s) as [| | |f p z|f|] eqn:EM; try discriminate.
  - destruct (queue s) as [|[f b] q] eqn:EQ; injection S as <-; right; unfold items, small;
      cbn [set_mgr smgr queue threads]; rewrite EM, EQ; (split; [reflexivity|cbn [weight]; lia]).
  - destruct IG as (-> & Q & _). destruct Q as [v|e|k Q]; cbn in S; injection S as <-; left; unfold items; cbn; rewrite EM; cbn [cur].
    + apply (bag_one _ _ (IP (Done (Val v))) [IMark]). intros y [<-|[]]. constructor.
    + apply (bag_one _ _ (IP (Done (Raised e))) [IMark]). intros y [<-|[]]. constructor.
    + apply (bag_one _ _ (IP (Oracle k)) [IP (k a)]). intros y [<-|[]]. constructor.
  - destruct (nth_error (futs s) f); [|discriminate]. injection S as <-. left. unfold items. cbn. rewrite EM, map_wake. cbn [cur].
    apply (bag_one _ _ IMark []). intros y [].
Qed.

Definition next (s' s : sys) : Prop := exists w a, step w a s = Some s'.
Lemma inv_acc s : inv s -> Acc next s.
Proof.
  induction (less_acc s) as [s _ IH]. intros I. constructor. intros s' (w & a & S).
  apply IH; [|apply (step_inv s w a); assumption]. destruct w as [|t]; [apply (mgr_less s a)|apply (client_less s t a)]; assumption.
Qed.

(** Whether anybody can move can be decided. *)
Lemma can_move s : (exists w s', step w a0 s = Some s') \/ (forall w, step w a0 s = None).
Proof.
  destruct (step Mgr a0 s) as [s'|] eqn:EM; [left; eauto|].
  assert (X : forall n, (exists t s', step (Cl t) a0 s = Some s') \/ (forall t, (t < n)%nat -> step (Cl t) a0 s = None)).
  { induction n as [|n [IH|IH]]; [right; lia|auto|]. destruct (step (Cl n) a0 s) as [s'|] eqn:E; [left; eauto|].
    right. intros t H. destruct (Nat.eq_dec t n) as [->|]; [exact E|apply IH; lia]. }
  destruct (X (List.length (threads s))) as [(t & s' & H)|H]; [left; eauto|]. right. intros [|t]; [exact EM|].
  destruct (Nat.lt_ge_cases t (List.length (threads s))) as [L|L]; [auto|]. cbn.
  apply nth_error_None in L. rewrite L. reflexivity.
Qed.
Lemma completes s : inv s -> exists sch s', run sch s = Some s' /\ complete s'.
Proof.
  intros I. induction (inv_acc s I) as [s _ IH]. destruct (can_move s) as [(w & s' & S)|H].
  - destruct (IH s') as (sch & s2 & R & C); [exists w, a0; exact S|apply (step_inv s w a0); assumption|].
    exists ((w, a0) :: sch), s2. cbn. rewrite S. auto.
  - exists [], s. split; [reflexivity|]. apply stuck_done; assumption.
Qed.
