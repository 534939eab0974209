(** Proofs about Config.v: frames, the stack, files, observers. *)
From Verif Require Import PyBase ListLemmas PyStr Humanize HumanizeSpec HumanizeProofs Config ConfigSpec.

Local Open Scope string_scope.
Local Open Scope list_scope.
Local Open Scope Z_scope.
Set Default Proof Using "Type".

Section ConfigProofs.
  Variable Obj : Type.
  Variable obj_str : Obj -> string.
  Variable obj_bool : Obj -> bool.
  Variable obj_yaml : Obj -> bool.
  Variable home : string.
  Variable writable : string -> bool.
  Variable version : string.
  Variable ObsSt : Type.
  Variable obs : nat -> (string -> result (value Obj)) -> ObsSt -> ObsSt * result unit.

  Notation value := (value Obj).
  Notation st := (st Obj ObsSt).
  Notation conf := (conf Obj).
  Notation cmd := (cmd Obj ObsSt).
  Notation notify_loop := (notify_loop Obj obj_str home ObsSt obs).
  Notation notify := (notify Obj obj_str home ObsSt obs).
  Notation changed1 := (changed1 Obj obj_str home writable version ObsSt obs).
  Notation changed := (changed Obj obj_str home writable version ObsSt obs).
  Notation do_set := (do_set Obj obj_str obj_bool home writable version ObsSt obs).
  Notation do_reset := (do_reset Obj obj_str home writable version ObsSt obs).
  Notation make_temp := (make_temp Obj obj_str obj_bool home writable version ObsSt).
  Notation enter := (enter Obj obj_str home ObsSt obs).
  Notation leave := (leave Obj obj_str home ObsSt obs).
  Notation exec := (exec Obj obj_str obj_bool home writable version ObsSt obs).
  Notation with_top := (with_top Obj ObsSt).
  Notation with_stack := (with_stack Obj ObsSt).
  Notation with_files := (with_files Obj ObsSt).
  Notation save_to := (save_to Obj home writable version).
  Notation set_vals := (set_vals Obj obj_str obj_bool home).
  Notation get := (get Obj obj_str home ObsSt).
  Implicit Types (s : st).

  (** Everything but the observers' side and the files is the same. *)
  Definition same s s' : Prop :=
    base s' = base s /\ stack s' = stack s /\ callbacks s' = callbacks s /\
    autosave s' = autosave s /\ environ s' = environ s /\ failed s' = failed s.

  Lemma same_refl s : same s s.
  Proof. repeat split. Qed.
  Lemma same_trans a b (d : st) : same a b -> same b d -> same a d.
  Proof. clear. unfold same. intuition congruence. Qed.
  Lemma same_top s s' : same s s' -> top s' = top s.
  Proof. intros (A & B & _). unfold top. rewrite A, B. reflexivity. Qed.
  Lemma same_get s s' : same s s' -> forall n, get s' n = get s n.
  Proof. intros H n. unfold Config.get. rewrite (same_top _ _ H). destruct H as (_ & _ & _ & _ & E & _). rewrite E. reflexivity. Qed.

  Lemma notify_loop_same cbs s s' r : notify_loop cbs s = (s', r) -> same s s' /\ files s' = files s.
  Proof.
    revert s. induction cbs as [|cb cbs IH]; intros s; cbn [Config.notify_loop].
    - intros H. inversion H; subst. split; [apply same_refl|reflexivity].
    - destruct (obs cb (get s) (ostate s)) as [o' res].
      set (s1 := mkSt _ _ _ _ _ _ _ _ _). assert (H1 : same s s1 /\ files s1 = files s) by (repeat split).
      destruct res as [u|e|]; intros H.
      + destruct (IH _ H) as (A & B). split; [eapply same_trans; [apply H1|exact A]|rewrite B; apply H1].
      + inversion H; subst. exact H1.
      + inversion H; subst. exact H1.
  Qed.

  Lemma notify_loop_seen cbs s s' r : notify_loop cbs s = (s', r) ->
    exists done, seen s' = seen s ++ map (fun cb => (cb, vals (top s))) done /\
      (exists rest, cbs = done ++ rest) /\ (r = Ok tt -> done = cbs).
  Proof.
    revert s. induction cbs as [|cb cbs IH]; intros s; cbn [Config.notify_loop].
    - intros H. inversion H; subst. exists []. cbn. rewrite app_nil_r. split; [reflexivity|]. split; [exists []; reflexivity|reflexivity].
    - destruct (obs cb (get s) (ostate s)) as [o' res].
      set (s1 := mkSt _ _ _ _ _ _ _ _ _). 
      destruct res as [u|e|]; intros H.
      + destruct (IH _ H) as (done & A & (rest & B) & C). exists (cb :: done). cbn. split; [|split].
        * rewrite A. cbn [seen s1]. rewrite <- app_assoc. reflexivity.
        * exists rest. rewrite B. reflexivity.
        * intros E. rewrite (C E). reflexivity.
      + inversion H; subst. exists [cb]. cbn. split; [reflexivity|]. split; [exists cbs; reflexivity|discriminate].
      + inversion H; subst. exists [cb]. cbn. split; [reflexivity|]. split; [exists cbs; reflexivity|discriminate].
  Qed.

  Lemma notify_same s s' r : notify s = (s', r) -> same s s' /\ files s' = files s.
  Proof. apply notify_loop_same. Qed.
  Lemma notify_seen s s' : notify s = (s', Ok tt) ->
    seen s' = seen s ++ map (fun cb => (cb, vals (top s))) (callbacks s).
  Proof. intros H. destruct (notify_loop_seen _ _ _ _ H) as (d & A & _ & C). rewrite (C eq_refl) in A. exact A. Qed.

  Lemma changed1_same s s' r : changed1 s = (s', r) -> same s s' /\
    files s' = if autosave s then save_to (path (top s)) (vals (top s)) (files s) else files s.
  Proof.
    unfold Config.changed1. intros H. apply notify_same in H. destruct H as [A B].
    destruct (autosave s) eqn:E; [|auto]. split; [|exact B].
    eapply same_trans; [|exact A]. unfold same, Config.with_files. cbn. auto 10.
  Qed.

  Lemma save_twice p v f : save_to p v (save_to p v f) = save_to p v f.
  Proof.
    unfold Config.save_to. destruct p as [p|]; [|reflexivity]. destruct (writable p); [|reflexivity].
    generalize (dumped Obj home version v). intros d. induction f as [|[k x] f IH]; cbn.
    - rewrite String.eqb_refl. reflexivity.
    - destruct (String.eqb p k) eqn:E; cbn; rewrite E; [reflexivity|]. rewrite IH. reflexivity.
  Qed.

  Lemma changed_same n s s' r : changed n s = (s', r) -> same s s' /\
    files s' = if autosave s && negb (Nat.eqb n 0) then save_to (path (top s)) (vals (top s)) (files s) else files s.
  Proof.
    revert s. induction n as [|n IH]; intros s; cbn [Config.changed].
    - intros H. inversion H; subst. rewrite andb_false_r. split; [apply same_refl|reflexivity].
    - destruct (changed1 s) as [s1 r1] eqn:E1. apply changed1_same in E1. destruct E1 as [A B].
      destruct r1 as [u|e|]; intros H.
      + apply IH in H. destruct H as [C D]. split; [eapply same_trans; eassumption|].
        pose proof (same_top _ _ A) as HT. destruct A as (_ & _ & _ & A4 & _). rewrite A4, HT in D. rewrite D, B.
        destruct (autosave s), n; cbn; try reflexivity. apply save_twice.
      + inversion H; subst. split; [exact A|]. rewrite B. destruct (autosave s); reflexivity.
      + inversion H; subst. split; [exact A|]. rewrite B. destruct (autosave s); reflexivity.
  Qed.

  Lemma changed_seen n s s' : changed n s = (s', Ok tt) ->
    seen s' = seen s ++ List.concat (repeat (map (fun cb => (cb, vals (top s))) (callbacks s)) n).
  Proof.
    revert s. induction n as [|n IH]; intros s; cbn [Config.changed].
    - intros H. inversion H; subst. cbn. rewrite app_nil_r. reflexivity.
    - destruct (changed1 s) as [s1 r1] eqn:E1. pose proof (changed1_same _ _ _ E1) as [A B].
      destruct r1 as [[]|e|]; intros H; [|inversion H|inversion H].
      rewrite (IH _ H), (same_top _ _ A). destruct A as (_ & _ & A3 & _). rewrite A3.
      unfold Config.changed1 in E1.
      apply notify_seen in E1. cbn [repeat List.concat]. rewrite app_assoc. f_equal. rewrite E1.
      destruct (autosave s); reflexivity.
  Qed.

  (** Replacing the top configuration. *)
  Lemma with_top_top s (c : conf) : top (with_top s c) = c.
  Proof. unfold Config.with_top, top. destruct (stack s); reflexivity. Qed.
  Lemma with_top_fields s (c : conf) :
    callbacks (with_top s c) = callbacks s /\ autosave (with_top s c) = autosave s /\
    files (with_top s c) = files s /\ environ (with_top s c) = environ s /\
    failed (with_top s c) = failed s /\ seen (with_top s c) = seen s.
  Proof. unfold Config.with_top. destruct (stack s); repeat split. Qed.

  (** [tops s s']: the same stack except for the values of the top configuration. *)
  Definition tops s s' : Prop :=
    failed s' = failed s /\ callbacks s' = callbacks s /\ environ s' = environ s /\ autosave s' = autosave s /\
    match stack s with
    | [] => stack s' = [] /\ path (base s') = path (base s)
    | t :: rest => base s' = base s /\ exists t', stack s' = t' :: rest /\ path t' = path t
    end.

  Lemma same_tops s (c : conf) s' : path c = path (top s) -> same (with_top s c) s' -> tops s s'.
  Proof.
    intros HP (A & B & C & D & E & F). unfold tops, Config.with_top, top in *.
    destruct (stack s) as [|t rest]; cbn in *; (split; [congruence|]); (split; [congruence|]);
      (split; [congruence|]); (split; [congruence|]).
    - split; [congruence|]. rewrite A. exact HP.
    - split; [congruence|]. exists c. split; [congruence|exact HP].
  Qed.

  Lemma do_set_tops a s s' r : do_set a s = (s', r) -> tops s s' /\
    (forall f, path (top s) <> Some f -> alookup f (files s') = alookup f (files s)).
  Proof.
    unfold Config.do_set. destruct (set_vals a (vals (top s))) as [v rv] eqn:EV.
    set (c := mkConf v (path (top s))).
    assert (HW : tops s (with_top s c)).
    { eapply (same_tops s c); [reflexivity|apply same_refl]. }
    destruct (with_top_fields s c) as (F1 & F2 & F3 & F4 & F5 & F6).
    destruct rv as [n|e|]; intros H; [|inversion H; subst; rewrite F3; auto|inversion H; subst; rewrite F3; auto].
    apply changed_same in H. destruct H as [A B]. split; [eapply (same_tops s c); [reflexivity|exact A]|].
    intros f Hf. rewrite B, F3, with_top_top. destruct (_ && _); [|reflexivity].
    unfold Config.save_to. cbn. destruct (path (top s)) as [p|] eqn:EP; [|reflexivity].
    destruct (writable p); [|reflexivity]. apply alookup_aset_neq. congruence.
  Qed.

  Lemma do_reset_tops n s s' r : do_reset n s = (s', r) -> tops s s' /\
    (forall f, path (top s) <> Some f -> alookup f (files s') = alookup f (files s)).
  Proof.
    assert (HG : forall v, changed 1 (with_top s (mkConf v (path (top s)))) = (s', r) -> tops s s' /\
      (forall f, path (top s) <> Some f -> alookup f (files s') = alookup f (files s))).
    { intros v H. set (c := mkConf v (path (top s))) in *.
      destruct (with_top_fields s c) as (F1 & F2 & F3 & F4 & F5 & F6).
      apply changed_same in H. destruct H as [A B]. split; [eapply (same_tops s c); [reflexivity|exact A]|].
      intros f Hf. rewrite B, F3, with_top_top. destruct (_ && _); [|reflexivity].
      unfold Config.save_to. cbn. destruct (path (top s)) as [p|] eqn:EP; [|reflexivity].
      destruct (writable p); [|reflexivity]. apply alookup_aset_neq. congruence. }
    unfold Config.do_reset. destruct n as [n|]; [|apply HG].
    destruct (alookup n _) as [d|]; [apply HG|]. intros H. inversion H; subst. split; [|reflexivity].
    unfold tops. destruct (stack s') as [|t rest] eqn:ES; repeat (split; [reflexivity|]); [reflexivity|].
    exists t. auto.
  Qed.

  (** The program writes to no file [f] explicitly. *)
  Fixpoint avoids (f : string) (c : cmd) : Prop :=
    match c with
    | CSeq a b => avoids f a /\ avoids f b
    | CTemp p _ body => p <> Some f /\ avoids f body
    | CSaveAs p => p <> f
    | CTry c => avoids f c
    | _ => True
    end.

  Lemma make_temp_same p a s s' r : make_temp p a s = (s', r) -> same s s' /\
    (forall f, p <> Some f -> alookup f (files s') = alookup f (files s)) /\
    (forall c, r = Ok c -> path c = p) /\ (is_ok r = false -> s' = s) /\ seen s' = seen s /\ ostate s' = ostate s.
  Proof.
    unfold Config.make_temp. destruct a as [a|].
    - destruct (set_vals a _) as [v [n|e|]] eqn:EV; intros H; inversion H; subst.
      + split; [destruct (autosave s); repeat split|]. split; [|split; [intros c E; inversion E; reflexivity|]].
        * intros f Hf. destruct (autosave s); [|reflexivity]. cbn. unfold Config.save_to.
          destruct p as [p|]; [|reflexivity]. destruct (writable p); [|reflexivity].
          apply alookup_aset_neq. congruence.
        * split; [discriminate|]. destruct (autosave s); split; reflexivity.
      + split; [apply same_refl|]. repeat split; try reflexivity; discriminate.
      + split; [apply same_refl|]. repeat split; try reflexivity; discriminate.
    - intros H; inversion H; subst. split; [apply same_refl|]. repeat split; try reflexivity.
      intros c E; inversion E; reflexivity.
  Qed.

  Lemma enter_same (c : conf) s s' r : enter c s = (s', r) ->
    base s' = base s /\ stack s' = c :: stack s /\ callbacks s' = callbacks s /\ autosave s' = autosave s /\
    environ s' = environ s /\ files s' = files s /\
    failed s' = (failed s + if is_ok r then 0 else 1)%nat.
  Proof.
    clear writable version. unfold Config.enter. destruct (notify _) as [s1 r1] eqn:E. apply notify_same in E.
    destruct E as ((A & B & C & D & E & F) & G). cbn in *.
    destruct r1 as [[]|e|]; intros H; inversion H; subst; cbn; repeat split; auto; lia.
  Qed.

  Lemma leave_same r s s' r' : leave r s = (s', r') ->
    base s' = base s /\ stack s' = tl (stack s) /\ callbacks s' = callbacks s /\ autosave s' = autosave s /\
    environ s' = environ s /\ files s' = files s /\ failed s' = failed s.
  Proof.
    clear writable version. unfold Config.leave. destruct (notify _) as [s1 r1] eqn:E. apply notify_same in E.
    destruct E as ((A & B & C & D & E & F) & G). cbn in *.
    destruct r1 as [[]|e|]; intros H; inversion H; subst; auto 10.
  Qed.

  (** What any program does to the stack: the configuration it started on keeps its place,
      below one leaked configuration per failed entry. *)
  Lemma exec_stack c : forall s s' r, exec c s = (s', r) ->
    (failed s <= failed s')%nat /\
    match stack s with
    | [] => exists ls, stack s' = ls /\ List.length ls = (failed s' - failed s)%nat /\ path (base s') = path (base s)
    | t :: rest =>
        base s' = base s /\
        exists ls t', stack s' = ls ++ t' :: rest /\ path t' = path t /\
          List.length ls = (failed s' - failed s)%nat
    end.
  Proof.
    assert (HT : forall s s', tops s s' -> (failed s <= failed s')%nat /\
      match stack s with
      | [] => exists ls, stack s' = ls /\ List.length ls = (failed s' - failed s)%nat /\ path (base s') = path (base s)
      | t :: rest => base s' = base s /\ exists ls t', stack s' = ls ++ t' :: rest /\ path t' = path t /\
          List.length ls = (failed s' - failed s)%nat
      end).
    { intros s s' (A & _ & _ & _ & B). split; [lia|]. destruct (stack s) as [|t rest].
      - exists []. cbn. split; [apply B|]. split; [lia|apply B].
      - destruct B as (B & t' & C & D). split; [exact B|]. exists [], t'. split; [exact C|]. split; [exact D|]. cbn. lia. }
    assert (HTr : forall s, tops s s).
    { intros s. unfold tops. repeat (split; [reflexivity|]). destruct (stack s) as [|t rest]; [auto|].
      split; [reflexivity|]. exists t. auto. }
    induction c; intros s s' r H; cbn [Config.exec] in H.
    - inversion H; subst. apply HT, HTr.
    - destruct (exec c1 s) as [s1 r1] eqn:E1. pose proof (IHc1 _ _ _ E1) as [F1 P1].
      destruct r1 as [u|e|]; [|inversion H; subst; auto|inversion H; subst; auto].
      pose proof (IHc2 _ _ _ H) as [F2 P2]. split; [lia|].
      destruct (stack s) as [|t rest].
      + destruct P1 as (ls & A & B & C). rewrite A in P2. destruct ls as [|t ls].
        * destruct P2 as (ls & D & E & F). exists ls. cbn in B. split; [exact D|]. split; [lia|congruence].
        * destruct P2 as (Q & ls2 & t' & D & E & F). exists (ls2 ++ t' :: ls). split; [exact D|].
          rewrite app_length. cbn in *. split; [lia|congruence].
      + destruct P1 as (Q1 & ls & t' & A & B & C). rewrite A in P2. destruct ls as [|x ls].
        * cbn in P2, C. destruct P2 as (Q2 & ls2 & t2 & D & E & F). split; [congruence|].
          exists ls2, t2. split; [exact D|]. split; [congruence|]. lia.
        * cbn in P2, C. destruct P2 as (Q2 & ls2 & t2 & D & E & F). split; [congruence|].
          exists (ls2 ++ t2 :: ls), t'. split; [rewrite D, <- app_assoc; reflexivity|]. split; [exact B|].
          rewrite app_length. cbn. lia.
    - apply HT. eapply do_set_tops. exact H.
    - apply HT. eapply do_reset_tops. exact H.
    - destruct (make_temp p a s) as [s0 r0] eqn:E0.
      pose proof (make_temp_same _ _ _ _ _ E0) as ((A1 & A2 & A3 & A4 & A5 & A6) & _ & A7 & A8 & _).
      destruct r0 as [cf|e|]; [|inversion H; subst; rewrite (A8 eq_refl) in *; apply HT, HTr
                               |inversion H; subst; rewrite (A8 eq_refl) in *; apply HT, HTr].
      destruct (enter cf s0) as [s1 r1] eqn:E1.
      pose proof (enter_same _ _ _ _ E1) as (B1 & B2 & B3 & B4 & B5 & B6 & B7).
      destruct r1 as [u|e|].
      + destruct (exec c s1) as [s2 r2] eqn:E2. pose proof (IHc _ _ _ E2) as [F2 P2].
        pose proof (leave_same _ _ _ _ H) as (C1 & C2 & C3 & C4 & C5 & C6 & C7).
        rewrite B2 in P2. destruct P2 as (Q2 & ls & t' & D & E & F). cbn in B7.
        split; [lia|]. rewrite D in C2. rewrite A2 in C2.
        destruct (stack s) as [|t rest] eqn:ES.
        * exists (tl (ls ++ [t'])). split; [exact C2|]. split; [|congruence].
          destruct ls as [|x ls]; cbn in *; [lia|]. rewrite app_length. cbn. lia.
        * split; [congruence|]. destruct ls as [|x ls]; cbn in *.
          -- exists [], t. split; [exact C2|]. split; [reflexivity|]. cbn. lia.
          -- exists (ls ++ [t']), t. rewrite <- app_assoc. split; [exact C2|]. split; [reflexivity|].
             rewrite app_length. cbn. lia.
      + inversion H; subst. cbn in B7. split; [lia|]. rewrite A2 in B2. destruct (stack s) as [|t rest].
        * exists [cf]. split; [exact B2|]. split; [cbn; lia|congruence].
        * split; [congruence|]. exists [cf], t. split; [exact B2|]. split; [reflexivity|cbn; lia].
      + inversion H; subst. cbn in B7. split; [lia|]. rewrite A2 in B2. destruct (stack s) as [|t rest].
        * exists [cf]. split; [exact B2|]. split; [cbn; lia|congruence].
        * split; [congruence|]. exists [cf], t. split; [exact B2|]. split; [reflexivity|cbn; lia].
    - inversion H; subst. apply (HT s s). apply HTr.
    - inversion H; subst. apply (HT s s). apply HTr.
    - inversion H; subst. apply (HT s s). apply HTr.
    - inversion H; subst. apply (HT s s). apply HTr.
    - inversion H; subst. apply (HT s' s'). apply HTr.
    - destruct (f _ (ostate s)) as [o' rr]. inversion H; subst. apply (HT s s). apply HTr.
    - destruct (exec c s) as [s1 r1] eqn:E1. inversion H; subst. eapply IHc. exact E1.
  Qed.

  Lemma temp_restores p a body s s' r :
    exec (CTemp p a body) s = (s', r) -> failed s' = failed s ->
    base s' = base s /\ stack s' = stack s.
  Proof.
    intros H HF. cbn [Config.exec] in H.
    destruct (make_temp p a s) as [s0 r0] eqn:E0.
    pose proof (make_temp_same _ _ _ _ _ E0) as ((A1 & A2 & A3 & A4 & A5 & A6) & _ & A7 & A8 & _).
    destruct r0 as [cf|e|]; [|inversion H; subst; rewrite (A8 eq_refl); auto|inversion H; subst; rewrite (A8 eq_refl); auto].
    destruct (enter cf s0) as [s1 r1] eqn:E1.
    pose proof (enter_same _ _ _ _ E1) as (B1 & B2 & B3 & B4 & B5 & B6 & B7).
    destruct r1 as [u|e|]; [|inversion H; subst; cbn in B7; lia|inversion H; subst; cbn in B7; lia].
    destruct (exec body s1) as [s2 r2] eqn:E2.
    pose proof (exec_stack _ _ _ _ E2) as [F2 P2]. rewrite B2 in P2. destruct P2 as (Q2 & ls & t' & D & E & F).
    pose proof (leave_same _ _ _ _ H) as (C1 & C2 & C3 & C4 & C5 & C6 & C7). cbn in B7.
    destruct ls as [|x ls]; [|cbn in F; lia]. split; [congruence|]. rewrite C2, D. cbn. exact A2.
  Qed.

  (** If observers never raise, no entry fails. *)
  Lemma quiet_failed : (forall cb v o, snd (obs cb v o) = Ok tt) ->
    forall c s s' r, exec c s = (s', r) -> failed s' = failed s.
  Proof.
    intros HQ.
    assert (HN : forall cbs s, snd (notify_loop cbs s) = Ok tt).
    { induction cbs as [|cb cbs IH]; intros s; cbn [Config.notify_loop]; [reflexivity|].
      pose proof (HQ cb (get s) (ostate s)) as X. destruct (obs cb (get s) (ostate s)) as [o' res]. cbn in X. subst res. apply IH. }
    induction c; intros s s' r H; cbn [Config.exec] in H.
    - inversion H; reflexivity.
    - destruct (exec c1 s) as [s1 r1] eqn:E1. pose proof (IHc1 _ _ _ E1) as F1.
      destruct r1 as [u|e|]; [|inversion H; subst; auto|inversion H; subst; auto].
      pose proof (IHc2 _ _ _ H). congruence.
    - apply do_set_tops in H. apply H.
    - apply do_reset_tops in H. apply H.
    - destruct (make_temp p a s) as [s0 r0] eqn:E0.
      pose proof (make_temp_same _ _ _ _ _ E0) as ((A1 & A2 & A3 & A4 & A5 & A6) & _).
      destruct r0 as [cf|e|]; [|inversion H; subst; exact A6|inversion H; subst; exact A6].
      destruct (enter cf s0) as [s1 r1] eqn:E1.
      pose proof (enter_same _ _ _ _ E1) as (B1 & B2 & B3 & B4 & B5 & B6 & B7).
      unfold Config.enter in E1. pose proof (HN (callbacks (with_stack s0 (cf :: stack s0))) (with_stack s0 (cf :: stack s0))) as X.
      fold (notify (with_stack s0 (cf :: stack s0))) in X.
      destruct (notify (with_stack s0 (cf :: stack s0))) as [sx rx]. cbn in X. subst rx. inversion E1; subst.
      destruct (exec c s1) as [s2 r2] eqn:E2. pose proof (IHc _ _ _ E2) as F2.
      pose proof (leave_same _ _ _ _ H) as (C1 & C2 & C3 & C4 & C5 & C6 & C7). cbn in B7. lia.
    - inversion H; reflexivity.
    - inversion H; reflexivity.
    - inversion H; reflexivity.
    - inversion H; reflexivity.
    - inversion H; reflexivity.
    - destruct (f _ (ostate s)) as [o' rr]. inversion H; reflexivity.
    - destruct (exec c s) as [s1 r1] eqn:E1. inversion H; subst. eapply IHc. exact E1.
  Qed.

  (** Files: inside temporary configurations, a file no configuration of the stack points
      to is not written. *)
  Lemma exec_files f c : forall s s' r, exec c s = (s', r) -> avoids f c ->
    stack s <> [] -> Forall (fun t => path t <> Some f) (firstn 1 (stack s)) ->
    alookup f (files s') = alookup f (files s) /\
    forall n, List.length (stack s) = n ->
      Forall (fun t => path t <> Some f) (firstn (List.length (stack s') - n + 1) (stack s')) /\
      (n <= List.length (stack s'))%nat.
  Proof.
    assert (HT : forall s s', tops s s' -> stack s <> [] -> Forall (fun t => path t <> Some f) (firstn 1 (stack s)) ->
       forall n, List.length (stack s) = n ->
        Forall (fun t => path t <> Some f) (firstn (List.length (stack s') - n + 1) (stack s')) /\
        (n <= List.length (stack s'))%nat).
    { intros s s' (_ & _ & _ & _ & B) HN HF n Hn. destruct (stack s) as [|t rest]; [contradiction|].
      destruct B as (_ & t' & C & D). rewrite C. cbn [List.length] in *. subst n.
      replace (S (List.length rest) - S (List.length rest) + 1)%nat with 1%nat by lia. cbn in *.
      split; [|lia]. inversion HF; subst. constructor; [congruence|constructor]. }
    assert (HTr : forall s, tops s s).
    { intros s. unfold tops. repeat (split; [reflexivity|]). destruct (stack s) as [|t rest]; [auto|].
      split; [reflexivity|]. exists t. auto. }
    assert (HP : forall s, stack s <> [] -> Forall (fun t => path t <> Some f) (firstn 1 (stack s)) ->
       path (top s) <> Some f).
    { intros s HN HF. unfold top. destruct (stack s) as [|t rest]; [contradiction|]. cbn in HF. inversion HF. assumption. }
    induction c; intros s s' r H HA HN HF; cbn [Config.exec] in H; cbn in HA.
    - inversion H; subst. split; [reflexivity|]. apply (HT s'); auto.
    - destruct HA as [HA1 HA2]. destruct (exec c1 s) as [s1 r1] eqn:E1.
      destruct (IHc1 _ _ _ E1 HA1 HN HF) as [L1 M1].
      destruct r1 as [u|e|]; [|inversion H; subst; auto|inversion H; subst; auto].
      destruct (M1 _ eq_refl) as [M1a M1b].
      assert (HN1 : stack s1 <> []) by (destruct (stack s1); [cbn in M1b; destruct (stack s); [contradiction|cbn in M1b; lia]|discriminate]).
      assert (HF1 : Forall (fun t => path t <> Some f) (firstn 1 (stack s1))).
      { destruct (stack s1) as [|t rest]; [contradiction|]. rewrite Nat.add_1_r in M1a. cbn in *.
        inversion M1a. constructor; [assumption|constructor]. }
      destruct (IHc2 _ _ _ H HA2 HN1 HF1) as [L2 M2]. split; [congruence|].
      intros n Hn. subst n. destruct (M2 _ eq_refl) as [M2a M2b]. split; [|lia].
      (* the stack of s' is the one of s1 with something on top *)
      pose proof (exec_stack _ _ _ _ H) as [_ PS]. destruct (stack s1) as [|t rest] eqn:ES1; [contradiction|].
      destruct PS as (_ & ls & t' & PS1 & PS2 & _). rewrite PS1 in M2a |- *. rewrite app_length in *. cbn [List.length] in *.
      replace (List.length ls + S (List.length rest) - S (List.length rest) + 1)%nat with (List.length ls + 1)%nat in M2a by lia.
      rewrite firstn_app in M2a |- *.
      replace (List.length ls + 1 - List.length ls)%nat with 1%nat in M2a by lia.
      rewrite firstn_all2 in M2a by lia. rewrite firstn_all2 by lia.
      apply Forall_app in M2a. destruct M2a as [X Y]. apply Forall_app. split; [exact X|].
      replace (List.length ls + S (List.length rest) - List.length (stack s) + 1 - List.length ls)%nat
        with (S (S (List.length rest) - List.length (stack s)))%nat by lia.
      replace (S (List.length rest) - List.length (stack s) + 1)%nat
        with (S (S (List.length rest) - List.length (stack s)))%nat in M1a by lia.
      cbn [firstn] in M1a, Y |- *. inversion M1a; subst. inversion Y; subst. constructor; assumption.
    - destruct (do_set_tops _ _ _ _ H) as [T L]. split; [apply L; apply HP; assumption|]. apply (HT s); assumption.
    - destruct (do_reset_tops _ _ _ _ H) as [T L]. split; [apply L; apply HP; assumption|]. apply (HT s); assumption.
    - destruct HA as [HA1 HA2]. destruct (make_temp p a s) as [s0 r0] eqn:E0.
      pose proof (make_temp_same _ _ _ _ _ E0) as ((A1 & A2 & A3 & A4 & A5 & A6) & AF & A7 & A8 & _).
      destruct r0 as [cf|e|]; [|inversion H; subst; rewrite (A8 eq_refl) in *; split; [reflexivity|]; apply (HT s); auto
                               |inversion H; subst; rewrite (A8 eq_refl) in *; split; [reflexivity|]; apply (HT s); auto].
      destruct (enter cf s0) as [s1 r1] eqn:E1.
      pose proof (enter_same _ _ _ _ E1) as (B1 & B2 & B3 & B4 & B5 & B6 & B7).
      assert (L1 : alookup f (files s1) = alookup f (files s)) by (rewrite B6; apply AF; exact HA1).
      assert (HN1 : stack s1 <> []) by (rewrite B2; discriminate).
      assert (HF1 : Forall (fun t => path t <> Some f) (firstn 1 (stack s1))).
      { rewrite B2. cbn. constructor; [rewrite (A7 _ eq_refl); exact HA1|constructor]. }
      rewrite A2 in B2.
      assert (HX : forall n, List.length (stack s) = n ->
          Forall (fun t => path t <> Some f) (firstn (List.length (stack s1) - n + 1) (stack s1)) /\
          (n <= List.length (stack s1))%nat).
      { intros n Hn. rewrite B2 in HF1 |- *. cbn [List.length]. subst n. split; [|lia].
        replace (S (List.length (stack s)) - List.length (stack s) + 1)%nat with 2%nat by lia.
        destruct (stack s) as [|t rest]; [contradiction|]. cbn in HF, HF1 |- *. inversion HF; subst. inversion HF1; subst.
        repeat constructor; assumption. }
      destruct r1 as [u|e|]; [|inversion H; subst; auto|inversion H; subst; auto].
      destruct (exec c s1) as [s2 r2] eqn:E2.
      destruct (IHc _ _ _ E2 HA2 HN1 HF1) as [L2 M2]. destruct (M2 _ eq_refl) as [M2a M2b].
      pose proof (leave_same _ _ _ _ H) as (C1 & C2 & C3 & C4 & C5 & C6 & C7).
      split; [rewrite C6; congruence|].
      intros n Hn. rewrite B2 in M2a, M2b. cbn [List.length] in M2a, M2b. rewrite Hn in *.
      pose proof (exec_stack _ _ _ _ E2) as [_ PS]. rewrite B2 in PS.
      destruct PS as (_ & ls & t' & PS1 & PS2 & _). rewrite PS1 in *. rewrite C2.
      destruct (stack s) as [|t rest] eqn:ES; [contradiction|]. cbn in HF. inversion HF as [|? ? HFt _]; subst.
      rewrite app_length in *. cbn [List.length] in *.
      destruct ls as [|x ls]; cbn [app tl List.length] in *.
      + split; [|lia]. replace (S (List.length rest) - S (List.length rest) + 1)%nat with 1%nat by lia.
        cbn. constructor; [assumption|constructor].
      + rewrite app_length. cbn [List.length]. split; [|lia].
        replace (S (List.length ls) + S (S (List.length rest)) - S (S (List.length rest)) + 1)%nat with (S (List.length ls + 1)) in M2a by lia.
        cbn [firstn] in M2a. inversion M2a as [|? ? _ M2c]; subst.
        replace (List.length ls + S (S (List.length rest)) - S (List.length rest) + 1)%nat with (List.length ls + 2)%nat by lia.
        rewrite firstn_app in M2c |- *.
        replace (List.length ls + 1 - List.length ls)%nat with 1%nat in M2c by lia.
        replace (List.length ls + 2 - List.length ls)%nat with 2%nat by lia.
        rewrite firstn_all2 in M2c by lia. rewrite firstn_all2 by lia.
        apply Forall_app in M2c. destruct M2c as [X Y]. apply Forall_app. split; [exact X|]. cbn in *.
        inversion Y; subst. repeat constructor; assumption.
    - inversion H; subst. split; [reflexivity|]. apply (HT s s); auto.
    - inversion H; subst. split; [reflexivity|]. apply (HT s s); auto.
    - inversion H; subst. split; [|apply (HT s s); auto]. cbn. unfold Config.save_to.
      destruct (writable p); [|reflexivity]. apply alookup_aset_neq. congruence.
    - inversion H; subst. split; [reflexivity|]. apply (HT s s); auto.
    - inversion H; subst. split; [reflexivity|]. apply (HT s' s'); auto.
    - destruct (f0 _ (ostate s)) as [o' rr]. inversion H; subst. split; [reflexivity|]. apply (HT s s); auto.
    - destruct (exec c s) as [s1 r1] eqn:E1. inversion H; subst. eapply IHc; eassumption.
  Qed.

  Lemma temp_files f p a body s s' r :
    exec (CTemp p a body) s = (s', r) -> avoids f (CTemp p a body) ->
    alookup f (files s') = alookup f (files s).
  Proof.
    intros H [HA1 HA2]. cbn [Config.exec] in H.
    destruct (make_temp p a s) as [s0 r0] eqn:E0.
    pose proof (make_temp_same _ _ _ _ _ E0) as ((A1 & A2 & A3 & A4 & A5 & A6) & AF & A7 & A8 & _).
    destruct r0 as [cf|e|]; [|inversion H; subst; rewrite (A8 eq_refl); auto|inversion H; subst; rewrite (A8 eq_refl); auto].
    destruct (enter cf s0) as [s1 r1] eqn:E1.
    pose proof (enter_same _ _ _ _ E1) as (B1 & B2 & B3 & B4 & B5 & B6 & B7).
    assert (L1 : alookup f (files s1) = alookup f (files s)) by (rewrite B6; apply AF; exact HA1).
    destruct r1 as [u|e|]; [|inversion H; subst; auto|inversion H; subst; auto].
    destruct (exec body s1) as [s2 r2] eqn:E2.
    destruct (exec_files f _ _ _ _ E2 HA2) as [L2 _].
    - rewrite B2. discriminate.
    - rewrite B2. cbn. constructor; [rewrite (A7 _ eq_refl); exact HA1|constructor].
    - pose proof (leave_same _ _ _ _ H) as (C1 & C2 & C3 & C4 & C5 & C6 & C7). congruence.
  Qed.
End ConfigProofs.
