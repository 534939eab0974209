(** Lemmas about threads that use one configuration. *)
From Verif Require Import PyBase ListLemmas PyStr Config ConfigConc.
Local Open Scope string_scope.
Local Open Scope list_scope.

Lemma put_len {T} k (x : T) l : List.length (put k x l) = List.length l.
Proof. revert k. induction l as [|y l IH]; intros [|k]; cbn; auto. Qed.
Lemma put_at {T} k (x d : T) l : (k < List.length l)%nat -> nth k (put k x l) d = x.
Proof. revert k. induction l as [|y l IH]; intros [|k] H; cbn in *; try lia; auto. apply IH. lia. Qed.
Lemma put_away {T} k j (x d : T) l : j <> k -> nth j (put k x l) d = nth j l d.
Proof. revert k j. induction l as [|y l IH]; intros [|k] [|j] H; cbn; auto; try contradiction. Qed.
Lemma put_split {T} l1 (x y : T) l2 : put (List.length l1) y (l1 ++ x :: l2) = l1 ++ y :: l2.
Proof. induction l1 as [|z l1 IH]; cbn; [reflexivity|]. rewrite IH. reflexivity. Qed.
Lemma nth_split_at {T} n (l : list T) x : nth_error l n = Some x -> exists l1 l2, l = l1 ++ x :: l2 /\ List.length l1 = n.
Proof. intros H. apply nth_error_split in H. destruct H as (l1 & l2 & -> & L). eauto. Qed.

Section Threads.
  Variable Obj : Type.
  Variable obj_str : Obj -> string.
  Variable obj_bool : Obj -> bool.
  Variable home : string.
  Variable writable : string -> bool.
  Variable version : string.
  Variable env : list (string * string).
  Set Default Proof Using "Obj obj_str obj_bool home writable version env".
  Notation value := (value Obj).
  Notation conf := (conf Obj).
  Notation instr := (instr Obj).
  Notation thread := (thread Obj).
  Notation shared := (shared Obj).
  Notation state := (state Obj).
  Notation change := (change Obj obj_str obj_bool home writable version).
  Notation make := (make Obj obj_str obj_bool home writable version).
  Notation move := (move Obj obj_str obj_bool home writable version env).
  Notation step := (step Obj obj_str obj_bool home writable version env).
  Notation run := (run Obj obj_str obj_bool home writable version env).
  Implicit Types (s : shared) (t : thread) (g : state) (i : instr).

  Lemma run_ind (P : state -> Prop) g l : P g -> (forall g n, P g -> P (step g n)) -> P (run g l).
  Proof. intros P0 PS. unfold ConfigConc.run. revert g P0. induction l as [|n l IH]; intros g P0; [exact P0|]. cbn. apply IH, PS, P0. Qed.
  Lemma step_at g l1 t l2 : threads g = l1 ++ t :: l2 -> step g (List.length l1) = mkState (fst (move (sh g) t)) (l1 ++ snd (move (sh g) t) :: l2).
  Proof.
    intros E. unfold ConfigConc.step. rewrite E. rewrite nth_error_app2 by lia. rewrite Nat.sub_diag. cbn [nth_error]. destruct (move (sh g) t) as [s t']. cbn. rewrite put_split. reflexivity.
  Qed.
  Lemma step_ind g n (Q : state -> Prop) : Q g -> (forall l1 t l2, threads g = l1 ++ t :: l2 -> n = List.length l1 -> Q (mkState (fst (move (sh g) t)) (l1 ++ snd (move (sh g) t) :: l2))) -> Q (step g n).
  Proof.
    intros Q0 QS. destruct (nth_error (threads g) n) as [t|] eqn:E; [|unfold ConfigConc.step; rewrite E; exact Q0].
    apply nth_split_at in E. destruct E as (l1 & l2 & E & <-). rewrite (step_at g l1 t l2 E). exact (QS l1 t l2 E eq_refl).
  Qed.

  (** ** How deep the stack is *)
  Fixpoint opened (l : list (task Obj)) : nat := match l with [] => 0 | Leave :: l => S (opened l) | Do _ :: l => opened l end.
  Definition inside t : nat := opened (tasks t).
  Fixpoint total (l : list thread) : nat := match l with [] => 0 | t :: l => inside t + total l end.
  Lemma total_app l1 l2 : total (l1 ++ l2) = (total l1 + total l2)%nat.
  Proof. induction l1 as [|t l1 IH]; cbn; [reflexivity|]. rewrite IH. apply Nat.add_assoc. Qed.
  Lemma opened_app l1 l2 : opened (l1 ++ l2) = (opened l1 + opened l2)%nat.
  Proof. induction l1 as [|[i|] l1 IH]; cbn; auto. Qed.
  Lemma opened_do p : opened (map Do p) = 0%nat.
  Proof. induction p; cbn; auto. Qed.
  (** Objects named somewhere exist; those on the stack, or about to be put there, are not CONFIG. *)
  Definition known s (k : nat) : Prop := (k < List.length (objs s))%nat.
  Definition pc_ok s t : Prop := match at_ t with Ready => True | Bound _ k => known s k | Made k _ => k <> 0%nat /\ known s k end.
  Definition inv g : Prop :=
    List.length (stack (sh g)) = total (threads g) /\ objs (sh g) <> [] /\
    Forall (fun k => k <> 0%nat /\ known (sh g) k) (stack (sh g)) /\ Forall (pc_ok (sh g)) (threads g).
  Lemma change_shape i k s : List.length (objs (fst (change i k s))) = List.length (objs s) /\ stack (fst (change i k s)) = stack s.
  Proof. unfold ConfigConc.change. destruct (new_vals _ _ _ _ _ _) as [v r]. cbn. rewrite put_len. auto. Qed.
  Lemma make_shape p a k s : stack (fst (make p a k s)) = stack s /\
    match snd (make p a k s) with Ok n => n = List.length (objs s) /\ exists o, objs (fst (make p a k s)) = objs s ++ [o] /\ path o = p | _ => fst (make p a k s) = s end.
  Proof.
    unfold ConfigConc.make. destruct a as [a|]; [destruct (set_vals Obj obj_str obj_bool home a _) as [v [r|e|]]|]; cbn; auto; (split; [reflexivity|]; split; [reflexivity|]; eexists; split; reflexivity).
  Qed.
  Lemma top_known s : objs s <> [] -> Forall (fun k => k <> 0%nat /\ known s k) (stack s) -> known s (top s).
  Proof. intros N F. unfold top, known. destruct (stack s) as [|k l]; [destruct (objs s); [contradiction|cbn; lia]|]. inversion F as [|? ? [_ H] _]; subst. exact H. Qed.
  Lemma move_shape s t : objs s <> [] -> Forall (fun k => k <> 0%nat /\ known s k) (stack s) -> pc_ok s t -> (inside t <= List.length (stack s))%nat ->
    let s' := fst (move s t) in let t' := snd (move s t) in
    (List.length (stack s') + inside t = List.length (stack s) + inside t')%nat /\ (List.length (objs s) <= List.length (objs s'))%nat /\
    Forall (fun k => k <> 0%nat /\ known s' k) (stack s') /\ pc_ok s' t'.
  Proof.
    intros N F P D. cbn zeta. unfold ConfigConc.move, pc_ok, inside in *. destruct (at_ t) as [|i k|k body] eqn:AT.
    - destruct (tasks t) as [|[i|] l] eqn:TS; cbn [fst snd tasks at_].
      + rewrite TS, AT. auto.
      + repeat split; auto. exact (top_known s N F).
      + cbn [opened] in D. cbn [stack objs]. destruct (stack s) as [|k q]; [cbn in D; lia|]. cbn [tl List.length]. cbn [opened]. split; [lia|]. split; [lia|]. split; [|exact I]. inversion F; subst. assumption.
    - assert (CH : forall j, (List.length (stack (fst (change j k s))) + opened (tasks t) = List.length (stack s) + opened (tasks t))%nat /\ (List.length (objs s) <= List.length (objs (fst (change j k s))))%nat /\
                Forall (fun k0 => k0 <> 0%nat /\ known (fst (change j k s)) k0) (stack (fst (change j k s))) /\ True).
      { intros j. destruct (change_shape j k s) as [E1 E2]. rewrite E2. split; [reflexivity|]. split; [lia|]. split; [|exact I]. unfold known. rewrite E1. exact F. }
      destruct i as [a|n|n|p a body].
      + specialize (CH (ISet a)). destruct (change (ISet a) k s) as [s' r]. exact CH.
      + specialize (CH (IReset n)). destruct (change (IReset n) k s) as [s' r]. exact CH.
      + cbn. auto.
      + destruct (make_shape p a k s) as [E1 E2]. destruct (make p a k s) as [s' [n|e|]]; cbn [fst snd tasks at_] in *.
        * destruct E2 as (-> & o & E2 & _). rewrite E1. split; [reflexivity|]. rewrite E2, app_length. split; [lia|]. unfold known. rewrite E2, app_length. cbn.
          split; [rewrite Forall_forall in *; intros x I; destruct (F x I) as [? H]; split; [assumption|unfold known in H; lia]|]. split; [|lia]. destruct (objs s); [contradiction|cbn; lia].
        * subst s'. auto.
        * subst s'. auto.
    - cbn [fst snd tasks at_ stack objs]. rewrite opened_app, opened_do. cbn [opened List.length]. split; [lia|]. split; [lia|]. split; [|exact I]. constructor; [exact P|exact F].
  Qed.
  Lemma grown s s' t : (List.length (objs s) <= List.length (objs s'))%nat -> pc_ok s t -> pc_ok s' t.
  Proof. unfold pc_ok, known. intros L. destruct (at_ t); auto; [lia|]. intros [? ?]. split; [assumption|lia]. Qed.
  Lemma step_inv g n : inv g -> inv (step g n).
  Proof.
    intros I0. apply step_ind; [exact I0|]. intros l1 t l2 E _. destruct I0 as (L & N & F & P). rewrite E in L, P. rewrite total_app in L. cbn [total] in L.
    apply Forall_app in P. destruct P as [P1 P2]. inversion P2 as [|? ? P3 P4]; subst.
    destruct (move_shape (sh g) t N F P3 ltac:(lia)) as (M1 & M2 & M3 & M4). unfold inv. cbn [sh threads]. rewrite total_app. cbn [total].
    split; [lia|]. split; [intros X; rewrite X in M2; cbn in M2; destruct (objs (sh g)); [contradiction|cbn in M2; lia]|]. split; [exact M3|]. apply Forall_app. split; [|constructor; [exact M4|]].
    - eapply Forall_impl; [|exact P1]. intros a. apply grown, M2.
    - eapply Forall_impl; [|exact P4]. intros a. apply grown, M2.
  Qed.
  Lemma start_inv c f progs : inv (start c f progs).
  Proof.
    split; [|split; [discriminate|split; [constructor|]]].
    - cbn. induction progs as [|p l IH]; [reflexivity|]. cbn. unfold inside. cbn. rewrite opened_do. exact IH.
    - cbn. apply Forall_forall. intros t J. apply in_map_iff in J. destruct J as (p & <- & _). exact I.
  Qed.
  Lemma run_inv c f progs l : inv (run (start c f progs) l).
  Proof. apply run_ind; [apply start_inv|intros; apply step_inv; assumption]. Qed.

  (** ** CONFIG itself is left alone *)
  Definition changes i : bool := match i with ISet _ | IReset _ => true | _ => false end.
  (** Every statement that changes something is inside a block. *)
  Fixpoint guarded (l : list (task Obj)) : Prop :=
    match l with [] => True | Do i :: l => (changes i = true -> opened l <> 0%nat) /\ guarded l | Leave :: l => guarded l end.
  Variable b : string.
  Fixpoint elsewhere i : Prop :=
    match i with
    | IWith p _ body => p <> Some b /\ (fix all l := match l with [] => True | x :: r => elsewhere x /\ all r end) body
    | _ => True
    end.
  Definition away (x : task Obj) : Prop := match x with Do i => elsewhere i | Leave => True end.
  Lemma elsewhere_body p a body : elsewhere (IWith p a body) -> p <> Some b /\ Forall elsewhere body.
  Proof. cbn. intros [H B]. split; [exact H|]. induction body as [|x r IH]; constructor; destruct B; auto. Qed.
  Definition kept (c : conf) f g : Prop :=
    object 0 (sh g) = c /\ alookup b (files (sh g)) = alookup b f /\ (forall k, k <> 0%nat -> path (object k (sh g)) <> Some b) /\
    Forall (fun t => guarded (tasks t) /\ Forall away (tasks t) /\
                     match at_ t with Ready => True | Bound i k => elsewhere i /\ (changes i = true -> k <> 0%nat) | Made _ body => Forall elsewhere body end) (threads g).
  Lemma guarded_app p l : guarded l -> opened l <> 0%nat -> guarded (map Do p ++ l).
  Proof. intros G O. induction p as [|i p IH]; [exact G|]. cbn. split; [intros _; rewrite opened_app, opened_do; exact O|exact IH]. Qed.
  Lemma save_kept p (v : list (string * value)) (ff : list (string * list (string * value))) : p <> Some b -> alookup b (save_to Obj home writable version p v ff) = alookup b ff.
  Proof. intros N. unfold save_to. destruct p as [p|]; [|reflexivity]. destruct (writable p); [|reflexivity]. apply alookup_aset_neq. intros ->. apply N. reflexivity. Qed.
  Lemma step_kept c f g n : inv g -> kept c f g -> kept c f (step g n).
  Proof.
    intros IV K. apply step_ind; [exact K|]. intros l1 t l2 E _. destruct K as (K1 & K2 & K3 & K4). destruct IV as (L & N & F & P). rewrite E in K4, L, P. rewrite total_app in L. cbn [total] in L. unfold inside in L.
    apply Forall_app in K4. destruct K4 as [T1 T2]. inversion T2 as [|? ? (G & A & B) T3]; subst. apply Forall_app in P. destruct P as [_ P]. inversion P as [|? ? PT _]; subst. clear T2 P.
    assert (DONE : forall s' t', object 0 s' = object 0 (sh g) -> alookup b (files s') = alookup b f -> (forall k, k <> 0%nat -> path (object k s') <> Some b) ->
              (guarded (tasks t') /\ Forall away (tasks t') /\ match at_ t' with Ready => True | Bound i k => elsewhere i /\ (changes i = true -> k <> 0%nat) | Made _ body => Forall elsewhere body end) ->
              kept (object 0 (sh g)) f (mkState s' (l1 ++ t' :: l2))).
    { intros s' t' H1 H2 H3 H4. unfold kept. cbn [sh threads]. split; [exact H1|]. split; [exact H2|]. split; [exact H3|]. apply Forall_app. split; [exact T1|]. constructor; [exact H4|exact T3]. }
    unfold ConfigConc.move, pc_ok in *. destruct (at_ t) as [|i k|k body] eqn:AT.
    - destruct (tasks t) as [|[i|] l] eqn:TS; cbn [fst snd].
      + apply DONE; auto. rewrite TS, AT. auto.
      + cbn in G. destruct G as [G1 G2]. inversion A as [|? ? A1 A2]; subst. apply DONE; auto. cbn [tasks at_]. split; [exact G2|]. split; [exact A2|]. split; [exact A1|]. intros C. specialize (G1 C).
        unfold top. destruct (stack (sh g)) as [|k q]; [cbn [List.length opened] in L; lia|]. inversion F as [|? ? [H _] _]; subst. exact H.
      + inversion A; subst. apply DONE; cbn [files]; auto.
    - assert (CH : forall j, changes j = true -> (changes j = true -> k <> 0%nat) -> forall e, kept (object 0 (sh g)) f (mkState (fst (change j k (sh g))) (l1 ++ mkThread (tasks t) Ready (read t) e :: l2))).
      { intros j C NK e. specialize (NK C). unfold ConfigConc.change. destruct (new_vals Obj obj_str obj_bool home j (vals (object k (sh g)))) as [v r] eqn:NV. cbn [fst].
        apply DONE; cbn [files tasks at_].
        - unfold object. cbn [objs]. apply put_away. auto.
        - destruct r; auto. rewrite save_kept by (apply K3, NK). exact K2.
        - intros m NM. unfold object. cbn [objs]. destruct (Nat.eq_dec m k) as [->|D]; [rewrite put_at by exact PT; cbn; apply (K3 k NK)|rewrite put_away by exact D; apply (K3 m NM)].
        - auto. }
      destruct i as [a|rn|gn|p a body].
      + specialize (CH (ISet a) eq_refl (proj2 B)). destruct (change (ISet a) k (sh g)) as [s' r]. apply CH.
      + specialize (CH (IReset rn) eq_refl (proj2 B)). destruct (change (IReset rn) k (sh g)) as [s' r]. apply CH.
      + cbn [fst snd]. apply DONE; [reflexivity|exact K2|exact K3|exact (conj G (conj A I))].
      + destruct (elsewhere_body p a body (proj1 B)) as [NB FB]. unfold ConfigConc.make.
        assert (OB : forall v m ff st, m <> 0%nat -> path (object m (mkShared (objs (sh g) ++ [mkConf v p]) st ff)) <> Some b).
        { intros v m ff st NM. unfold object. cbn [objs]. destruct (Nat.lt_trichotomy m (List.length (objs (sh g)))) as [H|[H|H]].
          - rewrite app_nth1 by exact H. apply (K3 m NM).
          - rewrite app_nth2 by lia. rewrite H, Nat.sub_diag. exact NB.
          - rewrite nth_overflow by (rewrite app_length; cbn; lia). discriminate. }
        assert (O0 : forall v ff st, object 0 (mkShared (objs (sh g) ++ [mkConf v p]) st ff) = object 0 (sh g)).
        { intros v ff st. unfold object. cbn [objs]. rewrite app_nth1; [reflexivity|]. destruct (objs (sh g)); [contradiction|cbn; lia]. }
        destruct a as [a|]; [destruct (set_vals Obj obj_str obj_bool home a _) as [v [r|e|]]|]; cbn [fst snd]; apply DONE; cbn [files tasks at_]; auto. rewrite save_kept by exact NB. exact K2.
    - cbn [fst snd]. apply DONE; cbn [files tasks at_]; auto. split; [apply guarded_app; [exact G|discriminate]|]. split; [|exact I]. apply Forall_app. split; [|constructor; [exact I|exact A]].
      apply Forall_forall. intros x J. apply in_map_iff in J. destruct J as (i & <- & J). rewrite Forall_forall in B. exact (B i J).
  Qed.
  Lemma run_kept c f progs l : path c = Some b -> Forall (Forall (fun i => changes i = false /\ elsewhere i)) progs -> inv (run (start c f progs) l) /\ kept c f (run (start c f progs) l).
  Proof.
    intros PC FP. apply (run_ind (fun g => inv g /\ kept c f g)).
    - split; [apply start_inv|]. split; [reflexivity|]. split; [reflexivity|]. split.
      + intros [|[|k]] NK; [contradiction NK; reflexivity|discriminate..].
      + cbn. apply Forall_forall. intros t J. apply in_map_iff in J. destruct J as (p & <- & J). rewrite Forall_forall in FP. specialize (FP p J). cbn [begin tasks at_]. split; [|split; [|exact I]].
        * clear J. induction FP as [|i p [H _] _ IH]; [exact I|]. cbn. split; [rewrite H; discriminate|exact IH].
        * apply Forall_forall. intros x Y. apply in_map_iff in Y. destruct Y as (i & <- & Y). rewrite Forall_forall in FP. exact (proj2 (FP i Y)).
    - intros g n [I0 K]. split; [apply step_inv, I0|apply step_kept; assumption].
  Qed.

  (** ** Beside threads that only read *)
  Definition reader t : Prop := Forall (fun x => match x with Do (IGet _) => True | _ => False end) (tasks t) /\ match at_ t with Ready => True | Bound (IGet _) _ => True | _ => False end.
  Lemma reader_move s t : reader t -> fst (move s t) = s /\ reader (snd (move s t)).
  Proof.
    intros [R P]. unfold ConfigConc.move, reader. destruct (at_ t) as [|[a|n|n|p a body] k|k body] eqn:AT; try contradiction.
    - destruct (tasks t) as [|[[a|n|n|p a body]|] l] eqn:TS; try (inversion R; contradiction); cbn; [rewrite TS, AT; auto|]. inversion R; subst. auto.
    - cbn. auto.
  Qed.
  Lemma lone (l : list nat) : forall s l1 t l2, Forall reader l1 -> Forall reader l2 ->
    exists l1' l2', run (mkState s (l1 ++ t :: l2)) l =
      mkState (sh (run (mkState s [t]) (repeat 0%nat (count_occ Nat.eq_dec l (List.length l1))))) (l1' ++ threads (run (mkState s [t]) (repeat 0%nat (count_occ Nat.eq_dec l (List.length l1)))) ++ l2') /\
      List.length l1' = List.length l1 /\ List.length (threads (run (mkState s [t]) (repeat 0%nat (count_occ Nat.eq_dec l (List.length l1))))) = 1%nat.
  Proof.
    induction l as [|n l IH]; intros s l1 t l2 R1 R2; [exists l1, l2; cbn; auto|].
    cbn [count_occ]. change (run (mkState s (l1 ++ t :: l2)) (n :: l)) with (run (step (mkState s (l1 ++ t :: l2)) n) l). destruct (Nat.eq_dec n (List.length l1)) as [->|NE].
    - rewrite (step_at (mkState s (l1 ++ t :: l2)) l1 t l2 eq_refl). cbn [sh]. cbn [repeat].
      change (run (mkState s [t]) (0%nat :: repeat 0%nat (count_occ Nat.eq_dec l (List.length l1)))) with (run (step (mkState s [t]) 0) (repeat 0%nat (count_occ Nat.eq_dec l (List.length l1)))).
      rewrite (step_at (mkState s [t]) [] t [] eq_refl : step (mkState s [t]) 0 = _). cbn [sh app]. apply IH; assumption.
    - destruct (nth_error (l1 ++ t :: l2) n) as [u|] eqn:NU.
      2:{ unfold ConfigConc.step. cbn [threads]. rewrite NU. apply IH; assumption. }
      destruct (Nat.lt_ge_cases n (List.length l1)) as [LT|GE].
      + rewrite nth_error_app1 in NU by exact LT. apply nth_split_at in NU. destruct NU as (a & c & -> & <-). apply Forall_app in R1. destruct R1 as [Ra Rc]. inversion Rc as [|? ? Ru Rc']; subst.
        destruct (reader_move s u Ru) as [E1 E2]. rewrite (step_at (mkState s ((a ++ u :: c) ++ t :: l2)) a u (c ++ t :: l2)) by (cbn; rewrite <- app_assoc; reflexivity). cbn [sh]. rewrite E1.
        destruct (IH s (a ++ snd (move s u) :: c) t l2) as (x1 & x2 & X1 & X2 & X3); [apply Forall_app; auto|exact R2|].
        replace (List.length (a ++ u :: c)) with (List.length (a ++ snd (move s u) :: c)) by (rewrite !app_length; reflexivity). exists x1, x2. rewrite <- X1. split; [|auto]. f_equal. f_equal. rewrite <- app_assoc. reflexivity.
      + rewrite nth_error_app2 in NU by exact GE. destruct (n - List.length l1)%nat as [|m] eqn:D; [lia|]. cbn in NU. apply nth_split_at in NU. destruct NU as (a & c & -> & LA). apply Forall_app in R2. destruct R2 as [Ra Rc]. inversion Rc as [|? ? Ru Rc']; subst.
        destruct (reader_move s u Ru) as [E1 E2]. replace n with (List.length (l1 ++ t :: a)) by (rewrite app_length; cbn; lia).
        rewrite (step_at (mkState s (l1 ++ t :: a ++ u :: c)) (l1 ++ t :: a) u c) by (cbn; rewrite <- app_assoc; reflexivity). cbn [sh]. rewrite E1.
        destruct (IH s l1 t (a ++ snd (move s u) :: c)) as (x1 & x2 & X1 & X2 & X3); [exact R1|apply Forall_app; auto|]. exists x1, x2. rewrite <- X1. split; [|auto]. f_equal. f_equal. rewrite <- app_assoc. reflexivity.
  Qed.
End Threads.
