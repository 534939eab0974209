(** C136: temporary settings and the threads that do not make them. *)
From Verif Require Import PyBase ListLemmas PyStr Config ConfigConc ConfigConcProofs ConfigConcProofs2.
Local Open Scope string_scope.
Local Open Scope list_scope.

Section C136.
  Variable Obj : Type.
  Variable obj_str : Obj -> string.
  Variable obj_bool : Obj -> bool.
  Variable home : string.
  Variable writable : string -> bool.
  Variable version : string.
  Variable env : list (string * string).
  Notation value := (value Obj).
  Notation conf := (conf Obj).
  Notation instr := (instr Obj).
  Notation log := (list (string * result value)).
  Set Default Proof Using "Obj obj_str obj_bool home writable version env".
  Notation move := (move Obj obj_str obj_bool home writable version env).
  Notation step := (step Obj obj_str obj_bool home writable version env).
  Notation run := (run Obj obj_str obj_bool home writable version env).
  Implicit Types (c : conf) (progs : list (list instr)).

  (** The blocks a thread is in: the ends of blocks it has still to reach. *)
  Definition blocks (t : thread Obj) : nat := count_occ Bool.bool_dec (map (fun x => match x with Leave => true | Do _ => false end) (tasks t)) true.
  Lemma blocks_inside t : blocks t = inside Obj t.
  Proof. unfold blocks, inside. induction (tasks t) as [|[i|] l IH]; cbn; [reflexivity|exact IH|rewrite IH; reflexivity]. Qed.
  Lemma blocks_total l : total Obj l = fold_right (fun t n => blocks t + n)%nat 0%nat l.
  Proof. induction l as [|t l IH]; cbn; [reflexivity|]. rewrite blocks_inside, IH. reflexivity. Qed.

  (** There are as many temporary configurations as open blocks, whoever opened them. *)
  Theorem C136_depth c f progs l :
    List.length (stack (sh (run (start c f progs) l))) = fold_right (fun t n => blocks t + n)%nat 0%nat (threads (run (start c f progs) l)).
  Proof. rewrite <- blocks_total. apply (run_inv Obj obj_str obj_bool home writable version env). Qed.
  (** So none is left when no thread is in a block, whatever was set, refused or raised. *)
  Theorem C136_none_left c f progs l : Forall (fun t => blocks t = 0%nat) (threads (run (start c f progs) l)) -> stack (sh (run (start c f progs) l)) = [].
  Proof.
    intros F. pose proof (C136_depth c f progs l) as D. assert (Z : fold_right (fun t n => blocks t + n)%nat 0%nat (threads (run (start c f progs) l)) = 0%nat).
    { clear D. revert F. generalize (threads (run (start c f progs) l)). intros ts F. induction F as [|t r H _ IH]; cbn; [reflexivity|]. rewrite H, IH. reflexivity. }
    rewrite Z in D. destruct (stack _); [reflexivity|discriminate D].
  Qed.
  Corollary C136_finished c f progs l : finished (run (start c f progs) l) -> stack (sh (run (start c f progs) l)) = [].
  Proof. intros F. apply C136_none_left. unfold finished in F. rewrite Forall_forall in *. intros t J. destruct (F t J) as [E _]. unfold blocks. rewrite E. reflexivity. Qed.

  (** Threads that change settings only inside blocks, none of which is given CONFIG's own file. *)
  Definition in_blocks (b : string) progs : Prop :=
    Forall (Forall (fun i => match i with ISet _ | IReset _ => False | IGet _ => True | IWith _ _ _ => elsewhere Obj b i end)) progs.
  Lemma in_blocks_kept b progs : in_blocks b progs -> Forall (Forall (fun i => changes Obj i = false /\ elsewhere Obj b i)) progs.
  Proof. apply Forall_impl. intros p. apply Forall_impl. intros [a|n|n|q a body] H; try contradiction; cbn; auto. Qed.

  (** CONFIG and its file are never changed by them, for all schedules. *)
  Theorem C136_base_kept b c f progs l : path c = Some b -> in_blocks b progs ->
    object 0 (sh (run (start c f progs) l)) = c /\ alookup b (files (sh (run (start c f progs) l))) = alookup b f.
  Proof. intros P B. destruct (run_kept Obj obj_str obj_bool home writable version env b c f progs l P (in_blocks_kept b progs B)) as [_ (H1 & H2 & _)]. auto. Qed.
  (** When no thread is in a block, a thread that reads an option gets CONFIG's value. *)
  Theorem C136_read_again b c f progs l n r q tr er : path c = Some b -> in_blocks b progs ->
    Forall (fun t => blocks t = 0%nat) (threads (run (start c f progs) l)) ->
    nth_error (threads (run (start c f progs) l)) q = Some (mkThread (Do (IGet n) :: r) Ready tr er) ->
    nth_error (threads (run (start c f progs) (l ++ [q; q]))) q = Some (mkThread r Ready (tr ++ [(n, get_in Obj obj_str home (vals c) env n)]) er).
  Proof.
    intros P B N Q. destruct (C136_base_kept b c f progs l P B) as [K _]. pose proof (C136_none_left c f progs l N) as S. unfold ConfigConc.run in *. rewrite fold_left_app. set (g := fold_left step l (start c f progs)) in *. cbn [fold_left].
    assert (PUT : forall (ts : list (thread Obj)) k x y, nth_error ts k = Some y -> nth_error (put k x ts) k = Some x) by (induction ts as [|z ts IH]; intros [|k] x y H; cbn in *; try discriminate; eauto).
    set (t1 := mkThread r (Bound (IGet n) 0) tr er).
    assert (E1 : step g q = mkState (sh g) (put q t1 (threads g))) by (unfold ConfigConc.step; rewrite Q; unfold ConfigConc.move, top; cbn; rewrite S; reflexivity).
    rewrite E1. unfold ConfigConc.step. cbn [threads sh]. rewrite (PUT _ _ _ _ Q). cbn [ConfigConc.move t1 at_]. cbn. rewrite K. eapply PUT, PUT, Q.
  Qed.

  (** A thread in a block never changes CONFIG, whatever the other threads do. *)
  Theorem C136_inside c f progs l q t i r : nth_error (threads (run (start c f progs) l)) q = Some t -> at_ t = Ready -> tasks t = Do i :: r -> blocks t <> 0%nat ->
    object 0 (sh (run (start c f progs) (l ++ [q; q]))) = object 0 (sh (run (start c f progs) l)).
  Proof.
    intros Q A T B. destruct (run_inv Obj obj_str obj_bool home writable version env c f progs l) as (D & N & F & _). unfold ConfigConc.run in *. rewrite fold_left_app. set (g := fold_left step l (start c f progs)) in *. cbn [fold_left].
    assert (PUT : forall (ts : list (thread Obj)) k x y, nth_error ts k = Some y -> nth_error (put k x ts) k = Some x) by (induction ts as [|z ts IH]; intros [|k] x y H; cbn in *; try discriminate; eauto).
    assert (K : top (sh g) <> 0%nat).
    { unfold top. destruct (stack (sh g)) as [|k st]; [|inversion F as [|? ? [H _] _]; exact H]. exfalso. apply B. rewrite blocks_inside. cbn in D. clear - D Q. revert q Q D. induction (threads g) as [|y ts IH]; intros [|q] Q D; cbn in *; try discriminate.
      - injection Q as ->. destruct (inside Obj t); [reflexivity|discriminate D].
      - apply (IH q Q). destruct (inside Obj y); [exact D|discriminate D]. }
    set (t1 := mkThread r (Bound i (top (sh g))) (read t) (errors t)).
    assert (E1 : step g q = mkState (sh g) (put q t1 (threads g))) by (unfold ConfigConc.step; rewrite Q; unfold ConfigConc.move; rewrite A, T; reflexivity).
    rewrite E1. unfold ConfigConc.step. cbn [threads sh]. rewrite (PUT _ _ _ _ Q).
    assert (OB : object 0 (fst (move (sh g) t1)) = object 0 (sh g)).
    { assert (CH : forall j, object 0 (fst (change Obj obj_str obj_bool home writable version j (top (sh g)) (sh g))) = object 0 (sh g)).
      { intros j. unfold change. destruct (new_vals _ _ _ _ _ _) as [v rr]. unfold object. cbn [fst objs]. apply put_away. auto. }
      unfold ConfigConc.move. cbn [t1 at_]. destruct i as [a|n|n|p a body].
      - specialize (CH (ISet a)). destruct (change _ _ _ _ _ _ _ _ _). exact CH.
      - specialize (CH (IReset n)). destruct (change _ _ _ _ _ _ _ _ _). exact CH.
      - reflexivity.
      - unfold make. assert (AP : forall o st ff, object 0 (mkShared (objs (sh g) ++ [o]) st ff) = object 0 (sh g)) by (intros; unfold object; cbn [objs]; destruct (objs (sh g)); [contradiction|reflexivity]).
        destruct a as [a|]; [|apply AP]. destruct (set_vals _ _ _ _ _ _) as [v [m|e|]]; [apply AP|reflexivity|reflexivity]. }
    destruct (move (sh g) t1) as [s' t']. exact OB.
  Qed.

  (** *** Beside threads that only read, a thread does what it would do alone *)
  Variable obs : nat -> (string -> result value) -> log -> log * result unit.
  Definition only_reads (p : list instr) : Prop := Forall (fun i => match i with IGet _ => True | _ => False end) p.
  Lemma only_reads_reader p : only_reads p -> reader Obj (begin p).
  Proof using Type. intros R. split; [|exact I]. cbn. induction R as [|i p H _ IH]; cbn; [constructor|]. constructor; [destruct i; auto|exact IH]. Qed.
  (** The state of Config.v in which the program of one thread starts. *)
  Definition alone c f : st Obj log := mkSt c [] [] true f env [] [] 0.
  Lemma stuck s t k : tasks t = [] -> at_ t = Ready -> run (mkState s [t]) (repeat 0%nat k) = mkState s [t].
  Proof.
    intros T A. induction k as [|k IH]; [reflexivity|]. cbn [repeat]. change (run (step (mkState s [t]) 0) (repeat 0%nat k) = mkState s [t]).
    assert (X : step (mkState s [t]) 0 = mkState s [t]) by (unfold ConfigConc.step; cbn; unfold ConfigConc.move; rewrite A, T; reflexivity). rewrite X. exact IH.
  Qed.
  Lemma same_end s t k1 k2 s1 t1 s2 t2 : run (mkState s [t]) (repeat 0%nat k1) = mkState s1 [t1] -> run (mkState s [t]) (repeat 0%nat k2) = mkState s2 [t2] ->
    tasks t1 = [] -> at_ t1 = Ready -> tasks t2 = [] -> at_ t2 = Ready -> s1 = s2 /\ t1 = t2.
  Proof.
    clear obs. intros E1 E2 T1 A1 T2 A2. assert (SP : forall a d, run (mkState s [t]) (repeat 0%nat (a + d)) = run (run (mkState s [t]) (repeat 0%nat a)) (repeat 0%nat d)) by (intros a d; rewrite repeat_app; apply fold_left_app).
    destruct (Nat.le_ge_cases k1 k2) as [H|H]; [pose proof (SP k1 (k2 - k1)%nat) as X|pose proof (SP k2 (k1 - k2)%nat) as X]; replace (_ + (_ - _))%nat with (Nat.max k1 k2) in X by lia;
      [rewrite Nat.max_r in X by exact H; rewrite E1, E2, stuck in X by assumption|rewrite Nat.max_l in X by exact H; rewrite E1, E2, stuck in X by assumption]; injection X as <- <-; auto.
  Qed.
  Theorem C136_beside_readers_partial c f before p after l t :
    Forall only_reads before -> Forall only_reads after ->
    nth_error (threads (run (start c f (before ++ p :: after)) l)) (List.length before) = Some t -> tasks t = [] -> at_ t = Ready ->
    let x := fst (exec Obj obj_str obj_bool home writable version log obs (as_cmds Obj p) (alone c f)) in
    read t = ostate x /\ object 0 (sh (run (start c f (before ++ p :: after)) l)) = base x /\ files (sh (run (start c f (before ++ p :: after)) l)) = Config.files x /\
    stack (sh (run (start c f (before ++ p :: after)) l)) = [] /\ Config.stack x = [] /\
    errors t = all_raised Obj obj_str obj_bool home writable version obs p (alone c f).
  Proof using Type.
    intros B A NT TT AT x. unfold start in *. rewrite map_app in *. cbn [map] in *. set (s0 := mkShared [c] [] f) in *.
    assert (RB : Forall (reader Obj) (map begin before)) by (apply Forall_map; revert B; apply Forall_impl; apply only_reads_reader).
    assert (RA : Forall (reader Obj) (map begin after)) by (apply Forall_map; revert A; apply Forall_impl; apply only_reads_reader).
    destruct (lone Obj obj_str obj_bool home writable version env l s0 (map begin before) (begin p) (map begin after) RB RA) as (l1 & l2 & E & L1 & L2).
    rewrite map_length in E, L1, L2. set (k := count_occ Nat.eq_dec l (List.length before)) in *. destruct (run (mkState s0 [begin p]) (repeat 0%nat k)) as [s1 ts] eqn:R. cbn [threads sh] in *. destruct ts as [|t1 [|? ?]]; try discriminate L2.
    rewrite E in *. cbn [threads sh] in *. rewrite nth_error_app2 in NT by (rewrite L1; exact (le_n _)). rewrite L1, Nat.sub_diag in NT. cbn in NT. injection NT as ->.
    assert (LK : like Obj env s0 (alone c f)) by (unfold like; cbn; repeat split; auto using NoDup_nil; discriminate).
    destruct (alone_does Obj obj_str obj_bool home writable version env obs (psize Obj p) p s0 (alone c f) (begin p) [] (le_n _) LK (eq_sym (app_nil_r _)) eq_refl eq_refl) as (s' & t' & (k' & R') & T' & A' & _ & (LB & LS & LF & _) & O' & K' & X').
    destruct (same_end _ _ _ _ _ _ _ _ R R' TT AT T' A') as [-> ->]. fold x in LB, LS, LF, O'. rewrite K' in LS |- *. cbn in LS, X' |- *. auto 10.
  Qed.
  (** *** Every thread ends *)
  (** A thread whose program has [n] statements (those in blocks counted) has done them all after [4 * n]
      steps of its own, whatever the others do and however they are interleaved. *)
  Fixpoint statements (i : instr) : nat := match i with IWith _ _ body => S (list_sum (map statements body)) | _ => 1 end.
  Lemma statements_size i : isize Obj i = statements i.
  Proof using Type.
    revert i. fix REC 1. intros [a|n|n|p a body]; try reflexivity. cbn. f_equal. induction body as [|y r IH]; [reflexivity|]. cbn. rewrite (REC y), IH. reflexivity.
  Qed.
  Theorem C136_ends c f progs l q p : nth_error progs q = Some p -> (4 * list_sum (map statements p) <= count_occ Nat.eq_dec l q)%nat ->
    exists t, nth_error (threads (run (start c f progs) l)) q = Some t /\ tasks t = [] /\ at_ t = Ready.
  Proof.
    clear obs. intros Q N. destruct (run_weight Obj obj_str obj_bool home writable version env (fun _ _ o => (o, Ok tt)) l (start c f progs) q (begin p)) as (t & T & W); [cbn; rewrite nth_error_map, Q; reflexivity|].
    exists t. split; [exact T|]. apply (weight_zero Obj obj_str obj_bool home writable version env (fun _ _ o => (o, Ok tt))). assert (E : weight Obj (begin p) = (4 * list_sum (map statements p))%nat).
    { unfold weight, begin. cbn [tasks at_ pc_weight]. rewrite <- (app_nil_r (map Do p)), (tasks_weight_do Obj obj_str obj_bool home writable version env (fun _ _ o => (o, Ok tt))). cbn [tasks_weight]. rewrite !Nat.add_0_r. assert (PS : psize Obj p = list_sum (map statements p)) by (clear; induction p as [|y r IH]; [reflexivity|]; cbn; rewrite statements_size, IH; reflexivity). rewrite PS. reflexivity. }
    rewrite E in W. clear - W N. lia.
  Qed.
End C136.
Set Default Proof Using "Type".

(** ** Refuted: a block is seen by, and can be disturbed by, other threads *)
Definition tstart := start (mkConf (defaults unit "/h") (Some "/c")) ([] : list (string * list (string * value unit))).
Definition trun := run unit (fun _ => "") (fun _ => false) "/h" (fun _ => true) "1" ([] : list (string * string)).
Definition pol (v : string) : setarg unit := SetPos "cache-policy" [VStr v] 0.
Definition block_of (v : string) : instr unit := IWith None (Some (pol v)) [IGet "cache-policy"].
Definition reads (g : state unit) (n : nat) := match nth_error (threads g) n with Some t => read t | None => [] end.
Definition finishedb (g : state unit) : bool := forallb (fun t => match tasks t, at_ t with [], Ready => true | _, _ => false end) (threads g).

(** A thread that never touches the settings reads the temporary value of another. *)
Theorem C136_seen_refuted : exists l,
  let g := trun (tstart [[block_of "off"]; [IGet "cache-policy"]]) l in
  finishedb g = true /\ reads g 1 = [("cache-policy", Ok (VStr "off"))] /\
  reads (trun (tstart [[IGet "cache-policy"]]) [0; 0]%nat) 0 = [("cache-policy", Ok (VStr "user"))].
Proof. exists [0; 0; 0; 1; 1; 0; 0; 0]%nat. vm_compute. auto. Qed.
(** Two blocks: the one entered first ends first and takes away the configuration of the other,
    whose thread, still in its block and the only one left, reads the value set by the first. *)
Theorem C136_popped_refuted : exists l,
  let g := trun (tstart [[IWith None (Some (pol "off")) []]; [block_of "temporary"]]) l in
  finishedb g = true /\ reads g 1 = [("cache-policy", Ok (VStr "off"))].
Proof. exists [0; 0; 0; 1; 1; 1; 0; 1; 1; 1]%nat. vm_compute. auto. Qed.
(** A setting made outside any block while another thread is in one is lost: it is neither in
    force nor in the file once both are done, and no exception is raised. *)
Theorem C136_lost_refuted : exists l,
  let g := trun (tstart [[IWith None None []]; [ISet (pol "off")]]) l in
  finishedb g = true /\ forallb (fun t => match errors t with [] => true | _ => false end) (threads g) = true /\
  object 0 (sh g) = mkConf (defaults unit "/h") (Some "/c") /\ files (sh g) = [] /\
  alookup "cache-policy" (vals (object 0 (sh (trun (tstart [[ISet (pol "off")]]) [0; 0]%nat)))) = Some (VStr "off") /\
  files (sh (trun (tstart [[ISet (pol "off")]]) [0; 0]%nat)) <> [].
Proof. exists [0; 0; 0; 1; 1; 0]%nat. vm_compute. repeat split; discriminate. Qed.
(** A [reset] made outside any block resets the block of another thread instead of CONFIG. *)
Theorem C136_reset_refuted : exists l,
  let g := trun (tstart [[block_of "off"]; [IReset None]]) l in
  finishedb g = true /\ reads g 0 = [("cache-policy", Ok (VStr "user"))].
Proof. exists [0; 0; 0; 1; 1; 0; 0; 0]%nat. vm_compute. auto. Qed.

(** ** The hypotheses are met *)
Definition three : list (list (instr unit)) := [[IGet "cache-policy"]; [IWith (Some "/d") (Some (pol "off")) [ISet (pol "temporary"); IReset None; IGet "cache-policy"]; IGet "cache-policy"]; [IWith None None [block_of "off"]]].
Example C136_in_blocks_met : in_blocks unit "/c" three.
Proof. repeat constructor; cbn; intuition discriminate. Qed.
Definition turns := List.concat (repeat [0; 1; 2] 20)%nat.
Example C136_finished_met : finished (trun (tstart three) turns) /\ List.length (stack (sh (trun (tstart three) (firstn 24 turns)))) = 3%nat.
Proof. split; [unfold finished|]; vm_compute; repeat constructor. Qed.
Example C136_inside_met : exists t i r, nth_error (threads (trun (tstart three) (firstn 15 turns))) 1 = Some t /\ at_ t = Ready /\ tasks t = Do i :: r /\ blocks unit t <> 0%nat.
Proof. do 3 eexists. split; [vm_compute; reflexivity|]. split; [reflexivity|]. split; [reflexivity|]. vm_compute. discriminate. Qed.
Example C136_beside_met : exists t, nth_error (threads (trun (tstart [[IGet "cache-policy"]; [block_of "off"; ISet (pol "temporary"); IGet "cache-policy"]; [IGet "url"; IGet "cache-policy"]]) turns)) 1 = Some t /\
  tasks t = [] /\ at_ t = Ready /\ read t = [("cache-policy", Ok (VStr "off")); ("cache-policy", Ok (VStr "temporary"))].
Proof. eexists. split; [vm_compute; reflexivity|]. vm_compute. auto. Qed.

(** A refused set, a refused block and a set that is fine. *)
Example C136_errors_met : exists t, nth_error (threads (trun (tstart [[IGet "url"]; [ISet (pol "never"); IWith None (Some (pol "never")) [ISet (pol "off")]; IWith None None [IReset (Some "nothing"); ISet (pol "off")]]]) turns)) 1 = Some t /\
  tasks t = [] /\ at_ t = Ready /\ errors t = [ValueError; ValueError; KeyError].
Proof. eexists. split; [vm_compute; reflexivity|]. vm_compute. auto. Qed.

Print Assumptions C136_depth.
Print Assumptions C136_none_left.
Print Assumptions C136_finished.
Print Assumptions C136_base_kept.
Print Assumptions C136_read_again.
Print Assumptions C136_inside.
Print Assumptions C136_beside_readers_partial.
Print Assumptions C136_ends.
Print Assumptions C136_seen_refuted.
Print Assumptions C136_popped_refuted.
Print Assumptions C136_lost_refuted.
Print Assumptions C136_reset_refuted.
