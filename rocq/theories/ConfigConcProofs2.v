(** One thread alone does what the programs of Config.v do. *)
From Verif Require Import PyBase ListLemmas PyStr Config ConfigConc ConfigConcProofs.
Local Open Scope string_scope.
Local Open Scope list_scope.

Lemma aset_twice {T} k (v : T) l : aset k v (aset k v l) = aset k v l.
Proof. induction l as [|[k' v'] l IH]; cbn; [rewrite String.eqb_refl; reflexivity|]. destruct (String.eqb k k') eqn:E; cbn; rewrite E; [reflexivity|]. rewrite IH. reflexivity. Qed.

Section Alone.
  Variable Obj : Type.
  Variable obj_str : Obj -> string.
  Variable obj_bool : Obj -> bool.
  Variable home : string.
  Variable writable : string -> bool.
  Variable version : string.
  Variable env : list (string * string).
  Notation value := (value Obj).
  Notation conf := (conf Obj).
  Notation instr := (instr Obj).
  Notation thread := (thread Obj).
  Notation shared := (shared Obj).
  Notation state := (state Obj).
  Notation log := (list (string * result value)).
  Variable obs : nat -> (string -> result value) -> log -> log * result unit.
  Set Default Proof Using "Obj obj_str obj_bool home writable version env obs".
  Notation change := (change Obj obj_str obj_bool home writable version).
  Notation make := (make Obj obj_str obj_bool home writable version).
  Notation move := (move Obj obj_str obj_bool home writable version env).
  Notation step := (step Obj obj_str obj_bool home writable version env).
  Notation run := (run Obj obj_str obj_bool home writable version env).
  Notation exec := (exec Obj obj_str obj_bool home writable version log obs).
  Notation st := (st Obj log).
  Notation cmd := (cmd Obj log).
  Implicit Types (s : shared) (t : thread) (i : instr) (x : st).

  (** The statements of a thread as a program of Config.v; the state of the observers is used to
      record what is read. *)
  Fixpoint as_cmd i : cmd :=
    match i with
    | ISet a => CTry (CSet a)
    | IReset n => CTry (CReset n)
    | IGet n => CAct (fun get o => (o ++ [(n, get n)], Ok tt))
    | IWith p a body => CTry (CTemp p a ((fix all l := match l with [] => CSkip | y :: r => CSeq (as_cmd y) (all r) end) body))
    end.
  Fixpoint as_cmds (l : list instr) : cmd := match l with [] => CSkip | y :: r => CSeq (as_cmd y) (as_cmds r) end.
  Lemma as_body p a body : as_cmd (IWith p a body) = CTry (CTemp p a (as_cmds body)).
  Proof. cbn. reflexivity. Qed.
  Fixpoint isize i : nat := match i with IWith _ _ body => S ((fix all l := match l with [] => 0 | y :: r => isize y + all r end) body) | _ => 1 end%nat.
  Fixpoint psize (l : list instr) : nat := match l with [] => 0 | y :: r => isize y + psize r end%nat.
  Lemma isize_body p a body : isize (IWith p a body) = S (psize body).
  Proof. reflexivity. Qed.
  Lemma isize_pos i : (1 <= isize i)%nat.
  Proof. destruct i; cbn; lia. Qed.

  (** What the statements raise, in order. *)
  Definition exn_of {T} (r : result T) : list exn := match r with Raise e => [e] | _ => [] end.
  Fixpoint raised i (x : st) {struct i} : list exn :=
    match i with
    | ISet a => exn_of (snd (exec (CSet a) x))
    | IReset n => exn_of (snd (exec (CReset n) x))
    | IGet _ => []
    | IWith p a body =>
        match make_temp Obj obj_str obj_bool home writable version log p a x with
        | (x', Ok c) => (fix all (l : list instr) (y : st) := match l with [] => [] | j :: r => raised j y ++ all r (fst (exec (as_cmd j) y)) end) body (fst (enter Obj obj_str home log obs c x'))
        | (_, r) => exn_of r
        end
    end.
  Fixpoint all_raised (l : list instr) (x : st) : list exn := match l with [] => [] | j :: r => raised j x ++ all_raised r (fst (exec (as_cmd j) x)) end.

  Definition like s x : Prop :=
    Config.base x = object 0 s /\ Config.stack x = map (fun k => object k s) (stack s) /\ Config.files x = files s /\ environ x = env /\ callbacks x = [] /\ autosave x = true /\
    objs s <> [] /\ NoDup (stack s) /\ Forall (fun k => k <> 0%nat /\ (k < List.length (objs s))%nat) (stack s).
  Lemma like_top s x : like s x -> Config.top x = object (top s) s.
  Proof. intros (B & S & _). unfold Config.top, top. rewrite S. destruct (stack s); cbn; [exact B|reflexivity]. Qed.
  Lemma top_in s x : like s x -> (top s < List.length (objs s))%nat.
  Proof. intros (_ & _ & _ & _ & _ & _ & N & _ & F). unfold top. destruct (stack s); [destruct (objs s); [contradiction|cbn; lia]|]. inversion F as [|? ? [_ H] _]; subst. exact H. Qed.
  (** Objects that are the same on the stack. *)
  Lemma like_put s x c f : like s x -> like (mkShared (put (top s) c (objs s)) (stack s) f) (with_files Obj log (with_top Obj log x c) f).
  Proof.
    intros L. pose proof (top_in s x L) as TI. destruct L as (B & S & FI & E & C & A & N & D & F). unfold like. cbn [stack objs files].
    assert (NP : put (top s) c (objs s) <> []) by (intros X; apply (f_equal (@List.length _)) in X; rewrite put_len in X; destruct (objs s); [contradiction|discriminate X]).
    rewrite put_len. unfold top, with_top in *. rewrite S in *. destruct (stack s) as [|k r] eqn:SK; cbn [map with_files Config.base Config.stack Config.files environ callbacks autosave].
    - split; [unfold object; cbn [objs]; rewrite put_at by exact TI; reflexivity|]. auto 10.
    - inversion F as [|? ? [NK _] F']; subst. inversion D as [|? ? NI D']; subst.
      split; [unfold object; cbn [objs]; rewrite put_away by auto; exact B|]. split; [|auto 10].
      f_equal; [unfold object; cbn [objs]; rewrite put_at by exact TI; reflexivity|]. apply map_ext_in. intros j J. unfold object. cbn [objs]. rewrite put_away; [reflexivity|]. intros ->. contradiction.
  Qed.
  Lemma save_twice p (v : list (string * value)) f : save_to Obj home writable version p v (save_to Obj home writable version p v f) = save_to Obj home writable version p v f.
  Proof. unfold save_to. destruct p as [p|]; [|reflexivity]. destruct (writable p); [apply aset_twice|reflexivity]. Qed.
  (** [_changed], once or twice, with nobody observing. *)
  Lemma changed_silent n x : callbacks x = [] -> autosave x = true -> n = 1%nat \/ n = 2%nat ->
    Config.changed Obj obj_str home writable version log obs n x = (with_files Obj log x (save_to Obj home writable version (path (Config.top x)) (vals (Config.top x)) (Config.files x)), Ok tt).
  Proof.
    intros C A N. assert (C1 : forall y, callbacks y = [] -> autosave y = true ->
      changed1 Obj obj_str home writable version log obs y = (with_files Obj log y (save_to Obj home writable version (path (Config.top y)) (vals (Config.top y)) (Config.files y)), Ok tt)).
    { intros y CY AY. unfold changed1. rewrite AY. unfold notify. cbn [with_files callbacks]. rewrite CY. reflexivity. }
    destruct N as [->| ->]; cbn [changed]; rewrite (C1 x C A); [reflexivity|]. rewrite C1 by assumption. cbn [with_files Config.files]. unfold Config.top at 1 2. cbn [with_files Config.stack Config.base].
    change (match Config.stack x with [] => Config.base x | c :: _ => c end) with (Config.top x). rewrite save_twice. reflexivity.
  Qed.
  Lemma set_count a v v' n : set_vals Obj obj_str obj_bool home a v = (v', Ok n) -> n = 1%nat \/ n = 2%nat.
  Proof.
    unfold set_vals. destruct a as [[|kv kvs]|kvs|nm args nkw]; try discriminate.
    - destruct (set_many _ _ _ _ _ _) as [w [u|e|]]; try discriminate. intros H. injection H as <- <-. auto.
    - destruct (set_many _ _ _ _ _ _) as [w [u|e|]]; try discriminate. intros H. injection H as <- <-. auto.
    - destruct (set_one _ _ _ _ _ _ _ _) as [w [u|e|]]; try discriminate. intros H. injection H as <- <-. auto.
  Qed.
  Lemma top_with_top x (c : conf) : Config.top (with_top Obj log x c) = c.
  Proof. unfold Config.top, with_top. destruct (Config.stack x); reflexivity. Qed.
  Lemma with_parts x (c : conf) : callbacks (with_top Obj log x c) = callbacks x /\ autosave (with_top Obj log x c) = autosave x /\ Config.files (with_top Obj log x c) = Config.files x /\ ostate (with_top Obj log x c) = ostate x.
  Proof. unfold with_top. destruct (Config.stack x); auto. Qed.
  Lemma with_files_same x : with_files Obj log x (Config.files x) = x.
  Proof. destruct x. reflexivity. Qed.

  (** [set] and [reset] *)
  Definition changer i : option cmd := match i with ISet a => Some (CSet a) | IReset n => Some (CReset n) | _ => None end.
  Lemma change_like i k c s x : like s x -> changer i = Some c -> k = top s ->
    like (fst (change i k s)) (fst (exec c x)) /\ ostate (fst (exec c x)) = ostate x /\ stack (fst (change i k s)) = stack s /\ snd (change i k s) = snd (exec c x).
  Proof.
    intros L CI ->. pose proof (like_top s x L) as LT. pose proof L as (_ & _ & FI & _ & C & A & _). unfold ConfigConc.change. set (o := object (top s) s) in *. destruct i as [a|n|n|p a body]; try discriminate CI; injection CI as <-; cbn [exec new_vals].
    - unfold do_set. rewrite LT. destruct (set_vals Obj obj_str obj_bool home a (vals o)) as [v [n|e|]] eqn:SV; cbn [bind fst snd].
      + destruct (with_parts x (mkConf v (path o))) as (P1 & P2 & P3 & P4). rewrite changed_silent; [|rewrite P1; exact C|rewrite P2; exact A|exact (set_count _ _ _ _ SV)]. cbn [fst]. rewrite top_with_top. cbn [path vals]. rewrite P3, FI.
        split; [apply like_put, L|]. split; [exact P4|]; split; reflexivity.
      + destruct (with_parts x (mkConf v (path o))) as (_ & _ & P3 & P4). split; [|split; [exact P4|split; reflexivity]]. pose proof (like_put s x (mkConf v (path o)) (files s) L) as Y. rewrite <- FI in Y at 2. rewrite <- P3 in Y. rewrite with_files_same in Y. exact Y.
      + destruct (with_parts x (mkConf v (path o))) as (_ & _ & P3 & P4). split; [|split; [exact P4|split; reflexivity]]. pose proof (like_put s x (mkConf v (path o)) (files s) L) as Y. rewrite <- FI in Y at 2. rewrite <- P3 in Y. rewrite with_files_same in Y. exact Y.
    - unfold do_reset. rewrite LT. destruct n as [n|].
      + destruct (alookup n (defaults Obj home)) as [d|].
        * destruct (with_parts x (mkConf (aset n d (aremove n (vals o))) (path o))) as (P1 & P2 & P3 & P4). rewrite changed_silent; [|rewrite P1; exact C|rewrite P2; exact A|auto]. cbn [fst snd]. rewrite top_with_top. cbn [path vals]. rewrite P3, FI.
          split; [apply like_put, L|]. split; [exact P4|]; split; reflexivity.
        * cbn [fst snd]. split; [|auto]. replace (mkConf (vals o) (path o)) with o by (destruct o; reflexivity).
          pose proof (like_put s x o (files s) L) as Y. rewrite <- FI in Y at 2. rewrite <- LT in Y.
          assert (E : with_top Obj log x (Config.top x) = x) by (destruct x as [b0 [|c0 r0] ? ? ? ? ? ? ?]; reflexivity).
          rewrite E, with_files_same in Y. rewrite LT in Y. exact Y.
      + destruct (with_parts x (mkConf (defaults Obj home) (path o))) as (P1 & P2 & P3 & P4). rewrite changed_silent; [|rewrite P1; exact C|rewrite P2; exact A|auto]. cbn [fst snd]. rewrite top_with_top. cbn [path vals]. rewrite P3, FI.
        split; [apply like_put, L|]. split; [exact P4|]; split; reflexivity.
  Qed.

  (** ** Steps of the one thread *)
  Definition reaches s t s' t' : Prop := exists k, run (mkState s [t]) (repeat 0%nat k) = mkState s' [t'].
  Lemma reaches_refl s t : reaches s t s t.
  Proof. exists 0%nat. reflexivity. Qed.
  Lemma reaches_step s t s' t' : reaches (fst (move s t)) (snd (move s t)) s' t' -> reaches s t s' t'.
  Proof.
    intros (k & E). exists (S k). cbn [repeat]. change (run (mkState s [t]) (0%nat :: repeat 0%nat k)) with (run (step (mkState s [t]) 0) (repeat 0%nat k)).
    assert (X : step (mkState s [t]) 0 = mkState (fst (move s t)) [snd (move s t)]) by (unfold ConfigConc.step; cbn; destruct (move s t); reflexivity). rewrite X. exact E.
  Qed.
  Lemma reaches_trans s t s1 t1 s2 t2 : reaches s t s1 t1 -> reaches s1 t1 s2 t2 -> reaches s t s2 t2.
  Proof.
    intros (k1 & E1) (k2 & E2). exists (k1 + k2)%nat. rewrite repeat_app. unfold ConfigConc.run. rewrite fold_left_app. change (run (run (mkState s [t]) (repeat 0%nat k1)) (repeat 0%nat k2) = mkState s2 [t2]). rewrite E1. exact E2.
  Qed.
  Lemma alone_does n : forall p s x t rest, (psize p <= n)%nat -> like s x -> tasks t = map Do p ++ rest -> at_ t = Ready -> ostate x = read t ->
    exists s' t', reaches s t s' t' /\ tasks t' = rest /\ at_ t' = Ready /\ snd (exec (as_cmds p) x) = Ok tt /\ like s' (fst (exec (as_cmds p) x)) /\ ostate (fst (exec (as_cmds p) x)) = read t' /\ stack s' = stack s /\ errors t' = errors t ++ all_raised p x.
  Proof.
    induction n as [|n IH]; intros p s x t rest SZ L TS AT OS; (destruct p as [|i p]; [exists s, t; split; [apply reaches_refl|]; cbn in TS |- *; rewrite app_nil_r; auto 10|]); [pose proof (isize_pos i); cbn in SZ; lia|].
    cbn [map app] in TS. cbn [psize] in SZ. pose proof (isize_pos i) as IP.
    (* the statement is enough *)
    assert (ONE : forall s1 t1, reaches s t s1 t1 -> tasks t1 = map Do p ++ rest -> at_ t1 = Ready -> snd (exec (as_cmd i) x) = Ok tt -> like s1 (fst (exec (as_cmd i) x)) -> ostate (fst (exec (as_cmd i) x)) = read t1 -> stack s1 = stack s -> errors t1 = errors t ++ raised i x ->
      exists s' t', reaches s t s' t' /\ tasks t' = rest /\ at_ t' = Ready /\ snd (exec (as_cmds (i :: p)) x) = Ok tt /\ like s' (fst (exec (as_cmds (i :: p)) x)) /\ ostate (fst (exec (as_cmds (i :: p)) x)) = read t' /\ stack s' = stack s /\ errors t' = errors t ++ all_raised (i :: p) x).
    { intros s1 t1 R1 T1 A1 E1 L1 O1 K1 X1. cbn [all_raised]. cbn [as_cmds Config.exec]. destruct (exec (as_cmd i) x) as [x1 r1]. cbn [fst snd] in *. subst r1.
      destruct (IH p s1 x1 t1 rest ltac:(lia) L1 T1 A1 O1) as (s' & t' & R2 & Y). exists s', t'. split; [exact (reaches_trans _ _ _ _ _ _ R1 R2)|]. rewrite K1, X1, <- app_assoc in Y. exact Y. }
    set (t1 := mkThread (map Do p ++ rest) (Bound i (top s)) (read t) (errors t)).
    assert (M1 : move s t = (s, t1)) by (unfold ConfigConc.move; rewrite AT, TS; reflexivity).
    assert (GO : forall s' t', reaches s t1 s' t' -> reaches s t s' t') by (intros s' t' R; apply reaches_step; rewrite M1; exact R).
    assert (CHG : forall c, changer i = Some c -> as_cmd i = CTry c -> (forall s', move s' t1 = (fst (change i (top s) s'), mkThread (tasks t1) Ready (read t1) (noted Obj t1 (snd (change i (top s) s'))))) ->
      exists s' t', reaches s t s' t' /\ tasks t' = rest /\ at_ t' = Ready /\ snd (exec (as_cmds (i :: p)) x) = Ok tt /\ like s' (fst (exec (as_cmds (i :: p)) x)) /\ ostate (fst (exec (as_cmds (i :: p)) x)) = read t' /\ stack s' = stack s /\ errors t' = errors t ++ all_raised (i :: p) x).
    { intros c CI AC MV. destruct (change_like i (top s) c s x L CI eq_refl) as (H1 & H2 & H3 & H4). eapply ONE; [apply GO, reaches_step; rewrite MV; apply reaches_refl|reflexivity|reflexivity|..]; rewrite ?AC; cbn [Config.exec]; try (destruct (exec c x) as [x1 r1]; cbn [fst snd] in *; auto; rewrite H2; exact OS).
      cbn [errors t1]. assert (RX : raised i x = exn_of (snd (exec c x))) by (destruct i; try discriminate CI; injection CI as <-; reflexivity). rewrite RX, <- H4. unfold noted. destruct (snd (change i (top s) s)); cbn; rewrite ?app_nil_r; reflexivity. }
    destruct i as [a|rn|gn|q a body].
    - apply (CHG (CSet a) eq_refl eq_refl). intros s'. unfold ConfigConc.move. cbn [t1 at_]. destruct (change (ISet a) (top s) s'). reflexivity.
    - apply (CHG (CReset rn) eq_refl eq_refl). intros s'. unfold ConfigConc.move. cbn [t1 at_]. destruct (change (IReset rn) (top s) s'). reflexivity.
    - eapply ONE; [apply GO, reaches_step, reaches_refl|reflexivity|reflexivity|reflexivity| |cbn; rewrite OS; unfold get; rewrite (like_top s x L); destruct L as (_ & _ & _ & -> & _); reflexivity|reflexivity|symmetry; apply app_nil_r]. exact L.
    - clear CHG. rewrite isize_body in SZ. rewrite as_body in ONE. pose proof (like_top s x L) as LT. pose proof L as (B & SK & FI & E & C & A & N & D & F).
      assert (FAIL : forall e, move s t1 = (s, mkThread (tasks t1) Ready (read t1) (errors t1 ++ e)) -> fst (make_temp Obj obj_str obj_bool home writable version log q a x) = x -> (forall c, snd (make_temp Obj obj_str obj_bool home writable version log q a x) <> Ok c) -> e = exn_of (snd (make_temp Obj obj_str obj_bool home writable version log q a x)) ->
        exists s' t', reaches s t s' t' /\ tasks t' = rest /\ at_ t' = Ready /\ snd (exec (as_cmds (IWith q a body :: p)) x) = Ok tt /\ like s' (fst (exec (as_cmds (IWith q a body :: p)) x)) /\ ostate (fst (exec (as_cmds (IWith q a body :: p)) x)) = read t' /\ stack s' = stack s /\ errors t' = errors t ++ all_raised (IWith q a body :: p) x).
      { intros e MV E1 E2 E3. eapply ONE; [apply GO, reaches_step; rewrite MV; apply reaches_refl|reflexivity|reflexivity|..]; cbn [Config.exec raised]; destruct (make_temp _ _ _ _ _ _ _ q a x) as [x0 [c|e'|]]; cbn [fst snd] in *; subst; auto; exfalso; apply (E2 c); reflexivity. }
      assert (OK : forall v f, move s t1 = (mkShared (objs s ++ [mkConf v q]) (stack s) f, mkThread (tasks t1) (Made (List.length (objs s)) body) (read t1) (errors t1)) ->
                 make_temp Obj obj_str obj_bool home writable version log q a x = (with_files Obj log x f, Ok (mkConf v q)) ->
        exists s' t', reaches s t s' t' /\ tasks t' = rest /\ at_ t' = Ready /\ snd (exec (as_cmds (IWith q a body :: p)) x) = Ok tt /\ like s' (fst (exec (as_cmds (IWith q a body :: p)) x)) /\ ostate (fst (exec (as_cmds (IWith q a body :: p)) x)) = read t' /\ stack s' = stack s /\ errors t' = errors t ++ all_raised (IWith q a body :: p) x).
      { intros v f MV MT. set (m := List.length (objs s)) in *. set (s2 := mkShared (objs s ++ [mkConf v q]) (m :: stack s) f). set (t2 := mkThread (map Do body ++ Leave :: map Do p ++ rest) Ready (read t) (errors t)).
        set (x2 := with_stack Obj log (with_files Obj log x f) (mkConf v q :: Config.stack x)).
        assert (OLD : forall st' k, (k < m)%nat -> object k (mkShared (objs s ++ [mkConf v q]) st' f) = object k s) by (intros st' k K; unfold object; cbn [objs]; apply app_nth1; exact K).
        assert (L2 : like s2 x2).
        { unfold like, s2, x2. cbn [stack objs files with_stack with_files Config.base Config.stack Config.files environ callbacks autosave]. split; [rewrite OLD; [exact B|unfold m; destruct (objs s); [contradiction|cbn; lia]]|]. split.
          - cbn [map]. rewrite SK. f_equal; [unfold object; cbn [objs]; rewrite app_nth2 by (unfold m; lia); unfold m; rewrite Nat.sub_diag; reflexivity|].
            apply map_ext_in. intros k K. rewrite Forall_forall in F. symmetry. apply OLD. exact (proj2 (F k K)).
          - split; [reflexivity|]. split; [exact E|]. split; [exact C|]. split; [exact A|]. split; [intros X; destruct (objs s); discriminate X|]. rewrite Forall_forall in F. split.
            + constructor; [|exact D]. intros K. destruct (F _ K) as [_ H]. unfold m in H. lia.
            + rewrite app_length. cbn. constructor; [split; [unfold m; destruct (objs s); [contradiction|cbn; lia]|unfold m; lia]|]. apply Forall_forall. intros k K. destruct (F k K). split; [assumption|lia]. }
        destruct (IH body s2 x2 t2 (Leave :: map Do p ++ rest) ltac:(lia) L2 eq_refl eq_refl OS) as (s3 & t3 & R3 & T3 & A3 & E3 & L3 & O3 & K3 & X3).
        assert (EX : exec (CTry (CTemp q a (as_cmds body))) x = (with_stack Obj log (fst (exec (as_cmds body) x2)) (tl (Config.stack (fst (exec (as_cmds body) x2)))), Ok tt)).
        { cbn [Config.exec]. rewrite MT. unfold enter, notify. cbn [with_files with_stack callbacks Config.stack]. rewrite C. cbn [notify_loop]. fold (with_files Obj log x f). change (with_stack Obj log (with_files Obj log x f) (mkConf v q :: Config.stack x)) with x2.
          destruct L3 as (_ & _ & _ & _ & C3 & _). destruct (exec (as_cmds body) x2) as [x3 r3]. cbn [fst snd] in *. subst r3. unfold leave, notify. cbn [with_stack callbacks]. rewrite C3. reflexivity. }
        rewrite EX in ONE. cbn [fst snd] in ONE.
        refine (ONE (mkShared (objs s3) (tl (stack s3)) (files s3)) (mkThread (map Do p ++ rest) Ready (read t3) (errors t3)) _ eq_refl eq_refl eq_refl _ O3 _ _).
        - apply GO, reaches_step. rewrite MV. cbn [fst snd]. apply reaches_step. eapply reaches_trans; [exact R3|]. apply reaches_step.
          assert (M3 : move s3 t3 = (mkShared (objs s3) (tl (stack s3)) (files s3), mkThread (map Do p ++ rest) Ready (read t3) (errors t3))) by (unfold ConfigConc.move; rewrite A3, T3; reflexivity). rewrite M3. apply reaches_refl.
        - destruct L3 as (B3 & SK3 & FI3 & EN3 & C3 & A4 & N3 & D3 & F3). unfold like. cbn [stack objs files with_stack Config.base Config.stack Config.files environ callbacks autosave].
          rewrite K3 in *. cbn [s2 stack tl] in *. split; [exact B3|]. split; [rewrite SK3; reflexivity|]. inversion D3; subst. inversion F3; subst. auto 10.
        - cbn [stack]. rewrite K3. reflexivity.
        - cbn [errors]. rewrite X3. cbn [t2 errors]. f_equal. cbn [raised]. rewrite MT. unfold enter, notify. cbn [with_files with_stack callbacks Config.stack]. rewrite C. reflexivity. }
      unfold make_temp in FAIL, OK. rewrite LT in FAIL, OK.
      assert (MV : move s t1 = match make q a (top s) s with (s', Ok n0) => (s', mkThread (tasks t1) (Made n0 body) (read t1) (errors t1)) | (s', Raise e) => (s', mkThread (tasks t1) Ready (read t1) (errors t1 ++ [e])) | (s', OutOfFuel) => (s', mkThread (tasks t1) Ready (read t1) (errors t1)) end) by reflexivity.
      unfold ConfigConc.make in MV. destruct a as [a|].
      + destruct (set_vals Obj obj_str obj_bool home a (vals (object (top s) s))) as [v [k|e|]].
        * rewrite A, FI in OK. exact (OK v _ MV eq_refl).
        * apply (FAIL [e]); [exact MV|reflexivity|discriminate|reflexivity].
        * apply (FAIL []); [rewrite app_nil_r; exact MV|reflexivity|discriminate|reflexivity].
      + apply (OK _ _ MV). rewrite <- FI, with_files_same. reflexivity.
  Qed.

  (** ** Threads end *)
  Definition task_weight (y : task Obj) : nat := match y with Do i => 4 * isize i | Leave => 1 end.
  Fixpoint tasks_weight (l : list (task Obj)) : nat := match l with [] => 0 | y :: r => task_weight y + tasks_weight r end%nat.
  Definition pc_weight (p : pc Obj) : nat := match p with Ready => 0 | Bound i _ => 4 * isize i - 1 | Made _ body => 2 + 4 * psize body end%nat.
  Definition weight t : nat := (tasks_weight (tasks t) + pc_weight (at_ t))%nat.
  Lemma tasks_weight_do p l : tasks_weight (map Do p ++ l) = (4 * psize p + tasks_weight l)%nat.
  Proof. induction p as [|i p IH]; [reflexivity|]. cbn [map app tasks_weight task_weight psize]. rewrite IH. lia. Qed.
  Lemma move_weight s t : (weight (snd (move s t)) <= weight t - 1)%nat.
  Proof.
    unfold weight, ConfigConc.move. destruct (at_ t) as [|[a|n|n|p a body] k|k body] eqn:AT.
    - destruct (tasks t) as [|[i|] l] eqn:TS; cbn [snd]; [rewrite TS, AT; cbn; lia| |cbn; lia]. cbn [tasks at_ tasks_weight task_weight pc_weight]. pose proof (isize_pos i). lia.
    - destruct (change _ _ _) as [s' r]. cbn. lia.
    - destruct (change _ _ _) as [s' r]. cbn. lia.
    - cbn. lia.
    - cbn [pc_weight]. rewrite isize_body. destruct (make _ _ _ _) as [s' [m|e|]]; cbn [snd tasks at_ pc_weight]; lia.
    - cbn [snd tasks at_ pc_weight]. rewrite tasks_weight_do. cbn [tasks_weight task_weight]. lia.
  Qed.
  Lemma weight_zero t : weight t = 0%nat -> tasks t = [] /\ at_ t = Ready.
  Proof.
    unfold weight. intros W. split.
    - destruct (tasks t) as [|[i|] l]; [reflexivity| |cbn in W; lia]. cbn [tasks_weight task_weight] in W. pose proof (isize_pos i). lia.
    - destruct (at_ t) as [|i k|k body]; [reflexivity| |cbn in W; lia]. cbn [pc_weight] in W. pose proof (isize_pos i). lia.
  Qed.
  Lemma run_weight l : forall (g : state) q t, nth_error (threads g) q = Some t -> exists t', nth_error (threads (run g l)) q = Some t' /\ (weight t' <= weight t - count_occ Nat.eq_dec l q)%nat.
  Proof.
    assert (PUT : forall (ts : list thread) k y z, nth_error ts k = Some z -> nth_error (put k y ts) k = Some y) by (induction ts as [|z ts IH]; intros [|k] y z' H; cbn in *; try discriminate; eauto).
    assert (AWAY : forall (ts : list thread) k j y, j <> k -> nth_error (put k y ts) j = nth_error ts j) by (induction ts as [|z ts IH]; intros [|k] [|j] y N; cbn; try reflexivity; [contradiction N; reflexivity|apply IH; congruence]).
    induction l as [|n l IH]; intros g q t Q; [exists t; split; [exact Q|cbn; lia]|]. change (run g (n :: l)) with (run (step g n) l). cbn [count_occ].
    assert (X : exists t1, nth_error (threads (step g n)) q = Some t1 /\ (weight t1 <= weight t - (if Nat.eq_dec n q then 1 else 0))%nat).
    { unfold ConfigConc.step. destruct (Nat.eq_dec n q) as [->|N].
      - rewrite Q. pose proof (move_weight (sh g) t) as M. destruct (move (sh g) t) as [s' t1]. exists t1. split; [apply (PUT _ _ _ _ Q)|exact M].
      - exists t. split; [|lia]. destruct (nth_error (threads g) n) as [tn|]; [|exact Q]. destruct (move (sh g) tn) as [s' t1]. cbn [threads]. rewrite AWAY by auto. exact Q. }
    destruct X as (t1 & Q1 & W1). destruct (IH _ _ _ Q1) as (t' & Q' & W'). exists t'. split; [exact Q'|]. destruct (Nat.eq_dec n q); lia.
  Qed.
End Alone.
