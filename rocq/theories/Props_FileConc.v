(** C139: cache_file while other threads change the cache policy or directory. *)
From Verif Require Import PyBase FileConc FileConcProofs.
Set Default Proof Using "Type".
Local Open Scope string_scope.

Section C139.
  Variables C D : Type.
  Variable size_of : C -> Z.
  Notation world := (FileConc.world C D).
  Notation cache_file := (FileConc.cache_file (C:=C) (D:=D) size_of).

  Section Any.
    Variable o : nat -> now.
    Variables (name fresh : string) (f : force D) (create : result (C * D)) (w w' : world).
    (** The directory of the call is the one of its second look; the name depends on the first. *)
    Let home := dir (o (S (look w))).
    Let p := home ++ "/" ++ (if managed (o (look w)) then name else fresh).

    Lemma call_tri1 :
      match cache_file o name fresh f create w with
      | (w', Ok q) => finished C D o w p create q w'
      | (w', Raise e) => E C D o w p create f e w'
      | (w', OutOfFuel) => True
      end.
    Proof.
      unfold FileConc.cache_file. unfold FileConc.bind at 1. cbn [FileConc.see].
      set (w1 := mkWorld (files w) (tables w) (S (look w))).
      assert (fine C D o w p create (mkWorld (files w) (tables w) (S (S (look w))))) as HF.
      { apply (fine_look C D o w p create w). apply fine_start. }
      unfold p, home in *. destruct (managed (o (look w))).
      - apply (managed_tri C D size_of o w (dir (o (S (look w)))) _ create f _ HF).
      - apply (end_off C D o w (dir (o (S (look w)))) _ create f _ HF).
    Qed.

    (** What is returned is the path of a complete file: the one that was there or the one made. *)
    Theorem C139_returned q :
      cache_file o name fresh f create w = (w', Ok q) ->
      q = p /\ exists c, files w' p = Some c /\
        (files w p = Some c \/ exists d, create = Ok (c, d)).
    Proof.
      intros H. pose proof call_tri1 as T. rewrite H in T. destruct T as (HF & -> & c & HC).
      split; [reflexivity|]. exists c. split; [exact HC|].
      destruct HF as [_ B _ _ _]. destruct B as [B|[B|(c1 & d & B1 & B2)]].
      - left. congruence.
      - congruence.
      - right. exists d. congruence.
    Qed.

    (** The exceptions there can be besides those of [create]. *)
    Theorem C139_raised e :
      cache_file o name fresh f create w = (w', Raise e) ->
      e = AssertionError \/ e = FileNotFoundError \/ (e = TypeError /\ exists g, f = Ask g) \/ create = Raise e.
    Proof. intros H. pose proof call_tri1 as T. rewrite H in T. destruct T as [T _]. exact T. Qed.

    Lemma outcome_fine r : cache_file o name fresh f create w = (w', r) -> r <> OutOfFuel -> fine C D o w p create w'.
    Proof.
      intros H N. pose proof call_tri1 as T. rewrite H in T.
      destruct r as [q|e|]; [destruct T as [T _]|destruct T as [_ T]|contradiction]; exact T.
    Qed.

    (** However the call ends, other files and the rows of other paths are as before. *)
    Theorem C139_others r :
      cache_file o name fresh f create w = (w', r) -> r <> OutOfFuel ->
      (forall q, q <> p -> files w' q = files w q) /\
      (forall d q, q <> p -> tables w' d q = tables w d q).
    Proof. intros H N. destruct (outcome_fine r H N). auto. Qed.

    (** A new row is in the table of a directory the manager was told of, the name of which is
        the beginning of the path; so it is in the table of the directory of the file if no
        directory in use is the beginning of a path in another. *)
    Theorem C139_rows_partial r d x :
      (forall n, String.prefix (mdir (o n)) p = true -> mdir (o n) = home) ->
      cache_file o name fresh f create w = (w', r) -> r <> OutOfFuel ->
      tables w' d p = Some x -> tables w d p = Some x \/ d = home.
    Proof.
      intros HP H N HT. destruct (outcome_fine r H N) as [_ _ _ Y _].
      destruct (Y _ _ HT) as [A|[A (n & B)]]; [left; exact A|right]. subst d. apply HP. exact A.
    Qed.
  End Any.

  (** *** Nobody changes anything *)
  Section Steady.
    Variable x : now.
    Hypothesis dir_there : there x (dir x) = true.
    Variables (o : nat -> now) (name fresh : string) (c : C) (d : D) (w : world).
    Hypothesis same : forall n, o n = x.

    Lemma prefix_app a b : String.prefix a (a ++ b) = true.
    Proof. induction a as [|h a IH]; cbn; [destruct b; reflexivity|]. destruct (Ascii.ascii_dec h h); [exact IH|contradiction]. Qed.

    Definition gives {A} (m : FileConc.M C D A) (u : world) (a : A) fs ts : Prop :=
      exists u', m u = (u', Ok a) /\ files u' = fs /\ tables u' = ts.

    Lemma g_bind {A B} (m : FileConc.M C D A) (k : A -> FileConc.M C D B) u a b fs ts fs' ts' :
      gives m u a fs ts -> (forall u', files u' = fs -> tables u' = ts -> gives (k a) u' b fs' ts') ->
      gives (FileConc.bind C D m k) u b fs' ts'.
    Proof. intros (u' & H & F & T) HK. unfold gives, FileConc.bind. rewrite H. apply HK; assumption. Qed.
    Lemma g_ret {A} (a : A) u : gives (FileConc.ret C D a) u a (files u) (tables u).
    Proof. exists u. repeat split. Qed.
    Lemma g_ret2 {A} (a : A) u fs ts : files u = fs -> tables u = ts -> gives (FileConc.ret C D a) u a fs ts.
    Proof. intros <- <-. apply g_ret. Qed.
    Lemma g_see u : gives (FileConc.see C D o) u x (files u) (tables u).
    Proof using same. eexists. unfold FileConc.see. rewrite same. repeat split. Qed.

    Definition has (fs : string -> option C) p : bool := match fs p with Some _ => true | None => false end.

    Lemma g_exists p u : gives (FileConc.exists_ C D o (dir x) p) u (has (files u) p) (files u) (tables u).
    Proof using same dir_there.
      eexists. unfold FileConc.exists_, FileConc.bind, FileConc.see. rewrite same, dir_there. cbn [files tables andb].
      repeat split.
    Qed.

    Section Managed.
      Hypothesis on : managed x = true.
      Hypothesis told_ : mdir x = dir x.
      Variable p : string.
      Hypothesis inside_ : FileConc.inside (dir x) p = true.

      Lemma g_call {A} (job : string -> FileConc.M C D A) u a fs ts :
        (forall v, files v = files u -> tables v = tables u -> gives (job (dir x)) v a fs ts) ->
        gives (FileConc.call_manager C D o job) u (Some a) fs ts.
      Proof using same on told_.
        intros H. unfold FileConc.call_manager. eapply g_bind; [apply g_see|]. intros v F T. rewrite on.
        eapply g_bind; [apply g_see|]. intros v' F' T'. rewrite told_.
        eapply g_bind; [apply H; congruence|]. intros v2 <- <-. apply g_ret.
      Qed.

      Lemma g_register u :
        gives (FileConc.register C D p (dir x)) u
          (match tables u (dir x) p with Some r => r | None => mkRow None None end)
          (files u)
          (match tables u (dir x) p with
           | Some _ => tables u | None => FileConc.set_row D (tables u) (dir x) p (Some (mkRow None None)) end).
      Proof using inside_.
        unfold FileConc.register, FileConc.ensure. rewrite inside_. eapply g_bind; [apply g_ret|]. intros v F T.
        unfold gives. rewrite T. destruct (tables u (dir x) p); eexists; (split; [reflexivity|]); cbn; rewrite ?T; auto.
      Qed.

      Lemma g_decache u :
        gives (FileConc.decache C D o (dir x) p (dir x)) u tt
          (if has (files u) p then FileConc.upd (files u) p None else files u)
          (FileConc.set_row D (tables u) (dir x) p None).
      Proof using same dir_there.
        unfold FileConc.decache. eapply g_bind; [apply g_exists|]. intros v F T.
        eexists. split; [reflexivity|]. cbn [files tables]. rewrite F, T. auto.
      Qed.

      Lemma g_make u :
        gives (FileConc.make C D o (dir x) p (Ok (c, d))) u d (FileConc.upd (files u) p (Some c)) (tables u).
      Proof using same dir_there.
        unfold FileConc.make. eapply g_bind; [apply g_see|]. intros v F T. rewrite dir_there.
        eapply g_bind; [apply g_see|]. intros v' F' T'. rewrite dir_there.
        eexists. split; [reflexivity|]. cbn [FileConc.with_files files tables]. rewrite F', T', F, T. auto.
      Qed.

      Lemma g_update u r fs ts :
        files u = fs -> tables u = ts -> fs p = Some c -> ts (dir x) p = Some r ->
        gives (FileConc.update_entry C D size_of o (dir x) p d (dir x)) u tt fs
          (FileConc.set_row D ts (dir x) p (Some (mkRow (Some (size_of c)) (Some d)))).
      Proof using same dir_there inside_.
        intros <- <- EF ET. unfold FileConc.update_entry, FileConc.ensure. rewrite inside_.
        eapply g_bind; [apply g_ret|]. intros v F T. eapply g_bind; [apply g_exists|]. intros v' F' T'.
        unfold has. rewrite F, EF. unfold gives. rewrite F', F, EF, T', T, ET.
        eexists. split; [reflexivity|]. cbn [FileConc.with_tables files tables]. rewrite F', F. auto.
      Qed.

      Lemma g_register1 u fs ts : files u = fs -> tables u = ts ->
        gives (FileConc.register C D p (dir x)) u
          (match ts (dir x) p with Some r => r | None => mkRow None None end) fs
          (match ts (dir x) p with
           | Some _ => ts | None => FileConc.set_row D ts (dir x) p (Some (mkRow None None)) end).
      Proof using inside_. intros <- <-. apply g_register. Qed.
      Lemma g_register2 u fs ts : files u = fs -> tables u = ts -> ts (dir x) p = None ->
        gives (FileConc.register C D p (dir x)) u (mkRow None None) fs (FileConc.set_row D ts (dir x) p (Some (mkRow None None))).
      Proof using inside_. intros F T E. pose proof (g_register1 u fs ts F T) as H. rewrite E in H. exact H. Qed.
      Lemma g_decache2 u fs ts : files u = fs -> tables u = ts ->
        gives (FileConc.decache C D o (dir x) p (dir x)) u tt
          (if has fs p then FileConc.upd fs p None else fs) (FileConc.set_row D ts (dir x) p None).
      Proof using same dir_there. intros <- <-. apply g_decache. Qed.

      (** Lines 1016-1026 *)
      Definition ending : FileConc.M C D string :=
        FileConc.bind C D (FileConc.exists_ C D o (dir x) p) (fun e => if e then FileConc.ret C D p else
        FileConc.bind C D (FileConc.exists_ C D o (dir x) p) (fun e => if e then FileConc.ret C D p else
        FileConc.bind C D (FileConc.make C D o (dir x) p (Ok (c, d))) (fun d0 =>
        FileConc.bind C D (FileConc.call_manager C D o (FileConc.update_entry C D size_of o (dir x) p d0))
          (fun _ => FileConc.ret C D p)))).

      Lemma g_end u r fs ts : files u = fs -> tables u = ts -> fs p = None -> ts (dir x) p = Some r ->
        gives ending u p (FileConc.upd fs p (Some c))
          (FileConc.set_row D ts (dir x) p (Some (mkRow (Some (size_of c)) (Some d)))).
      Proof using same dir_there on told_ inside_.
        intros <- <- EF ET. unfold ending. eapply g_bind; [apply g_exists|]. intros v F T. unfold has. rewrite EF. cbv iota.
        eapply g_bind; [apply g_exists|]. intros v2 F2 T2. unfold has. rewrite F, EF. cbv iota.
        eapply g_bind; [apply g_make|]. intros v3 F3 T3.
        eapply g_bind.
        - apply g_call. intros v4 F4 T4. apply (g_update v4 r).
          + rewrite F4, F3, F2, F. reflexivity.
          + rewrite T4, T3, T2, T. reflexivity.
          + apply upd_eq.
          + exact ET.
        - intros v5 F5 T5. rewrite <- F5, <- T5. apply g_ret.
      Qed.

      Lemma g_end_there u c0 fs ts : files u = fs -> tables u = ts -> fs p = Some c0 -> gives ending u p fs ts.
      Proof using same dir_there.
        intros <- <- EF. unfold ending. eapply g_bind; [apply g_exists|]. intros v F T. unfold has. rewrite EF. cbv iota.
        rewrite <- F, <- T. apply g_ret.
      Qed.

      Lemma g_wanted f r u :
        gives (FileConc.wanted C D f (Some r)) u (match f with Flag b => b | Ask g => g (r_data r) end) (files u) (tables u).
      Proof. destruct f as [b|g]; apply g_ret. Qed.
    End Managed.

    (** A managed policy: the file is returned and has its row; it is made if it was not there
        or is to be made again, and then the row has its size and data. *)
    Theorem C139_steady f (p := dir x ++ "/" ++ name) (old := tables w (dir x) p)
        (again := match f with Flag b => b | Ask g => g (match old with Some r => r_data r | None => None end) end) :
      managed x = true -> mdir x = dir x ->
      exists w', cache_file o name fresh f (Ok (c, d)) w = (w', Ok p) /\
        match files w p with
        | Some c0 =>
            if again then files w' p = Some c /\ tables w' (dir x) p = Some (mkRow (Some (size_of c)) (Some d))
            else files w' p = Some c0 /\
                 tables w' (dir x) p = Some (match old with Some r => r | None => mkRow None None end)
        | None => files w' p = Some c /\ tables w' (dir x) p = Some (mkRow (Some (size_of c)) (Some d))
        end.
    Proof using same dir_there.
      intros HM HD.
      assert (FileConc.inside (dir x) p = true) as HI by apply prefix_app.
      set (fs1 := files w).
      set (ts1 := match old with
                  | Some _ => tables w
                  | None => FileConc.set_row D (tables w) (dir x) p (Some (mkRow None None)) end).
      set (r1 := match old with Some r => r | None => mkRow None None end).
      assert (ts1 (dir x) p = Some r1) as HR1.
      { unfold ts1, r1, old. destruct (tables w (dir x) p) eqn:ET; [exact ET|apply set_row_same]. }
      assert (again = match f with Flag b => b | Ask g => g (r_data r1) end) as HA.
      { unfold again, r1. destruct f; [reflexivity|]. destruct old; reflexivity. }
      set (done := match files w p with Some _ => negb again | None => false end).
      assert (exists fs ts r, fs p = (if done then files w p else None) /\ ts (dir x) p = Some r /\ (done = true -> r = r1) /\
        gives (cache_file o name fresh f (Ok (c, d))) w p
          (if done then fs else FileConc.upd fs p (Some c))
          (if done then ts else FileConc.set_row D ts (dir x) p (Some (mkRow (Some (size_of c)) (Some d))))) as HG.
      { unfold FileConc.cache_file.
        assert (forall fs ts r, fs p = (if done then files w p else None) -> ts (dir x) p = Some r ->
          forall u, files u = fs -> tables u = ts ->
          gives (ending p) u p (if done then fs else FileConc.upd fs p (Some c))
            (if done then ts else FileConc.set_row D ts (dir x) p (Some (mkRow (Some (size_of c)) (Some d))))) as HE.
        { intros fs ts r E1 E2 u F T. destruct done eqn:ED.
          - unfold done in ED. destruct (files w p) as [c0|] eqn:EF; [|discriminate]. apply (g_end_there p u c0); assumption.
          - apply (g_end HM HD p HI u r); assumption. }
        assert (exists fs ts r, fs p = (if done then files w p else None) /\ ts (dir x) p = Some r /\ (done = true -> r = r1) /\
          forall u, files u = fs1 -> tables u = ts1 ->
          gives (FileConc.bind C D (FileConc.exists_ C D o (dir x) p) (fun e =>
            FileConc.bind C D (if e then
              FileConc.bind C D (FileConc.wanted C D f (Some r1)) (fun again0 =>
                if again0 then
                  FileConc.bind C D (FileConc.call_manager C D o (FileConc.decache C D o (dir x) p)) (fun _ =>
                  FileConc.bind C D (FileConc.call_manager C D o (FileConc.register C D p)) (fun _ => FileConc.ret C D tt))
                else FileConc.ret C D tt)
            else FileConc.ret C D tt) (fun _ => ending p))) u p
            (if done then fs else FileConc.upd fs p (Some c))
            (if done then ts else FileConc.set_row D ts (dir x) p (Some (mkRow (Some (size_of c)) (Some d))))) as HQ.
        { destruct (files w p) as [c0|] eqn:EF.
          - destruct again eqn:EA.
            + set (ts2 := FileConc.set_row D ts1 (dir x) p None).
              exists (FileConc.upd fs1 p None), (FileConc.set_row D ts2 (dir x) p (Some (mkRow None None))), (mkRow None None).
              split; [apply upd_eq|]. split; [apply set_row_same|]. split; [discriminate|].
              intros u F T. eapply g_bind; [apply g_exists|]. intros u1 F1 T1. unfold has. rewrite F. unfold fs1 at 1. rewrite EF.
              cbv iota. eapply g_bind; [|].
              * eapply g_bind; [apply g_wanted|]. intros u2 F2 T2. rewrite <- HA. cbv iota.
                eapply g_bind.
                { apply (g_call HM HD). intros v F3 T3.
                  apply (g_decache2 p v fs1 ts1); congruence. }
                intros u3 F3 T3. eapply g_bind.
                { apply (g_call HM HD). intros v F4 T4. apply (g_register2 p HI v (FileConc.upd fs1 p None) ts2).
                  - rewrite F4, F3. unfold has, fs1 at 1. rewrite EF. reflexivity.
                  - rewrite T4, T3. reflexivity.
                  - apply set_row_same. }
                intros u4 F4 T4. apply g_ret2; [exact F4|exact T4].
              * intros u5 F5 T5. apply (HE _ _ (mkRow None None)); [apply upd_eq|apply set_row_same|exact F5|exact T5].
            + exists fs1, ts1, r1. split; [exact EF|]. split; [exact HR1|]. split; [reflexivity|].
              intros u F T. eapply g_bind; [apply g_exists|]. intros u1 F1 T1. unfold has. rewrite F. unfold fs1 at 1. rewrite EF.
              cbv iota. eapply g_bind.
              * eapply g_bind; [apply g_wanted|]. intros u2 F2 T2. rewrite <- HA. cbv iota. apply g_ret2; [exact F2|exact T2].
              * intros u3 F3 T3. apply (HE fs1 ts1 r1); [exact EF|exact HR1|congruence|congruence].
          - exists fs1, ts1, r1. split; [exact EF|]. split; [exact HR1|]. split; [discriminate|].
            intros u F T. eapply g_bind; [apply g_exists|]. intros u1 F1 T1. unfold has. rewrite F. unfold fs1 at 1. rewrite EF.
            cbv iota. eapply g_bind; [apply g_ret|]. intros u3 F3 T3.
            apply (HE fs1 ts1 r1); [exact EF|exact HR1|congruence|congruence]. }
        destruct HQ as (fs & ts & r & E1 & E2 & E3 & HQ). exists fs, ts, r. split; [exact E1|]. split; [exact E2|]. split; [exact E3|].
        eapply g_bind; [apply g_see|]. intros u F T. rewrite HM. eapply g_bind; [apply g_see|]. intros u1 F1 T1.
        eapply g_bind.
        { apply (g_call HM HD). intros v F2 T2. apply (g_register1 p HI v fs1 (tables w)); [rewrite F2, F1, F|rewrite T2, T1, T]; reflexivity. }
        intros u2 F2 T2. apply HQ; [exact F2|exact T2]. }
      destruct HG as (fs & ts & r & E1 & E2 & E3 & w' & H & F & T). exists w'. split; [exact H|].
      rewrite F, T. unfold done in *. change (fs1 p) with (files w p). destruct (files w p) as [c0|] eqn:EF.
      - destruct again; cbn [negb] in *.
        + rewrite upd_eq, set_row_same. split; reflexivity.
        + rewrite E1, E2, (E3 eq_refl). split; reflexivity.
      - rewrite upd_eq, set_row_same. split; reflexivity.
    Qed.

    Definition fails {A} (m : FileConc.M C D A) (u : world) (e : exn) fs ts : Prop :=
      exists u', m u = (u', Raise e) /\ files u' = fs /\ tables u' = ts.
    Lemma f_bind {A B} (m : FileConc.M C D A) (k : A -> FileConc.M C D B) u e a fs ts fs' ts' :
      gives m u a fs ts -> (forall u', files u' = fs -> tables u' = ts -> fails (k a) u' e fs' ts') ->
      fails (FileConc.bind C D m k) u e fs' ts'.
    Proof. intros (u' & H & F & T) HK. unfold fails, FileConc.bind. rewrite H. apply HK; assumption. Qed.
    Lemma f_now {A B} (m : FileConc.M C D A) (k : A -> FileConc.M C D B) u e fs ts :
      fails m u e fs ts -> fails (FileConc.bind C D m k) u e fs ts.
    Proof. intros (u' & H & F & T). unfold fails, FileConc.bind. rewrite H. eexists. split; [reflexivity|]. auto. Qed.
    Lemma f_make p e u fs ts : files u = fs -> tables u = ts ->
      fails (FileConc.make C D o (dir x) p (Raise e)) u e fs ts.
    Proof using same dir_there.
      intros <- <-. unfold FileConc.make. eapply f_bind; [apply g_see|]. intros v F T. rewrite dir_there.
      unfold fails, FileConc.fail. eauto.
    Qed.

    (** [create] fails: its exception is the call's, there is no file, and the row is the one that was
        there, or one without size and data if there was none or the old file was to be replaced. *)
    Theorem C139_steady_failed f e (p := dir x ++ "/" ++ name) (old := tables w (dir x) p)
        (again := match f with Flag b => b | Ask g => g (match old with Some r => r_data r | None => None end) end) :
      managed x = true -> mdir x = dir x -> (files w p <> None -> again = true) ->
      exists w', cache_file o name fresh f (Raise e) w = (w', Raise e) /\ files w' p = None /\
        tables w' (dir x) p = Some (match files w p, old with None, Some r => r | _, _ => mkRow None None end).
    Proof using same dir_there.
      intros HM HD HW.
      assert (FileConc.inside (dir x) p = true) as HI by apply prefix_app.
      set (ts1 := match old with
                  | Some _ => tables w
                  | None => FileConc.set_row D (tables w) (dir x) p (Some (mkRow None None)) end).
      set (r1 := match old with Some r => r | None => mkRow None None end).
      assert (ts1 (dir x) p = Some r1) as HR1.
      { unfold ts1, r1, old. destruct (tables w (dir x) p) eqn:ET; [exact ET|apply set_row_same]. }
      assert (again = match f with Flag b => b | Ask g => g (r_data r1) end) as HA.
      { unfold again, r1. destruct f; [reflexivity|]. destruct old; reflexivity. }
      set (ts2 := FileConc.set_row D (FileConc.set_row D ts1 (dir x) p None) (dir x) p (Some (mkRow None None))).
      assert (fails (cache_file o name fresh f (Raise e)) w e
        (match files w p with Some _ => FileConc.upd (files w) p None | None => files w end)
        (match files w p with Some _ => ts2 | None => ts1 end)) as (w' & H & F & T).
      { unfold FileConc.cache_file. eapply f_bind; [apply g_see|]. intros u F T. rewrite HM.
        eapply f_bind; [apply g_see|]. intros u1 F1 T1. eapply f_bind.
        { apply (g_call HM HD). intros v F2 T2.
          apply (g_register1 p HI v (files w) (tables w)); [rewrite F2, F1, F|rewrite T2, T1, T]; reflexivity. }
        intros u2 F2 T2. fold old in T2. change (tables u2 = ts1) in T2.
        assert (forall u fs ts, files u = fs -> tables u = ts -> fs p = None ->
          fails (FileConc.bind C D (FileConc.exists_ C D o (dir x) p) (fun e0 => if e0 then FileConc.ret C D p else
            FileConc.bind C D (FileConc.exists_ C D o (dir x) p) (fun e0 => if e0 then FileConc.ret C D p else
            FileConc.bind C D (FileConc.make C D o (dir x) p (Raise e)) (fun d0 =>
            FileConc.bind C D (FileConc.call_manager C D o (FileConc.update_entry C D size_of o (dir x) p d0))
              (fun _ => FileConc.ret C D p))))) u e fs ts) as HE.
        { intros v fs ts <- <- EN. eapply f_bind; [apply g_exists|]. intros v1 F3 T3. unfold has. rewrite EN. cbv iota.
          eapply f_bind; [apply g_exists|]. intros v2 F4 T4. unfold has. rewrite F3, EN. cbv iota.
          apply f_now. apply f_make; congruence. }
        eapply f_bind; [apply g_exists|]. intros u3 F3 T3. unfold has. rewrite F2.
        change (FileConc.join (dir x) name) with p.
        destruct (files w p) as [c0|] eqn:EF; cbv iota.
        - eapply f_bind.
          + eapply g_bind; [exact (g_wanted f r1 u3)|]. intros u4 F4 T4. rewrite <- HA, HW by discriminate. cbv iota.
            eapply g_bind.
            { apply (g_call HM HD). intros v F5 T5. apply (g_decache2 p v (files w) ts1); congruence. }
            intros u5 F5 T5. eapply g_bind.
            { apply (g_call HM HD). intros v F6 T6.
              apply (g_register2 p HI v (FileConc.upd (files w) p None) (FileConc.set_row D ts1 (dir x) p None)).
              - rewrite F6, F5. unfold has. rewrite EF. reflexivity.
              - rewrite T6, T5. reflexivity.
              - apply set_row_same. }
            intros u6 F6 T6. apply g_ret2; [exact F6|exact T6].
          + intros u7 F7 T7. apply HE; [exact F7|exact T7|apply upd_eq].
        - eapply f_bind; [apply g_ret|]. intros u4 F4 T4. apply HE; [congruence|congruence|exact EF]. }
      exists w'. split; [exact H|]. rewrite F, T. destruct (files w p) as [c0|] eqn:EF.
      - split; [apply upd_eq|]. unfold ts2. apply set_row_same.
      - split; [exact EF|]. rewrite HR1. unfold r1. reflexivity.
    Qed.

    (** A policy that is not managed: a file with a new name, and no row. *)
    Theorem C139_steady_off f (p := dir x ++ "/" ++ fresh) :
      managed x = false -> files w p = None ->
      exists w', cache_file o name fresh f (Ok (c, d)) w = (w', Ok p) /\ files w' p = Some c /\ tables w' = tables w.
    Proof using same dir_there.
      intros HM EF.
      assert (gives (cache_file o name fresh f (Ok (c, d))) w p (FileConc.upd (files w) p (Some c)) (tables w)) as (w' & H & F & T).
      { unfold FileConc.cache_file. eapply g_bind; [apply g_see|]. intros u1 F1 T1. rewrite HM.
        eapply g_bind; [apply g_see|]. intros u2 F2 T2.
        eapply g_bind; [apply g_exists|]. intros u3 F3 T3. unfold has. rewrite F2, F1. fold p. 
        change (FileConc.join (dir x) fresh) with p. rewrite EF. cbv iota.
        eapply g_bind; [apply g_exists|]. intros u4 F4 T4. unfold has. rewrite F3, F2, F1, EF. cbv iota.
        eapply g_bind; [apply g_make|]. intros u5 F5 T5. apply g_ret2; [rewrite F5, F4, F3, F2, F1; reflexivity|congruence]. }
      exists w'. split; [exact H|]. rewrite F. split; [apply upd_eq|exact T].
    Qed.
  End Steady.
End C139.

(** *** Two settings that are both fine, one put in force while the call runs *)
Module C139Cases.
  Definition on (d : string) : now := mkNow true d d (fun _ => true).
  Definition off (d : string) : now := mkNow false d d (fun _ => true).
  (** The first [n] looks see [a], the others [b]. *)
  Definition change (n : nat) (a b : now) : nat -> now := fun k => if Nat.ltb k n then a else b.
  Definition nothing : FileConc.world nat nat := mkWorld (fun _ => None) (fun _ _ => None) 0.
  Definition one (p : string) (c : nat) (r : row nat) (d : string) : FileConc.world nat nat :=
    mkWorld (fun q => if String.eqb q p then Some c else None)
            (fun e q => if (String.eqb e d && String.eqb q p)%bool then Some r else None) 0.
  Notation run := (FileConc.cache_file (C:=nat) (D:=nat) Z.of_nat).
  Definition orderly (o : nat -> now) : Prop := (forall n, told (o n)) /\ (forall n, there (o n) (dir (o n)) = true).

  Lemma change_orderly n a b : told a -> told b -> there a (dir a) = true -> there b (dir b) = true -> orderly (change n a b).
  Proof. intros A B X Y. split; intros k; unfold change; destruct (Nat.ltb k n); assumption. Qed.
End C139Cases.
Import C139Cases.

(** The directory changed while the file was made: the call fails though the file is there, and
    its row has neither size nor data. *)
Theorem C139_asserted_refuted :
  exists n w', orderly (change n (on "/a") (on "/b")) /\
    run (change n (on "/a") (on "/b")) "f" "g" (Flag false) (Ok (7%nat, 3%nat)) nothing = (w', Raise AssertionError) /\
    files w' "/a/f" = Some 7%nat /\ tables w' "/a" "/a/f" = Some (mkRow None None).
Proof.
  exists 9%nat. eexists. split; [apply change_orderly; try reflexivity; intros _; reflexivity|].
  split; [vm_compute; reflexivity|]. split; reflexivity.
Qed.

(** The test of the directory compares strings: the row of a file of "/ab" gets into the table of "/a". *)
Theorem C139_prefix_refuted :
  exists n w', orderly (change n (on "/ab") (on "/a")) /\
    run (change n (on "/ab") (on "/a")) "f" "g" (Flag false) (Ok (7%nat, 3%nat)) nothing = (w', Ok "/ab/f") /\
    tables w' "/a" "/ab/f" = Some (mkRow (Some 7) (Some 3%nat)) /\ tables w' "/ab" "/ab/f" = None.
Proof.
  exists 2%nat. eexists. split; [apply change_orderly; try reflexivity; intros _; reflexivity|].
  split; [vm_compute; reflexivity|]. split; reflexivity.
Qed.

(** The policy was switched off: a file in the cache directory of which no table knows. *)
Theorem C139_unregistered_refuted :
  exists n w', orderly (change n (on "/a") (off "/b")) /\
    run (change n (on "/a") (off "/b")) "f" "g" (Flag false) (Ok (7%nat, 3%nat)) nothing = (w', Ok "/a/f") /\
    files w' "/a/f" = Some 7%nat /\ forall d q, tables w' d q = None.
Proof.
  exists 2%nat. eexists. split; [apply change_orderly; try reflexivity; intros _; reflexivity|].
  split; [vm_compute; reflexivity|]. split; reflexivity.
Qed.

(** A call that is to make the file again returns the old one and says nothing. *)
Theorem C139_force_refuted :
  exists n w', orderly (change n (on "/a") (off "/b")) /\
    run (change n (on "/a") (off "/b")) "f" "g" (Flag true) (Ok (7%nat, 3%nat))
      (one "/a/f" 5 (mkRow (Some 5) (Some 1%nat)) "/a") = (w', Ok "/a/f") /\
    files w' "/a/f" = Some 5%nat.
Proof.
  exists 5%nat. eexists. split; [apply change_orderly; try reflexivity; intros _; reflexivity|].
  split; [vm_compute; reflexivity|]. reflexivity.
Qed.

(** A function for [force] is asked about the record of a manager that was not called: TypeError. *)
Theorem C139_record_refuted :
  exists n w', orderly (change n (on "/a") (off "/b")) /\
    run (change n (on "/a") (off "/b")) "f" "g" (Ask (fun _ => false)) (Ok (7%nat, 3%nat))
      (one "/a/f" 5 (mkRow (Some 5) (Some 1%nat)) "/a") = (w', Raise TypeError).
Proof.
  exists 2%nat. eexists. split; [apply change_orderly; try reflexivity; intros _; reflexivity|].
  vm_compute. reflexivity.
Qed.

(** The temporary directory of a policy that is no longer in force is removed: the file cannot be made. *)
Definition gone (d e : string) : now := mkNow true e e (fun q => String.eqb q e).
Theorem C139_gone_refuted :
  exists n w', orderly (change n (on "/tmp/a") (gone "/tmp/a" "/b")) /\
    run (change n (on "/tmp/a") (gone "/tmp/a" "/b")) "f" "g" (Flag false) (Ok (7%nat, 3%nat)) nothing
      = (w', Raise FileNotFoundError).
Proof.
  exists 6%nat. eexists. split; [apply change_orderly; try reflexivity; intros _; reflexivity|].
  vm_compute. reflexivity.
Qed.

(** *** The hypotheses can be met *)
Example C139_steady_made :
  exists w', run (fun _ => on "/a") "f" "g" (Flag false) (Ok (7%nat, 3%nat)) nothing = (w', Ok "/a/f") /\
    files w' "/a/f" = Some 7%nat /\ tables w' "/a" "/a/f" = Some (mkRow (Some 7) (Some 3%nat)).
Proof. apply (C139_steady nat nat Z.of_nat (on "/a") eq_refl (fun _ => on "/a") "f" "g" 7%nat 3%nat nothing (fun _ => eq_refl) (Flag false) eq_refl eq_refl). Qed.
Example C139_steady_again :
  exists w', run (fun _ => on "/a") "f" "g" (Ask (fun d => match d with Some 1%nat => true | _ => false end)) (Ok (7%nat, 3%nat))
      (one "/a/f" 5 (mkRow (Some 5) (Some 1%nat)) "/a") = (w', Ok "/a/f") /\
    files w' "/a/f" = Some 7%nat /\ tables w' "/a" "/a/f" = Some (mkRow (Some 7) (Some 3%nat)).
Proof.
  apply (C139_steady nat nat Z.of_nat (on "/a") eq_refl (fun _ => on "/a") "f" "g" 7%nat 3%nat
    (one "/a/f" 5 (mkRow (Some 5) (Some 1%nat)) "/a") (fun _ => eq_refl)
    (Ask (fun d => match d with Some 1%nat => true | _ => false end)) eq_refl eq_refl).
Qed.
Example C139_steady_failed_case :
  exists w', run (fun _ => on "/a") "f" "g" (Flag true) (Raise RuntimeError)
      (one "/a/f" 5 (mkRow (Some 5) (Some 1%nat)) "/a") = (w', Raise RuntimeError) /\
    files w' "/a/f" = None /\ tables w' "/a" "/a/f" = Some (mkRow None None).
Proof.
  apply (C139_steady_failed nat nat Z.of_nat (on "/a") eq_refl (fun _ => on "/a") "f" "g"
    (one "/a/f" 5 (mkRow (Some 5) (Some 1%nat)) "/a") (fun _ => eq_refl) (Flag true) RuntimeError eq_refl eq_refl (fun _ => eq_refl)).
Qed.
Example C139_rows_apply :
  forall n, String.prefix (mdir (change 3 (on "/a") (on "/b") n)) "/a/f" = true -> mdir (change 3 (on "/a") (on "/b") n) = "/a".
Proof. intros n. unfold change. destruct (Nat.ltb n 3); [reflexivity|discriminate]. Qed.

Print Assumptions C139_returned.
Print Assumptions C139_raised.
Print Assumptions C139_others.
Print Assumptions C139_rows_partial.
Print Assumptions C139_steady.
Print Assumptions C139_steady_failed.
Print Assumptions C139_steady_off.
Print Assumptions C139_asserted_refuted.
Print Assumptions C139_prefix_refuted.
Print Assumptions C139_unregistered_refuted.
Print Assumptions C139_force_refuted.
Print Assumptions C139_record_refuted.
Print Assumptions C139_gone_refuted.
