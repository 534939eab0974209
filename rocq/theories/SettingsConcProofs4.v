(** A thread that is alone does what the same calls do one after the other. *)
From Verif Require Import PyBase ListLemmas MemCache MemCacheProofs MemCacheProofs2
  MemCacheConc MemCacheConcProofs SettingsConc SettingsConcProofs SettingsConcProofs2.
Set Default Proof Using "Type".

Section Alone.
  Variables Req Ent W C : Type.
  Variable key_of : Req -> string.
  Variable est_size : Ent -> Z.
  Variable size_of : W -> Z.
  Variable view : C -> mconf.
  Notation state := (MemCache.state W).
  Notation call := (SettingsConc.call Req Ent W C).
  Notation thread := (SettingsConc.thread Req Ent W C).
  Notation sys := (SettingsConc.sys Req Ent W C).
  Notation step1 := (SettingsConc.step1 key_of est_size size_of view).
  Notation steps := (SettingsConc.steps key_of est_size size_of view).
  Notation get := (MemCache.get (Req:=Req) (Ent:=Ent) (W:=W) key_of est_size size_of).

  (** What one call does to the configuration and the cache, and its exception. *)
  Definition call1 (a : call) (c : C) (s : state) : C * state * option fault :=
    match a with
    | Change fs =>
        let c' := fold_left (fun c f => f c) fs c in
        let '(s', x) := update (view c') s in
        (c', s', match x with Raise e => Some (InUpdate e) | _ => None end)
    | Get i r =>
        let '(s', _, x) := get i r s in
        (c, s', match x with Raise e => Some (InGet e) | _ => None end)
    | Clear => (c, clear s, None)
    | Info => (c, s, None)
    end.

  (** Calls one after the other; after an exception that is not caught there are no more. *)
  Fixpoint calls_in_turn (caught : bool) (l : list call) (c : C) (s : state) : C * state * list fault :=
    match l with
    | [] => (c, s, [])
    | a :: l =>
        let '(c1, s1, e) := call1 a c s in
        match e with
        | Some e =>
            if caught then let '(c2, s2, es) := calls_in_turn caught l c1 s1 in (c2, s2, e :: es)
            else (c1, s1, [e])
        | None => calls_in_turn caught l c1 s1
        end
    end.

  (** Only the number of steps of one thread matters; equality of threads is pointwise. *)
  Definition like (g g' : sys) : Prop :=
    conf g = conf g' /\ mem g = mem g' /\ slock g = slock g' /\ faults g = faults g' /\
    forall k, thr g k = thr g' k.

  Lemma like_refl g : like g g.
  Proof. repeat split. Qed.
  Lemma like_trans a b c : like a b -> like b c -> like a c.
  Proof.
    intros (A1 & A2 & A3 & A4 & A5) (B1 & B2 & B3 & B4 & B5).
    repeat split; congruence.
  Qed.

  Lemma put_like (f f' : nat -> thread) k t :
    (forall h, f h = f' h) -> forall h, put f k t h = put f' k t h.
  Proof. intros H h. unfold put. destruct (Nat.eqb h k); auto. Qed.

  Lemma step_like k g g' : like g g' -> like (step1 k g) (step1 k g').
  Proof.
    intros (A1 & A2 & A3 & A4 & A5). unfold SettingsConc.step1.
    rewrite <- (A5 k), <- A1, <- A2, <- A3, <- A4.
    destruct (place_ (thr g k)) as [|[|f fs]| | |ch|ch|ch r|a].
    - destruct (prog (thr g k)) as [|[fs|i r| |] rest]; try (repeat split; auto; apply put_like; exact A5).
      destruct (has_cache _); repeat split; auto; apply put_like; exact A5.
    - repeat split; auto; apply put_like; exact A5.
    - repeat split; auto; apply put_like; exact A5.
    - destruct (slock g) eqn:E; repeat split; auto; try (rewrite E; exact A3); try (apply put_like; exact A5).
    - destruct (set_max _ _). repeat split; auto; apply put_like; exact A5.
    - destruct (set_strict _ _). repeat split; auto; apply put_like; exact A5.
    - destruct (upd2 _ _ _). repeat split; auto; apply put_like; exact A5.
    - destruct (upd3 _ _ _ _). repeat split; auto; apply put_like; exact A5.
    - destruct (slock g) eqn:E; [repeat split; auto; rewrite E; exact A3|].
      destruct (MemCache.step _ _ _ _ _). repeat split; auto; apply put_like; exact A5.
  Qed.

  Lemma steps_like l : forall g g', like g g' -> like (steps l g) (steps l g').
  Proof. induction l as [|k l IH]; intros g g' H; cbn; [exact H|]. apply IH, step_like, H. Qed.

  Lemma steps_app l1 : forall l2 g, steps (l1 ++ l2) g = steps l2 (steps l1 g).
  Proof. induction l1 as [|x l1 IH]; intros l2 g; cbn; [reflexivity|apply IH]. Qed.

  Lemma put_put (f : nat -> thread) k t u h : put (put f k t) k u h = put f k u h.
  Proof. unfold put. destruct (Nat.eqb h k); reflexivity. Qed.

  Definition at_ (c : C) (s : state) (l : option nat) (f : nat -> thread) k pr pl ca es : sys :=
    mkSys c s l (put f k (mkThread pr pl ca)) es.

  Lemma like_at c s l f k pr pl ca pr' pl' ca' es :
    like (mkSys c s l (put (put f k (mkThread pr pl ca)) k (mkThread pr' pl' ca')) es)
         (at_ c s l f k pr' pl' ca' es).
  Proof. repeat split. intros h. apply put_put. Qed.

  Lemma write_all k f pr ca es fs : forall c s l,
    like (steps (repeat k (List.length fs)) (at_ c s l f k pr (Writing fs) ca es))
         (at_ (fold_left (fun c f => f c) fs c) s l f k pr (Writing []) ca es).
  Proof.
    induction fs as [|x fs IH]; intros c s l; cbn [List.length repeat SettingsConc.steps fold_left]; [apply like_refl|].
    unfold at_ at 1, SettingsConc.step1 at 1. cbn [thr]. rewrite put_same. cbn [place_ prog catches conf mem slock faults].
    eapply like_trans; [apply steps_like, like_at|]. apply IH.
  Qed.

  Lemma left_mk pr pl ca b : left_by (mkThread pr pl ca) b =
    mkThread (Req:=Req) (Ent:=Ent) (W:=W) (C:=C) (if b && negb ca then [] else pr) Ready ca.
  Proof. reflexivity. Qed.

  (** One call of a thread that nobody disturbs. *)
  Lemma call_alone k f a pr ca es c s c' s' e :
    call1 a c s = (c', s', e) ->
    exists n, like (steps (repeat k n) (at_ c s None f k (a :: pr) Ready ca es))
                   (at_ c' s' None f k (if is_some e && negb ca then [] else pr) Ready ca
                        (match e with Some e => (k, e) :: es | None => es end)).
  Proof.
    intros H. destruct a as [fs|i r| |].
    - unfold call1 in H. set (d := fold_left _ fs c) in *.
      destruct (update (view d) s) as [s1 x] eqn:EU. inversion H; subst c' s' e. clear H.
      exists (1 + (List.length fs + 6))%nat. rewrite repeat_app, repeat_app, !steps_app.
      cbn [repeat]. unfold at_ at 1. cbn [SettingsConc.steps]. unfold SettingsConc.step1 at 7. cbn [thr].
      rewrite put_same. cbn [place_ prog catches conf mem slock faults].
      assert (like (steps (repeat k (List.length fs))
                 (mkSys c s None (put (put f k (mkThread (Change fs :: pr) Ready ca)) k (mkThread pr (Writing fs) ca)) es))
                 (at_ d s None f k pr (Writing []) ca es)) as H1.
      { eapply like_trans; [apply steps_like, like_at|]. apply write_all. }
      eapply like_trans.
      { do 6 apply step_like. exact H1. }
      clear H1.
      (* Notify *)
      unfold at_ at 1. unfold SettingsConc.step1 at 6. cbn [thr]. rewrite put_same.
      cbn [place_ prog catches conf mem slock faults].
      eapply like_trans; [do 5 apply step_like; apply like_at|].
      (* lock *)
      unfold at_ at 1. unfold SettingsConc.step1 at 5. cbn [thr]. rewrite put_same.
      cbn [place_ prog catches conf mem slock faults].
      eapply like_trans; [do 4 apply step_like; apply like_at|].
      (* U1 *)
      unfold at_ at 1. unfold SettingsConc.step1 at 4. cbn [thr]. rewrite put_same.
      cbn [place_ prog catches conf mem slock faults].
      destruct (set_max _ _) as [s2 ch1] eqn:E1.
      eapply like_trans; [do 3 apply step_like; apply like_at|].
      (* U2 *)
      unfold at_ at 1. unfold SettingsConc.step1 at 3. cbn [thr]. rewrite put_same.
      cbn [place_ prog catches conf mem slock faults].
      destruct (set_strict _ _) as [s3 ch2] eqn:E2.
      eapply like_trans; [do 2 apply step_like; apply like_at|].
      (* U3 *)
      unfold at_ at 1. unfold SettingsConc.step1 at 2. cbn [thr]. rewrite put_same.
      cbn [place_ prog catches conf mem slock faults].
      destruct (upd2 _ _ _) as [s4 r] eqn:E3.
      eapply like_trans; [do 1 apply step_like; apply like_at|].
      (* U4 *)
      unfold at_ at 1. unfold SettingsConc.step1 at 1. cbn [thr]. rewrite put_same.
      cbn [place_ prog catches conf mem slock faults].
      destruct (upd3 _ _ _ _) as [s5 y] eqn:E4.
      assert (s5 = s1 /\ y = x) as [-> ->].
      { pose proof (update_split W (view d) s) as HU. rewrite EU in HU.
        pose proof (set_both W (c_max (view d)) (c_strict (view d)) (c_policy (view d)) s s2 ch1 s3 ch2 E1 E2) as HB.
        destruct (view d) as [vm vs vp] eqn:EV. cbn in HB. rewrite HB, E3, E4 in HU.
        inversion HU; auto. }
      rewrite left_mk. eapply like_trans; [apply like_at|].
      destruct x as [u|e|]; cbn [raised is_some note andb]; apply like_refl.
    - unfold call1 in H. destruct (get i r s) as [[s1 cl] x] eqn:EG. inversion H; subst c' s' e. clear H.
      destruct (has_cache (pol s)) eqn:EH.
      + exists 2%nat. cbn [repeat SettingsConc.steps]. unfold at_ at 1. unfold SettingsConc.step1 at 2. cbn [thr].
        rewrite put_same. cbn [place_ prog catches conf mem slock faults]. rewrite EH.
        eapply like_trans; [apply step_like; apply like_at|].
        unfold at_ at 1. unfold SettingsConc.step1 at 1. cbn [thr]. rewrite put_same.
        cbn [place_ prog catches conf mem slock faults op_of MemCache.step]. rewrite EG. rewrite left_mk.
        eapply like_trans; [apply like_at|].
        destruct x as [u|e|]; cbn [raised out_raised is_some note andb]; apply like_refl.
      + exists 1%nat. cbn [repeat SettingsConc.steps]. unfold at_ at 1. unfold SettingsConc.step1 at 1. cbn [thr].
        rewrite put_same. cbn [place_ prog catches conf mem slock faults]. rewrite EH. rewrite left_mk.
        eapply like_trans; [apply like_at|].
        unfold MemCache.get in EG. rewrite EH in EG. cbn [negb] in EG. inversion EG; subst.
        destruct (create i r) as [u|e|]; cbn [raised is_some note andb]; apply like_refl.
    - inversion H; subst. exists 2%nat. cbn [repeat SettingsConc.steps]. unfold at_ at 1.
      unfold SettingsConc.step1 at 2. cbn [thr].
      rewrite put_same. cbn [place_ prog catches conf mem slock faults].
      eapply like_trans; [apply step_like; apply like_at|].
      unfold at_ at 1. unfold SettingsConc.step1 at 1. cbn [thr]. rewrite put_same.
      cbn [place_ prog catches conf mem slock faults op_of MemCache.step]. rewrite left_mk. apply like_at.
    - inversion H; subst. exists 2%nat. cbn [repeat SettingsConc.steps]. unfold at_ at 1.
      unfold SettingsConc.step1 at 2. cbn [thr].
      rewrite put_same. cbn [place_ prog catches conf mem slock faults].
      eapply like_trans; [apply step_like; apply like_at|].
      unfold at_ at 1. unfold SettingsConc.step1 at 1. cbn [thr]. rewrite put_same.
      cbn [place_ prog catches conf mem slock faults op_of MemCache.step]. rewrite left_mk. apply like_at.
  Qed.

  Lemma run_alone k f ca l : forall c s es c' s' xs,
    calls_in_turn ca l c s = (c', s', xs) ->
    exists n, like (steps (repeat k n) (at_ c s None f k l Ready ca es))
                   (at_ c' s' None f k [] Ready ca (rev (map (pair k) xs) ++ es)).
  Proof.
    induction l as [|a l IH]; intros c s es c' s' xs H; cbn [calls_in_turn] in H.
    - inversion H; subst. exists 0%nat. apply like_refl.
    - destruct (call1 a c s) as [[c1 s1] e] eqn:E.
      destruct (call_alone k f a l ca es c s c1 s1 e E) as (n & Hn).
      destruct e as [e|].
      + destruct ca.
        * destruct (calls_in_turn true l c1 s1) as [[c2 s2] ys] eqn:E2. inversion H; subst.
          destruct (IH _ _ ((k, e) :: es) _ _ _ E2) as (m & Hm).
          exists (n + m)%nat. rewrite repeat_app, steps_app.
          eapply like_trans; [apply steps_like; exact Hn|]. cbn [is_some negb andb].
          eapply like_trans; [exact Hm|]. cbn [map rev]. rewrite <- app_assoc. apply like_refl.
        * inversion H; subst. exists n. eapply like_trans; [exact Hn|]. apply like_refl.
      + destruct (IH _ _ es _ _ _ H) as (m & Hm).
        exists (n + m)%nat. rewrite repeat_app, steps_app.
        eapply like_trans; [apply steps_like; exact Hn|]. exact Hm.
  Qed.
End Alone.
