(** C138: settings changed by threads and the memory cache that reads them back. *)
From Verif Require Import PyBase ListLemmas MemCache MemCacheProofs MemCacheProofs2 MemCacheConc MemCacheDemo
  SettingsConc SettingsConcProofs SettingsConcProofs2 SettingsConcProofs3 SettingsConcProofs4.
Set Default Proof Using "Type".

(** The four policies (memcache.py:66-170), and the ones that need a limit. *)
Definition limited (p : string) : Prop := (p = "lru" \/ p = "largest")%string.
Definition named (p : string) : Prop := (p = "off" \/ p = "unlimited")%string \/ limited p.
(** Settings that are accepted when they are the only ones: a limited policy has a limit
    above zero. *)
Definition sound (c : mconf) : Prop :=
  named (c_policy c) /\ (limited (c_policy c) -> exists m, c_max c = Some m /\ 0 < m).
(** The cache works with the settings [c]. *)
Definition working {W} (c : mconf) (s : MemCache.state W) : Prop :=
  f_policy (info s) = c_policy c /\
  (c_policy c = "off"%string -> items s = []) /\
  (limited (c_policy c) -> max_mem s = c_max c /\ strict s = c_strict c /\
     forall m, c_max c = Some m -> curr_mem s < m \/ items s = []).

Lemma sound_fits c : sound c -> fits c.
Proof.
  intros [[[H|H]|H] L]; [left; exact H|right; left; exact H|right; right].
  destruct (L H) as (m & A & B). exists m. auto.
Qed.
Lemma named_known c : named (c_policy c) -> known c.
Proof. unfold named, limited, known. tauto. Qed.
Lemma force_working {W} c (s : MemCache.state W) : in_force W c s -> working c s.
Proof.
  intros [A B]. unfold working, limited. cbn. split; [exact A|]. rewrite <- A.
  destruct (pol s); cbn; split; auto; try discriminate; intros [H|H]; try discriminate; exact B.
Qed.

Section C138.
  Variables Req Ent W C : Type.
  Variable key_of : Req -> string.
  Variable est_size : Ent -> Z.
  Variable size_of : W -> Z.
  Variable view : C -> mconf.
  Notation steps := (SettingsConc.steps key_of est_size size_of view).
  Notation sys := (SettingsConc.sys Req Ent W C).
  Notation call := (SettingsConc.call Req Ent W C).

  (** The threads' assignments lead from configurations in [K] to configurations in [K]. *)
  Definition stay (K : C -> Prop) (progs : nat -> list call * bool) : Prop :=
    forall k fs f c, In (Change fs) (fst (progs k)) -> In f fs -> K c -> K (f c).
  (** Thread [k] is between its first assignment and the moment [update] starts to read. *)
  Definition telling (g : sys) (k : nat) : Prop :=
    (exists fs, place_ (thr g k) = Writing fs) \/ place_ (thr g k) = Notify \/ place_ (thr g k) = U1.

  Section With.
    Variable K : C -> Prop.
    Variable progs : nat -> list call * bool.
    Variables (c0 : C) (s0 : MemCache.state W) (r0 : result unit).
    Hypothesis size_nonneg : forall w, 0 <= size_of w.
    Hypothesis K_named : forall c, K c -> named (c_policy (view c)).
    Hypothesis K_stay : stay K progs.
    Hypothesis K_first : K c0.
    (** memcache.py:221: the cache was made with the configuration of the start. *)
    Hypothesis made : init (view c0) = (s0, r0).

    Lemma run_J l : J Req Ent W C view K (steps l (start c0 s0 progs)).
    Proof using size_nonneg K_named K_stay K_first made.
      apply steps_J; [intros c H; apply named_known; auto|exact size_nonneg|].
      assert (tame W (@fresh W)) as HT.
      { destruct (fresh_ginv W) as (A & B & D). split; [exact A|]. cbn in *. intros m Hm Hp. apply D. exact Hm. }
      destruct (update_tame W (view c0) fresh HT) as [A B]; [apply named_known; auto|].
      unfold init in made. rewrite made in A, B.
      apply start_J; [exact K_first|exact A| |].
      - intros F. apply B. exact F.
      - intros k fs Hf f Hin c Hc. eapply K_stay; eauto.
    Qed.

    (** Whenever nobody is telling the cache about a change and nobody holds its lock, the
        cache works with the settings of the moment, whatever exceptions there were before. *)
    Theorem C138_in_force l (g := steps l (start c0 s0 progs)) :
      slock g = None -> (forall k, ~ telling g k) -> sound (view (conf g)) ->
      working (view (conf g)) (mem g).
    Proof using size_nonneg K_named K_stay K_first made.
      intros HL HQ HS. destruct (run_J l) as (_ & _ & _ & HC & _). fold g in HC.
      unfold cond in HC. rewrite HL in HC. destruct HC as [_ HC].
      apply force_working, HC; [|apply sound_fits; exact HS].
      intros k. specialize (HQ k). unfold telling in HQ. fold g.
      destruct (place_ (thr g k)) eqn:E; try reflexivity; exfalso; apply HQ; eauto.
    Qed.

    (** In particular when all threads have ended. *)
    Theorem C138_ended l (g := steps l (start c0 s0 progs)) :
      done g -> sound (view (conf g)) -> slock g = None /\ working (view (conf g)) (mem g).
    Proof using size_nonneg K_named K_stay K_first made.
      intros HD HS.
      assert (slock g = None) as HL.
      { destruct (run_J l) as (_ & _ & HH & _). fold g in HH.
        destruct (slock g) as [h|] eqn:E; [|reflexivity].
        destruct (HD h) as [D _]. destruct (HH h) as [_ X]. rewrite D in X.
        discriminate (X eq_refl). }
      split; [exact HL|]. apply C138_in_force; [exact HL| |exact HS].
      intros k. destruct (HD k) as [D _]. unfold telling. fold g. rewrite D.
      intros [(fs & E)|[E|E]]; discriminate.
    Qed.

    (** At every moment at which nobody holds the lock the sizes are accounted for and a
        usable limit is respected. *)
    Theorem C138_bounded l (g := steps l (start c0 s0 progs)) :
      slock g = None ->
      f_currsize (info (mem g)) = fold_right Z.add 0 (map (fun x => it_size (snd x)) (items (mem g))) /\
      NoDup (map fst (items (mem g))) /\
      (f_policy (info (mem g)) = "off"%string -> items (mem g) = []) /\
      (forall m, limited (f_policy (info (mem g))) -> f_maxsize (info (mem g)) = Some m -> 0 < m ->
         f_currsize (info (mem g)) < m \/ items (mem g) = []).
    Proof using size_nonneg K_named K_stay K_first made.
      intros HL. destruct (run_J l) as (_ & _ & _ & HC & _). fold g in HC.
      unfold cond in HC. rewrite HL in HC. destruct HC as [(HI & HT) _].
      destruct HI as (I1 & I2 & I3). cbn. split.
      { rewrite I1. unfold curr_mem_of. clear. induction (items (mem g)) as [|x l0 IH]; cbn; [reflexivity|].
        rewrite <- IH. reflexivity. }
      split; [rewrite <- akeys_map; exact I2|]. split.
      - intros E. destruct (pol (mem g)); try discriminate; exact HT.
      - intros m E. unfold limited in E. destruct (pol (mem g)); try (destruct E; discriminate); auto.
    Qed.

    (** An update raises only for a limit and a policy that do not go together, each of a
        configuration that was in force. *)
    Theorem C138_faults l k e (g := steps l (start c0 s0 progs)) :
      In (k, InUpdate e) (faults g) ->
      exists a b, K a /\ K b /\ limited (c_policy (view b)) /\
        match c_max (view a) with
        | None => e = TypeError
        | Some m => m <= 0 /\ e = ValueError
        end.
    Proof using size_nonneg K_named K_stay K_first made.
      intros HI. destruct (run_J l) as (_ & _ & _ & _ & HF). specialize (HF _ HI).
      destruct HF as (m & p & (a & Ka & <-) & (b & Kb & <-) & HP & HM).
      exists a, b. split; [exact Ka|]. split; [exact Kb|]. split; [exact HP|].
      destruct HM as [[-> ->]|(z & -> & Hz & ->)]; auto.
    Qed.

    (** So if every limit goes with every policy, no update raises. *)
    Theorem C138_no_faults l k e :
      (forall a b, K a -> K b -> sound (mkConf (c_max (view a)) (c_strict (view a)) (c_policy (view b)))) ->
      ~ In (k, InUpdate e) (faults (steps l (start c0 s0 progs))).
    Proof using size_nonneg K_named K_stay K_first made.
      intros HS HI. destruct (C138_faults l k e HI) as (a & b & Ka & Kb & HP & HM).
      destruct (HS a b Ka Kb) as [_ HX]. destruct (HX HP) as (m & E & Hm). cbn in E.
      rewrite E in HM. destruct HM. lia.
    Qed.

    (** [n] threads can be run to their end from wherever they are: nobody waits for ever
        for the lock. *)
    Theorem C138_can_finish l n :
      (forall k, (n <= k)%nat -> fst (progs k) = []) ->
      exists l', (forall k, In k l' -> (k < n)%nat) /\ done (steps (l ++ l') (start c0 s0 progs)).
    Proof using size_nonneg K_named K_stay K_first made.
      intros HN.
      assert (forall l1 l2 g, steps (l1 ++ l2) g = steps l2 (steps l1 g)) as HA.
      { induction l1 as [|x l1 IH]; intros l2 g; cbn; [reflexivity|apply IH]. }
      assert (forall j g, (forall k, (n <= k)%nat -> work _ _ _ _ (thr g k) = 0%nat) ->
                forall k, (n <= k)%nat -> work _ _ _ _ (thr (steps j g) k) = 0%nat) as HZ.
      { induction j as [|x j IH]; intros g H; cbn; [exact H|]. apply IH.
        intros k Hk. destruct (step_works _ _ _ _ key_of est_size size_of view x g) as (S1 & _ & S3).
        destruct (Nat.eq_dec k x) as [->|N]; [|rewrite S1 by exact N; auto].
        rewrite S3; auto. }
      set (good := fun g : sys => exists j, g = steps j (start c0 s0 progs)).
      destruct (can_end Req Ent W C key_of est_size size_of view good) with
        (n := n) (m := total Req Ent W C n (thr (steps l (start c0 s0 progs))))
        (g := steps l (start c0 s0 progs)) as (l' & A & _ & B).
      - intros g (j & ->). destruct (run_J j) as (_ & _ & HH & _). exact HH.
      - intros k g (j & ->). exists (j ++ [k]). rewrite HA. reflexivity.
      - exists l. reflexivity.
      - lia.
      - apply HZ. intros k Hk. cbn. unfold work. cbn. rewrite HN by exact Hk. reflexivity.
      - exists l'. split; [exact A|]. rewrite HA. exact B.
    Qed.
  End With.

  (** A thread that nobody disturbs does what the same calls do one after the other
      ([calls_in_turn]), whatever the other threads were about to do. *)
  Theorem C138_alone (g : sys) k c' s' xs :
    slock g = None -> place_ (thr g k) = Ready ->
    calls_in_turn Req Ent W C key_of est_size size_of view (catches (thr g k)) (prog (thr g k)) (conf g) (mem g)
      = (c', s', xs) ->
    exists n, let g' := steps (repeat k n) g in
      conf g' = c' /\ mem g' = s' /\ slock g' = None /\
      faults g' = rev (map (fun x => (k, x)) xs) ++ faults g /\
      place_ (thr g' k) = Ready /\ prog (thr g' k) = [] /\
      (forall h, h <> k -> thr g' h = thr g h).
  Proof.
    intros HL HP H. destruct g as [c s l f es]. cbn in *. subst l.
    destruct (run_alone Req Ent W C key_of est_size size_of view k f (catches (f k)) (prog (f k)) c s es _ _ _ H)
      as (n & Hn).
    exists n.
    assert (like Req Ent W C (mkSys c s None f es) (at_ _ _ _ _ c s None f k (prog (f k)) Ready (catches (f k)) es)) as H0.
    { split; [reflexivity|]. split; [reflexivity|]. split; [reflexivity|]. split; [reflexivity|]. cbn. intros h.
      destruct (Nat.eq_dec h k) as [->|N]; [|rewrite put_other by exact N; reflexivity].
      rewrite put_same. rewrite <- HP. destruct (f k); reflexivity. }
    pose proof (steps_like _ _ _ _ key_of est_size size_of view (repeat k n) _ _ H0) as H1.
    pose proof (like_trans _ _ _ _ _ _ _ H1 Hn) as (A1 & A2 & A3 & A4 & A5).
    rewrite !A5. cbn in *. rewrite put_same. repeat split; auto.
    intros h N. rewrite A5. cbn. apply put_other. exact N.
  Qed.
End C138.

(** *** Threads whose settings are each accepted alone *)
Definition none_unl := mkConf None false "unlimited".
Definition demo_progs (k : nat) : list (call string (Z * N) (Z * N) mconf) * bool :=
  match k with
  | 0 => ([Change [fun _ => none_unl]], false)
  | 1 => ([Change [fun _ => lru60]], false)
  | 2 => ([Get invA "b"%string], false)
  | _ => ([], false)
  end%nat.
Definition demo_start := start lru60 (fst (init lru60)) demo_progs.
Notation demo_steps := (SettingsConc.steps dkey dest dsize (fun c : mconf => c)).
Definition demo_K (c : mconf) : Prop := c = lru60 \/ c = none_unl.

Lemma demo_stay : stay string (Z * N) (Z * N) mconf demo_K demo_progs.
Proof.
  intros [|[|[|k]]] fs f c; cbn; intros H Hf _; try contradiction;
    destruct H as [H|[]]; inversion H; subst; destruct Hf as [<-|[]]; unfold demo_K; auto.
Qed.
Lemma demo_sound c : demo_K c -> sound c.
Proof.
  intros [-> | ->]; split; unfold named, limited; cbn; auto.
  - intros _. exists 60. split; [reflexivity|lia].
  - intros [H|H]; discriminate.
Qed.

(** The claim that a thread which changes to accepted settings gets no exception is false:
    it reads the limit of its own settings and the policy of the other thread's. *)
Theorem C138_mixture_refuted :
  (forall c, demo_K c -> sound c /\ forall s, Inv (Z * N) s -> snd (update c s) = Ok tt) /\
  exists l, done (demo_steps l demo_start) /\ In (0%nat, InUpdate TypeError) (faults (demo_steps l demo_start)).
Proof.
  split.
  - intros c H. split; [apply demo_sound; exact H|]. intros s HI.
    apply MemCacheProofs4.good_limit; [exact HI|]. apply sound_fits, demo_sound. exact H.
  - exists [0; 0; 0; 0; 0; 1; 1; 0; 0; 0; 1; 1; 1; 1; 1; 1; 2; 2]%nat. split.
    + intros [|[|[|k]]]; vm_compute; auto.
    + vm_compute. auto.
Qed.

(** Nor is a thread that only reads matrices safe: between the failed update and the next
    one it gets the exception. *)
Theorem C138_reader_refuted :
  exists l, In (2%nat, InGet TypeError) (faults (demo_steps l demo_start)) /\ done (demo_steps l demo_start) /\
    snd (dget invA "b"%string (fst (init lru60))) = Ok (Some (1, 20%N)) /\
    snd (dget invA "b"%string (fst (init none_unl))) = Ok (Some (1, 20%N)).
Proof.
  exists [0; 0; 0; 0; 0; 1; 1; 0; 0; 0; 2; 2; 1; 1; 1; 1; 1; 1]%nat. split; [vm_compute; auto|].
  split; [intros [|[|[|k]]]; vm_compute; auto|]. split; reflexivity.
Qed.

(** Between a change and its notification the cache still works with the settings before:
    the hypothesis about threads that are telling the cache is needed. *)
Theorem C138_at_once_refuted :
  exists l, slock (demo_steps l demo_start) = None /\ faults (demo_steps l demo_start) = [] /\
    conf (demo_steps l demo_start) = none_unl /\ ~ working none_unl (mem (demo_steps l demo_start)).
Proof.
  exists [0; 0]%nat. split; [reflexivity|]. split; [reflexivity|]. split; [reflexivity|].
  intros [H _]. vm_compute in H. discriminate.
Qed.

(** *** The hypotheses are met *)
(** After the exception of the first theorem the cache works with the settings in force. *)
Example C138_hyp_ended : exists l,
  let g := demo_steps l demo_start in
  done g /\ faults g = [(0%nat, InUpdate TypeError)] /\ conf g = lru60 /\ sound (conf g) /\
  max_mem (mem g) = Some 60 /\ map fst (items (mem g)) = ["b"%string].
Proof.
  exists [0; 0; 0; 0; 0; 1; 1; 0; 0; 0; 1; 1; 1; 1; 1; 1; 2; 2]%nat. cbv zeta.
  split; [intros [|[|[|k]]]; vm_compute; auto|]. split; [reflexivity|]. split; [reflexivity|].
  split; [apply demo_sound; left; reflexivity|]. split; reflexivity.
Qed.
Example C138_demo_ended l :
  done (demo_steps l demo_start) ->
  working (conf (demo_steps l demo_start)) (mem (demo_steps l demo_start)).
Proof.
  intros D.
  assert (forall c, demo_K c -> named (c_policy c)) as HN by (intros c H; apply demo_sound; exact H).
  assert (@init (Z * N) lru60 = (fst (@init (Z * N) lru60), Ok tt)) as HM by reflexivity.
  destruct (run_J _ _ _ _ dkey dest dsize (fun c => c) demo_K demo_progs lru60 _ _ dsize_nonneg HN demo_stay
              (or_introl eq_refl) HM l) as (HK & _).
  destruct (C138_ended _ _ _ _ dkey dest dsize (fun c => c) demo_K demo_progs lru60 _ _ dsize_nonneg HN demo_stay
              (or_introl eq_refl) HM l D) as [_ H]; [apply demo_sound; exact HK|exact H].
Qed.
(** Settings every limit and policy of which go together. *)
Example C138_hyp_no_faults :
  let K := fun c => c = lru60 \/ c = largest60s in
  forall a b, K a -> K b -> sound (mkConf (c_max a) (c_strict a) (c_policy b)).
Proof.
  intros K a b [-> | ->] [-> | ->]; (split; [unfold named, limited; cbn; auto|]);
    intros _; exists 60; (split; [reflexivity|lia]).
Qed.
(** A refused change ends a thread that does not catch the exception, and its clear is not made. *)
Example C138_hyp_alone :
  let s := fst (fst (dget invA "b"%string (fst (init lru60)))) in
  let l := [Change [fun _ => mkConf None false "lru"]; Clear] in
  let turn := calls_in_turn _ _ _ mconf dkey dest dsize (fun c => c) in
  map fst (items s) = ["b"%string] /\
  (let '(_, s1, e1) := turn false l lru60 s in map fst (items s1) = ["b"%string] /\ e1 = [InUpdate TypeError]) /\
  (let '(_, s2, e2) := turn true l lru60 s in items s2 = [] /\ e2 = [InUpdate TypeError]).
Proof. vm_compute. auto. Qed.

Print Assumptions C138_in_force.
Print Assumptions C138_ended.
Print Assumptions C138_bounded.
Print Assumptions C138_faults.
Print Assumptions C138_no_faults.
Print Assumptions C138_can_finish.
Print Assumptions C138_alone.
Print Assumptions C138_mixture_refuted.
Print Assumptions C138_reader_refuted.
Print Assumptions C138_at_once_refuted.
