(** Property C13: threads sharing the memory cache.  Model: MemCacheConc.v. *)
From Verif Require Import PyBase ListLemmas MemCache MemCacheSpec.
From Verif Require Import MemCacheProofs MemCacheProofs2 MemCacheProofs3 MemCacheProofs4 MemCacheDemo.
From Verif Require Import MemCacheConc MemCacheConcProofs.

Local Open Scope string_scope.
Local Open Scope list_scope.
Local Open Scope Z_scope.

Section Statements.
Context {Req Ent W : Type} (key_of : Req -> string) (est_size : Ent -> Z) (size_of : W -> Z).
Context (size_nonneg : forall w, 0 <= size_of w).
Notation exec := (exec Req Ent W key_of est_size size_of).
Notation start := (start Req Ent W).
Notation serial := (serial Req Ent W key_of est_size size_of).
Notation serial_state := (serial_state Req Ent W key_of est_size size_of).
Notation tstep := (tstep Req Ent W key_of est_size size_of).
Notation lock := (lock Req Ent W).
Notation shared := (shared Req Ent W).
Notation threads := (threads Req Ent W).
Notation results := (results Req Ent W).
Notation at_ := (at_ Req Ent W).
Notation prog := (prog Req Ent W).

(** C13: any interleaving of any number of threads is equivalent to a one-at-a-time
    execution [lin]: (1) [lin] is a sequential run of the cache giving exactly the
    recorded results; (2) when nobody holds the lock the cache is in the state that
    run ends in; (3) every thread got the results [lin] has for it, in its own order
    (at most one more being on its way back); (4) each thread's operations are those
    of its program, in program order; (5) real time: cutting the execution at any
    moment, [lin] can be cut so that every operation that had returned is before the
    cut and every operation not yet called is after it. *)
Theorem C13_linearisable : forall s (progs : nat -> list (op Req Ent W)) g tr,
  exec (start s progs) g tr ->
  exists lin,
    serial s lin /\
    (lock g = None -> shared g = serial_state s lin) /\
    (forall t, exists pending, of_thread t lin = results (threads g t) ++ pending /\
       (List.length pending <= 1)%nat /\ (at_ (threads g t) = Idle _ _ _ -> pending = [])) /\
    (forall t, exists rest, progs t = map fst (of_thread t lin) ++ rest) /\
    (forall tr1 tr2, tr = tr1 ++ tr2 -> exists lin1 lin2, lin = lin1 ++ lin2 /\
      forall t, (count_ret t tr1 <= List.length (of_thread t lin1) <= count_inv t tr1)%nat).
Proof. exact (linearisable _ _ _ key_of est_size size_of). Qed.

(** C13: no deadlock: while any thread has something left to do, some thread can move. *)
Theorem C13_progress : forall s (progs : nat -> list (op Req Ent W)) g tr,
  exec (start s progs) g tr ->
  (exists t, at_ (threads g t) <> Idle _ _ _ \/ prog (threads g t) <> []) ->
  exists t g' evs, tstep t g g' evs.
Proof. exact (progress _ _ _ key_of est_size size_of). Qed.

(** C13 with C03: under threads too, weights obtained through the cache are those of
    the inventory. *)
Theorem C13_threads_transparent : forall i c (progs : nat -> list (op Req Ent W)) g tr t r cl x,
  (forall r1 r2, key_of r1 = key_of r2 -> create i r1 = create i r2) ->
  (forall t, only_inventory i (progs t)) ->
  exec (start (fst (init c)) progs) g tr ->
  In (OpGet i r, OutGet cl (Ok x)) (results (threads g t)) -> create i r = Ok x.
Proof.
  intros i c progs g tr t r cl x HK HO HE HI.
  destruct (C13_linearisable _ _ _ _ HE) as (lin & HS & _ & HR & HP & _).
  destruct (HR t) as (p & Hp & _).
  assert (HI' : In (OpGet i r, OutGet cl (Ok x)) (of_thread t lin)).
  { rewrite Hp. apply in_or_app. left. exact HI. }
  unfold of_thread in HI'. apply in_map_iff in HI'. destruct HI' as ([t' ox] & E & HI').
  cbn in E. subst ox. apply filter_In in HI'. destruct HI' as [HI' _].
  apply in_split in HI'. destruct HI' as (l1 & l2 & El).
  unfold MemCacheConc.serial in HS. rewrite El, !map_app in HS. cbn [map fst snd] in HS.
  rewrite run_app in HS.
  destruct (MemCache.run _ _ _ (fst (init c)) (map (fun p => fst (snd p)) l1)) as [s1 xs1] eqn:E1.
  cbn [run] in HS. destruct (MemCache.step _ _ _ s1 (OpGet i r)) as [s2 x2] eqn:E2.
  destruct (MemCache.run _ _ _ s2 _) as [s3 xs3]. cbn in HS.
  assert (List.length xs1 = List.length (map (fun p : nat * (op Req Ent W * out Req Ent W) => snd (snd p)) l1)) as HLen.
  { pose proof (run_length _ _ _ key_of est_size size_of (fst (init c)) (map (fun p => fst (snd p)) l1)) as HX.
    rewrite E1 in HX. cbn in HX. rewrite HX. rewrite !map_length. reflexivity. }
  assert (x2 = OutGet cl (Ok x)) as ->.
  { clear - HS HLen. revert HS HLen.
    generalize (map (fun p : nat * (op Req Ent W * out Req Ent W) => snd (snd p)) l1) as ys.
    induction xs1 as [|a xs1 IH]; intros [|b ys] HS HLen; cbn in *; try discriminate; inversion HS; auto.
    eapply IH; [eassumption|lia]. }
  cbn in E2. destruct (MemCache.get _ _ _ i r s1) as [[s2' cl'] d] eqn:EG. inversion E2; subst.
  assert (s1 = after key_of est_size size_of c (map (fun p => fst (snd p)) l1)) as ->.
  { unfold after. rewrite E1. reflexivity. }
  refine (transparent _ _ _ key_of est_size size_of size_nonneg i c _ r _ _ _ HK _ EG x eq_refl).
  intros j q Hin. apply in_map_iff in Hin. destruct Hin as ([t2 [o2 x2]] & Eo & Hin). cbn in Eo. subst o2.
  destruct (HP t2) as (rest & HPr). apply (HO t2 j q). rewrite HPr. apply in_or_app. left.
  apply in_map_iff. exists (OpGet j q, x2). split; [reflexivity|].
  unfold of_thread. apply in_map_iff. exists (t2, (OpGet j q, x2)). split; [reflexivity|].
  apply filter_In. split; [|cbn; apply Nat.eqb_refl]. apply in_or_app. left. exact Hin.
Qed.

(** C13 with C02: whenever the lock is free and no configuration change has raised in
    any thread, a limited cache is strictly below its maximum (or empty). *)
Theorem C13_threads_bound : forall c (progs : nat -> list (op Req Ent W)) g tr m,
  snd (@init W c) = Ok tt ->
  exec (start (fst (init c)) progs) g tr ->
  lock g = None ->
  (forall t, at_ (threads g t) = Idle _ _ _) ->
  (forall t o r, In (o, OutUpdate r) (results (threads g t)) -> r = Ok tt) ->
  limited (shared g) -> max_mem (shared g) = Some m ->
  total_held (shared g) < m \/ items (shared g) = [].
Proof.
  intros c progs g tr m HI HE HL HQ HU HM1 HM2.
  destruct (C13_linearisable _ _ _ _ HE) as (lin & HS & HF & HR & _ & _).
  rewrite (HF HL) in *.
  set (ops := map (fun p : nat * (op Req Ent W * out Req Ent W) => fst (snd p)) lin) in *.
  change (serial_state (fst (init c)) lin) with (after key_of est_size size_of c ops) in *.
  assert (updates_ok key_of est_size size_of c ops) as HOK.
  { split; [exact HI|]. intros o r Hin. unfold trace in Hin. unfold MemCacheConc.serial in HS.
    fold ops in HS. rewrite HS in Hin.
    assert (exists t, In (t, (o, OutUpdate r)) lin) as [t Hin'].
    { clear - Hin. subst ops. induction lin as [|[t [o' x']] lin IH]; cbn in Hin; [contradiction|].
      destruct Hin as [E|Hin]; [inversion E; subst; exists t; left; reflexivity|].
      destruct (IH Hin) as [t' H]. exists t'. right. exact H. }
    destruct (HR t) as (p & Hp & _ & Hid). rewrite (Hid (HQ t)), app_nil_r in Hp.
    apply (HU t o r). rewrite <- Hp. unfold of_thread. apply in_map_iff.
    exists (t, (o, OutUpdate r)). split; [reflexivity|]. apply filter_In. split; [exact Hin'|]. cbn. apply Nat.eqb_refl. }
  destruct (after_ginv _ _ _ key_of est_size size_of size_nonneg c ops HOK) as (HV & _ & HB).
  unfold bounded in HB. destruct HV as (HV & _).
  change (total_held (after key_of est_size size_of c ops)) with (curr_mem_of (items (after key_of est_size size_of c ops))).
  rewrite <- HV. destruct HM1 as [HM1|HM1]; rewrite HM1 in HB; apply HB; exact HM2.
Qed.
End Statements.

Print Assumptions C13_linearisable.
Print Assumptions C13_progress.
Print Assumptions C13_threads_transparent.
Print Assumptions C13_threads_bound.

(** *** Examples *)

(** Deterministic choice of the rule that applies to thread [t]; used to build
    concrete executions. *)
Section Sched.
  Notation dsys := (MemCacheConc.sys string (Z * N) (Z * N)).
  Notation R := string. Notation E := (Z * N)%type.
  Definition go (t : nat) (g : dsys) : dsys * list event :=
    let th := threads R E E g t in
    let put s l p res cur ev :=
      (mkSys R E E s l (upd_thread R E E (threads R E E g) t (mkThread R E E p ev res cur))) in
    match at_ R E E th with
    | Idle _ _ _ => match prog R E E th with
              | [] => (g, [])
              | o :: rest => (put (shared R E E g) (lock R E E g) rest (results R E E th) (Some o) (Start R E E o), [EInv t])
              end
    | Start _ _ _ (OpGet i r) =>
        if has_cache (pol (shared R E E g))
        then (put (shared R E E g) (lock R E E g) (prog R E E th) (results R E E th) (current R E E th) (Wait R E E (OpGet i r)), [])
        else (put (shared R E E g) (lock R E E g) (prog R E E th) (results R E E th) (current R E E th)
                  (Ret R E E (OutGet (create_calls i r) (create i r))), [])
    | Start _ _ _ o => (put (shared R E E g) (lock R E E g) (prog R E E th) (results R E E th) (current R E E th) (Wait R E E o), [])
    | Wait _ _ _ o => match lock R E E g with
                | None => (put (shared R E E g) (Some t) (prog R E E th) (results R E E th) (current R E E th) (Body R E E o), [])
                | Some _ => (g, [])
                end
    | Body _ _ _ (OpUpdate c) =>
        let '(s', ch) := upd1 _ c (shared R E E g) in
        (put s' (lock R E E g) (prog R E E th) (results R E E th) (current R E E th) (Upd2 R E E c ch), [])
    | Body _ _ _ o =>
        let '(s', x) := step dkey dest dsize (shared R E E g) o in
        (put s' (lock R E E g) (prog R E E th) (results R E E th) (current R E E th) (Rel R E E x), [])
    | Upd2 _ _ _ c ch =>
        let '(s', r) := upd2 _ c (shared R E E g) in
        (put s' (lock R E E g) (prog R E E th) (results R E E th) (current R E E th) (Upd3 R E E ch r), [])
    | Upd3 _ _ _ ch r =>
        let '(s', x) := upd3 _ ch r (shared R E E g) in
        (put s' (lock R E E g) (prog R E E th) (results R E E th) (current R E E th) (Rel R E E (OutUpdate x)), [])
    | Rel _ _ _ x => (put (shared R E E g) None (prog R E E th) (results R E E th) (current R E E th) (Ret R E E x), [])
    | Ret _ _ _ x => match current R E E th with
               | Some o => (put (shared R E E g) (lock R E E g) (prog R E E th) (results R E E th ++ [(o, x)]) None (Idle R E E), [ERet t])
               | None => (g, [])
               end
    end.

  Lemma go_sound g t : fst (go t g) = g \/
    tstep R E E dkey dest dsize t g (fst (go t g)) (snd (go t g)).
  Proof.
    unfold go. destruct (at_ R E E (threads R E E g t)) as [ |o|o|o|c ch|ch r|x|x] eqn:EA.
    - destruct (prog R E E (threads R E E g t)) eqn:EP; [left; reflexivity|right].
      cbn. eapply TCall; eassumption.
    - right. destruct o as [i r|c| |].
      + destruct (has_cache _) eqn:EH; cbn; [eapply TOn|eapply TOff]; eassumption.
      + cbn. eapply TOther; [eassumption|discriminate].
      + cbn. eapply TOther; [eassumption|discriminate].
      + cbn. eapply TOther; [eassumption|discriminate].
    - destruct (lock R E E g) eqn:EL; [left; reflexivity|right]. cbn. eapply TLock; eassumption.
    - right. destruct o as [i r|c| |].
      + destruct (step _ _ _ _ _) as [s' x] eqn:ES. cbn [fst snd].
        eapply TBody; [eassumption|discriminate|eassumption].
      + destruct (upd1 _ _ _) as [s' ch] eqn:ES. cbn [fst snd]. eapply TUpd1; eassumption.
      + destruct (step _ _ _ _ _) as [s' x] eqn:ES. cbn [fst snd].
        eapply TBody; [eassumption|discriminate|eassumption].
      + destruct (step _ _ _ _ _) as [s' x] eqn:ES. cbn [fst snd].
        eapply TBody; [eassumption|discriminate|eassumption].
    - right. destruct (upd2 _ _ _) as [s' r] eqn:ES. cbn [fst snd]. eapply TUpd2; eassumption.
    - right. destruct (upd3 _ _ _ _) as [s' x] eqn:ES. cbn [fst snd]. eapply TUpd3; eassumption.
    - right. cbn. eapply TRel; eassumption.
    - destruct (current R E E (threads R E E g t)) eqn:EC; [right|left; reflexivity].
      cbn. eapply TRet; eassumption.
  Qed.

  Fixpoint goes (sched : list nat) (g : dsys) : dsys :=
    match sched with [] => g | t :: r => goes r (fst (go t g)) end.

  Lemma goes_exec sched g0 g tr : exec R E E dkey dest dsize g0 g tr ->
    exists tr', exec R E E dkey dest dsize g0 (goes sched g) tr'.
  Proof.
    revert g tr. induction sched as [|t sched IH]; intros g tr H; cbn; [eauto|].
    destruct (go_sound g t) as [->|HS]; [eauto|]. eapply IH. eapply exec_step; eassumption.
  Qed.
End Sched.

(** Two threads: 0 gets "a" three times, 1 switches the cache off and on again.  The
    second get of thread 0 sees the policy "off" while thread 1 is still inside its
    update, holding the lock. *)
Definition cprogs (t : nat) : list dop :=
  match t with
  | 0%nat => [OpGet invA "a"; OpGet invA "a"; OpGet invA "a"]
  | 1%nat => [OpUpdate off_; OpUpdate lru60]
  | _ => []
  end.
Definition sched1 : list nat :=
  ([0;0;0;0;0;0] ++ [1;1;1;1;1] ++ [0;0;0] ++ [1;1;1] ++ [1;0;1;1;1;1;1;1;1] ++ [0;0;0;0;0;0])%nat.
Definition cstart := start string (Z * N) (Z * N) (fst (init lru60)) cprogs.

Example C13_example : exists g tr,
  exec _ _ _ dkey dest dsize cstart g tr /\
  results _ _ _ (threads _ _ _ g 0%nat) =
    [(OpGet invA "a", OutGet [CFind "a"; CLoad (1, 10%N)] (Ok (Some (1, 10%N))));
     (OpGet invA "a", OutGet [CFind "a"; CLoad (1, 10%N)] (Ok (Some (1, 10%N))));
     (OpGet invA "a", OutGet [CFind "a"; CLoad (1, 10%N)] (Ok (Some (1, 10%N))))] /\
  results _ _ _ (threads _ _ _ g 1%nat) =
    [(OpUpdate off_, OutUpdate (Ok tt)); (OpUpdate lru60, OutUpdate (Ok tt))] /\
  lock _ _ _ g = None.
Proof.
  destruct (goes_exec sched1 cstart cstart [] (exec_nil _ _ _ _ _ _ _)) as [tr H].
  exists (goes sched1 cstart), tr. split; [exact H|]. vm_compute. auto.
Qed.
(** ... where after the first 14 steps thread 0 has two results while thread 1 holds the lock. *)
Example C13_example_overlap :
  let g := goes (firstn 14 sched1) cstart in
  lock _ _ _ g = Some 1%nat /\ List.length (results _ _ _ (threads _ _ _ g 0%nat)) = 2%nat.
Proof. vm_compute. auto. Qed.
