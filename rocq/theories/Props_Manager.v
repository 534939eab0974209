(** C51 and C63: the manager of the disk cache and its locks. *)
From Verif Require Import PyBase Manager ManagerSpec ManagerProofs ManagerTerm ManagerPolicy.
Local Open Scope list_scope.

(** C51: whatever the clients and the schedule, requests are begun in order of arrival, each at
    most once, end as the request itself does, and their results go to those who made them.
    Partial: for requests (the manager's methods, [b] being its _config_changed) that do not use the cache
    themselves and do not end the thread; a matcher given to purge could, see below. *)
Theorem C51_served_partial : forall b cs sch s, (forall p, quiet (b p)) -> Forall client_ok cs ->
  run sch (start b cs) = Some s -> ok_trace (trace s).
Proof. intros b cs sch s QB QC R. apply i_trace, i_shared. apply (run_inv sch (start b cs)); [|exact R]. apply start_inv; assumption. Qed.

(** C63: no deadlock.  When nobody can move, all threads have ended, every request has been
    served and the locks are free. *)
Theorem C63_no_deadlock_partial : forall b cs sch s, (forall p, quiet (b p)) -> Forall client_ok cs ->
  run sch (start b cs) = Some s -> (forall w a, step w a s = None) -> complete s.
Proof.
  intros b cs sch s QB QC R ST. apply stuck_done; [|auto]. apply (run_inv sch (start b cs)); [|exact R]. apply start_inv; assumption.
Qed.
(** And there is no schedule that goes on for ever. *)
Theorem C63_every_schedule_ends_partial : forall b cs, (forall p, quiet (b p)) -> Forall client_ok cs ->
  forall ss : nat -> sys, ss 0%nat = start b cs -> ~ forall n, exists w a, step w a (ss n) = Some (ss (S n)).
Proof.
  intros b cs QB QC ss E H. pose proof (inv_acc _ (start_inv b cs QB QC)) as A. rewrite <- E in A. clear E.
  assert (X : forall s, Acc next s -> forall n, ss n = s -> False).
  { intros s AS. induction AS as [s _ IH]. intros n EN. apply (IH (ss (S n))) with (n := S n); [|reflexivity].
    destruct (H n) as (w & a & S). exists w, a. rewrite <- EN. exact S. }
  apply (X (ss 0%nat) A 0%nat). reflexivity.
Qed.
(** So from wherever a schedule has led, all can be completed. *)
Theorem C63_completes_partial : forall b cs sch s, (forall p, quiet (b p)) -> Forall client_ok cs ->
  run sch (start b cs) = Some s -> exists sch' s', run sch' s = Some s' /\ complete s'.
Proof.
  intros b cs sch s QB QC R. apply completes. apply (run_inv sch (start b cs)); [|exact R]. apply start_inv; assumption.
Qed.

(** ** What does not hold *)
Definition b0 (p : option pol) : proc := Done (Val VNone).
Definition once (m : meth) : client := CCall m (fun _ => CEnd).
(** cache.size(), cache.purge() *)
Definition size_job : proc := Oracle (fun _ => Done (Val (VData 7))).
(** cache.purge(matcher=...) with a matcher that calls cache.size() *)
Definition nested_job : proc := call_manager b0 false size_job (fun o => Done (Val VNone)).
Definition ok_pol : result pol := Ok (true, 0%nat).
Definition turns (w : who) (n : nat) : list (who * result pol) := repeat (w, ok_pol) n.

(** C63 refuted for a matcher that uses the cache: the thread that called purge waits for the manager while
    it has _manager_lock, and the manager waits for _manager_lock.  Nobody moves again. *)
Theorem C63_matcher_refuted : exists sch s, run sch (start b0 [once (MManager false nested_job)]) = Some s /\
  (forall w a, step w a s = None) /\ ~ complete s /\
  ml s = Some (Cl 0) /\ (exists k, smgr s = MRun 1 (Acq ML k) false) /\ (exists k, threads s = [(Await 1 k, true)]).
Proof.
  exists (turns (Cl 0) 11 ++ turns Mgr 4 ++ turns (Cl 0) 8 ++ turns Mgr 5).
  eexists. split; [vm_compute; reflexivity|]. split; [|split; [|split; [|split]]].
  - intros [|[|t]] a; try reflexivity. cbn. destruct t; reflexivity.
  - intros (H & _). destruct (H _ _ (or_introl eq_refl)) as [o X]. discriminate.
  - reflexivity.
  - eexists. reflexivity.
  - eexists. reflexivity.
Qed.
(** C63 and C51 refuted for a matcher that ends the thread (SystemExit is not an Exception): the caller
    waits for ever, and so does every thread that needs the manager afterwards. *)
Theorem C63_exit_refuted : exists sch s, run sch (start b0 [once (MManager false (Done Escaped)); once (MManager false size_job)]) = Some s /\
  (forall w a, step w a s = None) /\ ~ complete s /\ smgr s = MDead /\
  (exists k k', threads s = [(Await 1 k, true); (Acq ML k', false)]).
Proof.
  exists (turns (Cl 0) 11 ++ turns Mgr 4 ++ turns (Cl 0) 8 ++ turns Mgr 2 ++ turns (Cl 1) 4).
  eexists. split; [vm_compute; reflexivity|]. split; [|split; [|split]].
  - intros [|[|[|t]]] a; try reflexivity. cbn. destruct t; reflexivity.
  - intros (H & _). destruct (H _ _ (or_introl eq_refl)) as [o X]. discriminate.
  - reflexivity.
  - eexists. eexists. reflexivity.
Qed.

(** ** C86: what the manager is told *)
(** The client puts the request [job]; it changes the configuration. *)
Inductive makes : client -> proc -> Prop :=
| mk_here g job k : makes (CCall (MManager g job) k) job
| mk_later m k o job : makes (k o) job -> makes (CCall m k) job.
Inductive changes : client -> Prop :=
| chg_here k : changes (CCall MChanged k)
| chg_later m k o : changes (k o) -> changes (CCall m k).
Lemma client_in_of (J : proc -> Prop) ch c : (forall job, makes c job -> J job) -> (changes c -> ch = true) -> client_in J ch c.
Proof.
  induction c as [|m k IH]; intros HM HC; constructor.
  - intros g job ->. apply HM. constructor.
  - intros ->. apply HC. constructor.
  - intros o. apply IH; [intros job HJ; apply HM; econstructor; exact HJ|intros X; apply HC; econstructor; exact X].
Qed.
(** If one thread only changes the configuration, the manager is always told of a policy: every
    request is one of the clients' or _config_changed with a policy. *)
Theorem C86_one_thread_partial : forall b cs c sch s, (forall p, quiet (b p)) -> Forall client_ok cs ->
  (forall t cl, nth_error cs t = Some cl -> changes cl -> t = c) ->
  run sch (start b cs) = Some s ->
  forall w f job, In (EPut w f job) (trace s) ->
    (exists p, job = b (Some p)) \/ (exists t cl, nth_error cs t = Some cl /\ makes cl job).
Proof.
  intros b cs c sch s QB QC HC R.
  set (J := fun job => (exists p, job = b (Some p)) \/ (exists t cl, nth_error cs t = Some cl /\ makes cl job)).
  assert (I2 : inv2 J c s); [|intros w f job H; apply (proj2 I2 w f job H)].
  apply (run_inv2 J c sch (start b cs)); [apply start_inv; assumption| |exact R].
  apply start_inv2; [intros p; left; eauto|]. intros t cl E. apply client_in_of.
  - intros job H. right. eauto.
  - intros H. apply Nat.eqb_eq. eauto.
Qed.
(** Refuted for two threads: while one, having made its policy None, makes a new one, the other tells the manager
    of None (caching.py:796-797 read self._policy without its lock).  Nothing else failed (all answers are Ok, and
    the manager's _config_changed fails for None only), and the change of the configuration
    raises AttributeError. *)
Definition b1 (p : option pol) : proc :=
  match p with None => Done (Raised AttributeError) | Some _ => Done (Val VNone) end.
Theorem C86_two_threads_refuted : exists sch s, run sch (start b1 [once MChanged; once MChanged]) = Some s /\
  (forall w a, In (w, a) sch -> exists q, a = Ok q) /\
  In (EPut (Cl 1) 1 (b1 None)) (trace s) /\ In (EGot (Cl 1) 1 (Raised AttributeError)) (trace s).
Proof.
  exists (turns (Cl 1) 12 ++ turns Mgr 3 ++ turns (Cl 1) 4 ++ [(Cl 1, Ok (false, 0%nat))] ++ turns (Cl 1) 8 ++ turns (Cl 0) 9 ++
          turns (Cl 1) 3 ++ turns Mgr 3 ++ turns (Cl 1) 2).
  eexists. split; [vm_compute; reflexivity|]. split; [|split].
  - intros w a H. cbn in H. repeat (destruct H as [H|H]; [injection H as <- <-; eexists; reflexivity|]). destruct H.
  - cbn. repeat ((left; reflexivity) || right).
  - cbn. repeat ((left; reflexivity) || right).
Qed.

(** ** The hypotheses are met *)
Example C51_hyp : (forall p, quiet (b1 p)) /\ Forall client_ok [once MPolicy; once MChanged; once (MManager false size_job); once (MManager true size_job)] /\
  exists sch s, run sch (start b1 [once (MManager false size_job)]) = Some s /\ complete s /\
    trace s = [EPut (Cl 0) 0 (b1 (Some (true, 0%nat))); EStart 0; EStore 0 (Val VNone); EGot (Cl 0) 0 (Val VNone);
               EPut (Cl 0) 1 size_job; EStart 1; EStore 1 (Val (VData 7)); EGot (Cl 0) 1 (Val (VData 7))].
Proof.
  split; [intros [p|]; constructor|]. split.
  - repeat constructor; try (intros; discriminate); intros g job [= <- <-]; constructor; constructor.
  - exists (turns (Cl 0) 11 ++ turns Mgr 4 ++ turns (Cl 0) 8 ++ turns Mgr 4 ++ turns (Cl 0) 2).
    eexists. split; [vm_compute; reflexivity|]. split; [|reflexivity].
    repeat split.
    + intros p z [[= <- <-]|[]]. eauto.
    + cbn. intros f [<-|[<-|[]]]; eexists; repeat ((left; reflexivity) || right).
Qed.

Print Assumptions C51_served_partial.
Print Assumptions C63_no_deadlock_partial.
Print Assumptions C63_every_schedule_ends_partial.
Print Assumptions C63_completes_partial.
Print Assumptions C63_matcher_refuted.
Print Assumptions C63_exit_refuted.
Print Assumptions C86_one_thread_partial.
Print Assumptions C86_two_threads_refuted.
