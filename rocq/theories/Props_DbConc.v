(** C135: threads looking up weights in one local inventory. *)
From Verif Require Import PyBase ListLemmas PyStr Float64 GridSpec GridVocab GridProofs Index IndexSpec IndexProofs IndexProofs2 Db MemCache Inventory Regrid
  System SystemSpec SystemProofs Props_System DbConc DbConcProofs DbConcProofs2 DbConcProofs3.
Set Default Proof Using "Type".
Local Open Scope string_scope.
Local Open Scope list_scope.

Section Any.
  Context {A rest : Type}.
  Variables (py_str : val -> string) (key_order : list string) (fuel : nat).
  Variable files : fs rest (csr A).
  Variable path : string.
  Notation run := (run py_str key_order fuel files path).
  Notation weights_for := (weights_for py_str key_order fuel files path).
  Notation no_weights_for := (no_weights_for py_str key_order fuel files path).
  Notation alone := (alone py_str key_order fuel files path).
  Notation W := (weights A).
  Notation state := (@state A rest).
  Implicit Types (c : call) (y : result (option W)) (progs : nat -> list call) (l : list nat).

  (** The grids of the calls are dicts: no key twice. *)
  Definition dicts progs : Prop := forall n c, In c (progs n) -> NoDup (akeys (c_in c)) /\ NoDup (akeys (c_out c)).
  (** So is the object of the index file. *)
  Definition proper_index : Prop := forall f m, read_index (join_path path "index.json") files = Ok f -> f_matrix f = Some m -> NoDup (akeys m).
  (** The answer that the inventory has for a call: its weights if it has them, nothing if no entry
      answers, an exception if a grid is refused. *)
  Definition right_answer c y : Prop :=
    (forall gi go, IndexSpec.request (c_in c) (c_out c) gi go ->
       (forall z s, y = Ok (Some (z, s)) <-> weights_for gi go (c_method c) z s) /\ (y = Ok None <-> no_weights_for gi go (c_method c))) /\
    (forall w, y = Ok w -> exists gi go, IndexSpec.request (c_in c) (c_out c) gi go).
  (** The calls that thread [n] made, is making and has still to make are those of its program. *)
  Definition in_order (p : list call) (g : state) (n : nat) : Prop :=
    map fst (results (threads g n)) ++ match doing (threads g n) with Some c => [c] | None => [] end ++ todo (threads g n) = p.
  (** All calls of thread [n] can still be finished. *)
  Definition can_finish (p : list call) (g : state) (n : nat) : Prop := exists l, map fst (results (threads (run g l) n)) = p.

  Lemma request_is c gi go : IndexSpec.request (c_in c) (c_out c) gi go <-> request_of c = Ok (gi, go, c_method c).
  Proof.
    unfold request_of, IndexSpec.request. split; [intros [-> ->]; reflexivity|].
    destruct (from_dict (c_in c)) as [a|x|]; try discriminate. destruct (from_dict (c_out c)) as [b|x|]; try discriminate. cbn. intros H. injection H as -> ->. auto.
  Qed.
  Lemma alone_right c : right_answer c (alone c).
  Proof.
    split.
    - intros gi go RQ. apply request_is in RQ. unfold DbConcProofs.alone. rewrite RQ. cbn [bind]. unfold DbConcProofs.alone_req. split.
      + intros z s. rewrite weights_first. split.
        * destruct (local_index path files) as [i|x|]; try discriminate. cbn [bind]. destruct (IndexProofs.first py_str key_order fuel i gi go (method_alias (c_method c))) as [[e|]|x|] eqn:F; try discriminate. cbn [bind].
          destruct (load_weights files path e) as [w|x|] eqn:LW; try discriminate. cbn. intros H. injection H as ->. apply load_ok in LW. destruct LW as (p & LW). exists i, e, p. auto.
        * intros (i & e & p & -> & F & LW). cbn [bind]. rewrite F. cbn [bind]. rewrite (proj2 (load_ok files path e z s) (ex_intro _ p LW)). reflexivity.
      + rewrite no_first. split.
        * destruct (local_index path files) as [i|x|]; try discriminate. cbn [bind]. destruct (IndexProofs.first py_str key_order fuel i gi go (method_alias (c_method c))) as [[e|]|x|] eqn:F; try discriminate; [|intros _; exists i; auto].
          cbn [bind]. destruct (load_weights files path e) as [w|x|]; discriminate.
        * intros (i & -> & F). cbn [bind]. rewrite F. reflexivity.
    - intros w. unfold DbConcProofs.alone. destruct (request_of c) as [[[gi go] m]|x|] eqn:E; try discriminate. intros _. exists gi, go. apply request_is. rewrite E. unfold request_of in E.
      destruct (from_dict (c_in c)); try discriminate E. destruct (from_dict (c_out c)); try discriminate E. injection E as _ _ <-. reflexivity.
  Qed.
  Lemma book_order p (g : state) n : kept_book p (threads g n) -> in_order p g n.
  Proof. intros (E & _). exact E. Qed.
  Lemma finishing progs (g : state) n : (forall m, kept_book (progs m) (threads g m)) -> lock_inv g -> can_finish (progs n) g n.
  Proof.
    intros B LI. destruct (all_ends py_str key_order fuel files path _ g n LI eq_refl) as (l & E1 & E2). exists l. destruct (run_book py_str key_order fuel files path progs g l B n) as (E & I1 & _).
    rewrite E2, (I1 E1) in E. cbn [List.app] in E. rewrite app_nil_r in E. exact E.
  Qed.
  Lemma dicts_neat progs : dicts progs -> forall n, Forall neat (progs n).
  Proof. intros D n. apply Forall_forall. intros c I. exact (D n c I). Qed.

  (** Memory cache on: lookups are made under its lock.  Whatever the schedule, every thread gets
      for each of its calls what the inventory has for it, and no thread waits for ever. *)
  Theorem C135_locked progs l n : dicts progs -> (forall m c, In c (progs m) -> c_locked c = true) ->
    let g := run (start progs) l in
    in_order (progs n) g n /\ can_finish (progs n) g n /\ forall c y, In (c, y) (results (threads g n)) -> right_answer c y.
  Proof.
    intros D LK g. assert (B : forall m, kept_book (progs m) (threads g m)) by (apply run_book; intros m; apply start_book).
    split; [apply book_order, B|]. split; [apply finishing; [exact B|apply run_lock, start_lock]|]. intros c y I.
    assert (AL : all_locked progs) by (intros m; apply Forall_forall; intros c' J; exact (conj (D m c' J) (LK m c' J))).
    pose proof (proj2 (run_locked py_str key_order fuel files path progs l AL) n) as F. rewrite Forall_forall in F. specialize (F _ I). cbn [fst snd] in F. rewrite F. apply alone_right.
  Qed.

  (** Memory cache on or off, whatever the schedule: weights that a call gets are those of the
      inventory, and a call that they exist for gets them, or is told that there are none, or raises
      RuntimeError.  (What is missing: it always gets them, see the two theorems below.) *)
  Theorem C135_any_partial progs l n : proper_index -> dicts progs ->
    let g := run (start progs) l in
    in_order (progs n) g n /\ can_finish (progs n) g n /\
    forall c y, In (c, y) (results (threads g n)) ->
      right_answer c y \/ y = Ok None \/ y = Raise RuntimeError.
  Proof.
    intros PI D g. assert (B : forall m, kept_book (progs m) (threads g m)) by (apply run_book; intros m; apply start_book).
    split; [apply book_order, B|]. split; [apply finishing; [exact B|apply run_lock, start_lock]|]. intros c y I.
    assert (NL : forall i, listed files path = Ok i -> NoDup (akeys i)).
    { intros i. unfold listed. destruct (read_index (join_path path "index.json") files) as [f|x|] eqn:RI; try discriminate. cbn [bind].
      destruct (f_version f) as [v|]; [|discriminate]. destruct (v =? VERSION)%Z; [|discriminate]. destruct (f_matrix f) as [m|] eqn:FM; [|discriminate]. intros H. injection H as <-. exact (PI f m RI FM). }
    pose proof (run_fine py_str key_order fuel files path NL progs l (dicts_neat progs D) n) as F. rewrite Forall_forall in F. specialize (F _ I). cbn [fst snd] in F.
    destruct F as [->|F]; [left; apply alone_right|right; exact F].
  Qed.
  Corollary C135_never_wrong progs l n c z s : proper_index -> dicts progs ->
    In (c, Ok (Some (z, s))) (results (threads (run (start progs) l) n)) ->
    exists gi go, IndexSpec.request (c_in c) (c_out c) gi go /\ weights_for gi go (c_method c) z s.
  Proof.
    intros PI D I. destruct (C135_any_partial progs l n PI D) as (_ & _ & F). destruct (F _ _ I) as [(F1 & F2)|[H|H]]; try discriminate H.
    destruct (F2 _ eq_refl) as (gi & go & RQ). exists gi, go. split; [exact RQ|]. apply (F1 gi go RQ). reflexivity.
  Qed.

  (** Memory cache on or off, if the index was loaded before and the inventory has weights for all
      calls: every call gets them, whatever the schedule. *)
  Theorem C135_loaded i progs l n : local_index path files = Ok i -> dicts progs ->
    (forall m c, In c (progs m) -> exists gi go z s, IndexSpec.request (c_in c) (c_out c) gi go /\ weights_for gi go (c_method c) z s) ->
    let g := run (start_loaded i progs) l in
    in_order (progs n) g n /\ can_finish (progs n) g n /\ forall c y, In (c, y) (results (threads g n)) -> right_answer c y.
  Proof.
    intros LI D HW g. assert (B : forall m, kept_book (progs m) (threads g m)) by (apply run_book; intros m; apply start_book).
    split; [apply book_order, B|]. split; [apply finishing; [exact B|apply run_lock, start_lock]|]. intros c y I.
    assert (HH : forall m, Forall (hit py_str key_order fuel i) (progs m)).
    { intros m. apply Forall_forall. intros c' J. split; [exact (D m c' J)|]. intros gi go me E. destruct (HW m c' J) as (gi' & go' & z & s & RQ & WF). apply request_is in RQ. rewrite RQ in E. injection E as -> -> <-.
      apply weights_first in WF. destruct WF as (i' & e & p & L & F & _). rewrite LI in L. injection L as <-. rewrite F. discriminate. }
    pose proof (run_loaded py_str key_order fuel files path i LI progs l HH n) as F. rewrite Forall_forall in F. specialize (F _ I). cbn [fst snd] in F. rewrite F. apply alone_right.
  Qed.
End Any.

(** ** Without the lock: the memory cache has the policy "off" *)
Definition conc_good (locked : bool) : call := mkCall demo_in demo_out "linear" locked.
Definition conc_bad (locked : bool) : call := mkCall demo_in demo_out "nn" locked.
Notation conc_run := (run demo_py COMPARE_KEYS 10 demo_files "a").
Notation conc_weights := (weights_for demo_py COMPARE_KEYS 10 demo_files "a").
(** Three threads (or two) make one call each, for weights that the inventory has. *)
Definition three (locked : bool) (n : nat) : list call := if Nat.ltb n 3 then [conc_good locked] else [].
Definition two (locked : bool) (n : nat) : list call := if Nat.ltb n 2 then [conc_good locked] else [].
(** Threads 0 and 2 find no index; 0 makes an empty one; 1 looks into it, loads the index again,
    2 replaces it by an empty one, 1 looks into that. *)
Definition lost : list nat := (repeat 0 2 ++ repeat 2 2 ++ [0] ++ repeat 1 10 ++ [2] ++ repeat 1 4)%nat.
(** Thread 0 adds an entry to the index while thread 1 goes through it. *)
Definition changed : list nat := (repeat 0 4 ++ repeat 1 4 ++ [0] ++ repeat 1 2)%nat.

Lemma demo_dicts b n c : In c (three b n) \/ In c (two b n) \/ In c [conc_bad b; conc_good b] -> NoDup (akeys (c_in c)) /\ NoDup (akeys (c_out c)).
Proof.
  destruct demo_plain as [[P1 _] [P2 _]]. unfold three, two. intros [H|[H|H]]; [destruct (Nat.ltb n 3)|destruct (Nat.ltb n 2)|]; cbn in H; repeat (destruct H as [<-|H]; [exact (conj P1 P2)|]); contradiction.
Qed.
(** A call is told that there are no weights, with which [regrid] raises ValueError, though the
    inventory has them for all calls made. *)
Theorem C135_lost_refuted :
  dicts (three false) /\ (forall n c, In c (three false n) -> conc_weights demo_gi demo_go (c_method c) matrix_a (VList [VInt 2])) /\
  results (threads (conc_run (start (three false)) lost) 1%nat) = [(conc_good false, Ok None)].
Proof.
  split; [intros n c H; apply (demo_dicts false n); auto|]. split; [|vm_compute; reflexivity].
  intros n c H. unfold three in H. destruct (Nat.ltb n 3); [|contradiction]. destruct H as [<-|[]]. apply demo_weights_for; [auto|vm_compute; reflexivity].
Qed.
(** Two calls made at the same time to an inventory not used before: one raises RuntimeError. *)
Theorem C135_changed_refuted :
  dicts (two false) /\ (forall n c, In c (two false n) -> conc_weights demo_gi demo_go (c_method c) matrix_a (VList [VInt 2])) /\
  results (threads (conc_run (start (two false)) changed) 1%nat) = [(conc_good false, Raise RuntimeError)].
Proof.
  split; [intros n c H; apply (demo_dicts false n); auto|]. split; [|vm_compute; reflexivity].
  intros n c H. unfold two in H. destruct (Nat.ltb n 2); [|contradiction]. destruct H as [<-|[]]. apply demo_weights_for; [auto|vm_compute; reflexivity].
Qed.

(** ** The hypotheses are met *)
Example C135_index_met : proper_index demo_files "a".
Proof. intros f m R F. vm_compute in R. injection R as <-. cbn in F. injection F as <-. cbn. repeat constructor; cbn; intuition discriminate. Qed.
Definition mixed (n : nat) : list call := match n with 0%nat => [conc_bad true; conc_good true] | 1%nat => [conc_good true; conc_bad true] | _ => [] end.
Example C135_locked_met : dicts mixed /\ (forall n c, In c (mixed n) -> c_locked c = true).
Proof.
  split.
  - intros n c H. apply (demo_dicts true n c). right. right. destruct n as [|[|n]]; cbn in H |- *; tauto.
  - intros [|[|n]] c H; cbn in H; intuition (subst; reflexivity).
Qed.
(** Both schedules from above, and one by turns. *)
Example C135_locked_runs :
  results (threads (conc_run (start (three true)) (lost ++ repeat 0 20 ++ repeat 1 20)%nat) 1%nat) = [(conc_good true, Ok (Some (matrix_a, VList [VInt 2])))] /\
  results (threads (conc_run (start mixed) (List.concat (repeat [0; 1] 60))%nat) 0%nat) = [(conc_bad true, Ok None); (conc_good true, Ok (Some (matrix_a, VList [VInt 2])))] /\
  results (threads (conc_run (start mixed) (List.concat (repeat [0; 1] 60))%nat) 1%nat) = [(conc_good true, Ok (Some (matrix_a, VList [VInt 2]))); (conc_bad true, Ok None)].
Proof. split; [|split]; vm_compute; reflexivity. Qed.
Example C135_loaded_met : exists i, local_index "a" demo_files = Ok i /\ dicts (three false) /\
  (forall m c, In c (three false m) -> exists gi go z s, IndexSpec.request (c_in c) (c_out c) gi go /\ conc_weights gi go (c_method c) z s) /\
  results (threads (conc_run (start_loaded i (three false)) (lost ++ repeat 1 20)%nat) 1%nat) = [(conc_good false, Ok (Some (matrix_a, VList [VInt 2])))].
Proof.
  eexists. split; [vm_compute; reflexivity|]. split; [intros n c H; apply (demo_dicts false n); auto|]. split; [|vm_compute; reflexivity].
  intros n c H. unfold three in H. destruct (Nat.ltb n 3); [|contradiction]. destruct H as [<-|[]]. exists demo_gi, demo_go, matrix_a, (VList [VInt 2]). split; [exact demo_request|]. apply demo_weights_for; [auto|vm_compute; reflexivity].
Qed.

Print Assumptions C135_locked.
Print Assumptions C135_any_partial.
Print Assumptions C135_never_wrong.
Print Assumptions C135_loaded.
Print Assumptions C135_lost_refuted.
Print Assumptions C135_changed_refuted.
