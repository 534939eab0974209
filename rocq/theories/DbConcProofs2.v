(** More lemmas about threads looking up weights: all schedules; a loaded index; lookups under the lock. *)
From Verif Require Import PyBase ListLemmas PyStr Float64 GridSpec GridVocab GridProofs Index IndexSpec IndexProofs IndexProofs2 Db MemCache Inventory Regrid
  System SystemSpec SystemProofs DbConc DbConcProofs.
Set Default Proof Using "Type".
Local Open Scope string_scope.
Local Open Scope list_scope.

Section Threads.
  Context {A rest : Type}.
  Variables (py_str : val -> string) (key_order : list string) (fuel : nat).
  Variable files : fs rest (csr A).
  Variable path : string.
  Notation first := (@IndexProofs.first rest py_str key_order fuel).
  Notation listed := (listed files path).
  Notation move := (move py_str key_order fuel files path).
  Notation step := (step py_str key_order fuel files path).
  Notation run := (run py_str key_order fuel files path).
  Notation alone := (alone py_str key_order fuel files path).
  Notation alone_req := (alone_req py_str key_order fuel files path).
  Notation fine := (fine py_str key_order fuel files path).
  Notation heap_fine := (heap_fine files path).
  Notation thread_fine := (thread_fine py_str key_order fuel files path).
  Notation thread := (@thread A rest).
  Notation shared := (@shared rest).
  Notation state := (@state A rest).
  Notation W := (weights A).
  Implicit Types (s : shared) (t : thread) (g : state) (c : call) (progs : nat -> list call).

  Lemma step_thread g n m : threads (step g n) m = if Nat.eqb m n then snd (move (sh g) (threads g n)) else threads g m.
  Proof. unfold DbConc.step. destruct (move (sh g) (threads g n)). reflexivity. Qed.
  Lemma step_shared g n : sh (step g n) = fst (move (sh g) (threads g n)).
  Proof. unfold DbConc.step. destruct (move (sh g) (threads g n)). reflexivity. Qed.
  Lemma run_ind (P : state -> Prop) g l : P g -> (forall g n, P g -> P (step g n)) -> P (run g l).
  Proof. intros P0 PS. unfold DbConc.run. revert g P0. induction l as [|n l IH]; intros g P0; [exact P0|]. cbn. apply IH, PS, P0. Qed.

  (** Calls, one after the other. *)
  Lemma run_book progs g l : (forall n, kept_book (progs n) (threads g n)) -> forall n, kept_book (progs n) (threads (run g l) n).
  Proof.
    intros H. apply (run_ind (fun g => forall n, kept_book (progs n) (threads g n))); [exact H|]. clear g H. intros g n H m. rewrite step_thread.
    destruct (Nat.eqb_spec m n) as [->|]; [apply move_book, H|apply H].
  Qed.
  Lemma start_book progs s n : kept_book (progs n) (threads (mkState s (fun n => mkThread (progs n) Idle None false []) : state) n).
  Proof. split; [reflexivity|]. split; [reflexivity|]. intros H. exfalso. apply H. reflexivity. Qed.

  (** A new result is the one of the thread that moves. *)
  Lemma move_results s t : results (snd (move s t)) = results t \/ exists y c, at_ t = Done y /\ doing t = Some c /\ results (snd (move s t)) = results t ++ [(c, y)].
  Proof.
    unfold DbConc.move. destruct (at_ t) as [|r|r b|r b|r b|r b k [|q l]|r b|[[gi go] m] b k|gi go [[x y] m] b k n i|e|y]; try (left; reflexivity).
    - destruct (todo t) as [|c l]; [left; reflexivity|]. destruct (gi <- from_dict (c_in c) ;; go <- from_dict (c_out c) ;; Ok (gi, go, c_method c)); left; reflexivity.
    - destruct (lock s); left; reflexivity.
    - cbn. destruct (doing t) as [c|]; [right; exists y, c; auto|left; reflexivity].
  Qed.
  Lemma move_todo s t c : In c (todo (snd (move s t))) -> In c (todo t).
  Proof.
    unfold DbConc.move. destruct (at_ t) as [|r|r b|r b|r b|r b k [|q l]|r b|[[gi go] m] b k|gi go [[x y] m] b k n i|e|y]; try (intros H; exact H).
    - destruct (todo t) as [|c' l] eqn:E; [rewrite <- E; auto|]. destruct (gi <- from_dict (c_in c') ;; go <- from_dict (c_out c') ;; Ok (gi, go, c_method c')); cbn; auto.
    - destruct (lock s); intros H; exact H.
  Qed.

  (** ** All schedules *)
  Section Prefix.
    Hypothesis NL : forall l, listed = Ok l -> NoDup (akeys l).
    Lemma run_fine progs l : (forall n, Forall neat (progs n)) ->
      forall n, Forall (fun p => fine (fst p) (snd p)) (results (threads (run (start progs) l) n)).
    Proof using NL.
      intros NE.
      assert (X : (exists C, heap_fine C (sh (run (start progs) l)) /\ forall n, thread_fine C (sh (run (start progs) l)) (threads (run (start progs) l) n)) /\
                  forall n, Forall neat (todo (threads (run (start progs) l) n)) /\ Forall (fun p => fine (fst p) (snd p)) (results (threads (run (start progs) l) n))).
      { apply (run_ind (fun g => (exists C, heap_fine C (sh g) /\ forall n, thread_fine C (sh g) (threads g n)) /\ forall n, Forall neat (todo (threads g n)) /\ Forall (fun p => fine (fst p) (snd p)) (results (threads g n)))).
        - split; [|intros n; split; [apply NE|constructor]]. exists (fun _ => 0%nat). split; [|intros n; exact I]. split; [intros k K; cbn in K; inversion K|discriminate].
        - clear l. intros g n ((C & HF & TF) & TN). destruct (move (sh g) (threads g n)) as [s' t'] eqn:E.
          destruct (move_fine py_str key_order fuel files path NL C _ _ s' t' HF (TF n) (proj1 (TN n)) E) as (C' & HF' & TF' & M).
          split.
          + exists C'. rewrite step_shared, E. split; [exact HF'|]. intros m. rewrite step_thread, E. destruct (Nat.eqb m n); [exact TF'|]. exact (more_fine py_str key_order fuel files path C C' _ s' _ M (TF m)).
          + intros m. rewrite step_thread. destruct (Nat.eqb_spec m n) as [->|]; [|exact (TN m)]. destruct (TN n) as [T1 T2]. split.
            * rewrite Forall_forall in *. intros c J. apply T1. exact (move_todo _ _ c J).
            * destruct (move_results (sh g) (threads g n)) as [->|(y & c & AT & D & ->)]; [exact T2|]. apply Forall_app. split; [exact T2|]. constructor; [|constructor]. cbn.
              specialize (TF n). unfold DbConcProofs.thread_fine in TF. rewrite AT in TF. destruct TF as (c' & D' & F). rewrite D in D'. injection D' as <-. exact F. }
      intros n. exact (proj2 (proj2 X n)).
    Qed.
  End Prefix.

  (** ** The index was loaded before and every call finds something *)
  Section Loaded.
    Variable i0 : index rest.
    Hypothesis LI : local_index path files = Ok i0.
    Definition hit c : Prop := neat c /\ forall gi go m, request_of c = Ok (gi, go, m) -> first i0 gi go (method_alias m) <> Ok None.
    Definition thread_at t : Prop :=
      match at_ t with
      | Idle => True
      | Done y => exists c, doing t = Some c /\ y = alone c
      | Load e => exists c, doing t = Some c /\ alone c = (w <- load_weights files path e ;; Ok (Some w))
      | Want r | Enter r false | Got r false => exists c, doing t = Some c /\ hit c /\ request_of c = Ok r
      | Have r false 0 => exists c, doing t = Some c /\ hit c /\ request_of c = Ok r
      | Scan gi go (gi0, go0, m) false 0 n i => n = List.length i0 /\ same_spec gi gi0 /\ same_spec go go0 /\ first (firstn i i0) gi go (method_alias m) = Ok None /\
          exists c, doing t = Some c /\ hit c /\ request_of c = Ok (gi0, go0, m)
      | _ => False
      end.
    Lemma alone_first c gi go gi0 go0 m y : request_of c = Ok (gi0, go0, m) -> same_spec gi gi0 -> same_spec go go0 ->
      first i0 gi go (method_alias m) = y -> alone c = (o <- y ;; match o with Some e => w <- load_weights files path e ;; Ok (Some w) | None => Ok None end).
    Proof using LI. intros R S1 S2 F. unfold DbConcProofs.alone. rewrite R. cbn. rewrite LI. cbn [bind]. rewrite <- (first_same py_str key_order fuel i0 gi gi0 go go0 _ S1 S2), F. reflexivity. Qed.
    Lemma stops i gi go m y : first (firstn i i0) gi go m = y -> y <> Ok None -> first i0 gi go m = y.
    Proof using Type. clear LI. intros F N. rewrite <- (firstn_skipn i i0), first_app, F. destruct y as [[e|]|x|]; try reflexivity. contradiction. Qed.
    Lemma decided i gi go m x nm e : nth_error i0 i = Some (nm, e) -> first (firstn i i0) gi go m = Ok None ->
      answer py_str key_order fuel e gi go m = x -> first (firstn (S i) i0) gi go m = (b <- x ;; if b then Ok (Some e) else Ok None).
    Proof using Type. clear LI. intros N F E. rewrite (firstn_S _ _ _ N), first_app, F. cbn. rewrite E. destruct x as [[]|?|]; reflexivity. Qed.
    Lemma move_at s t : the_index s = Some 0%nat -> heap s = [i0] -> Forall hit (todo t) -> thread_at t ->
      the_index (fst (move s t)) = Some 0%nat /\ heap (fst (move s t)) = [i0] /\ thread_at (snd (move s t)).
    Proof using LI.
      intros TI HP TD TA. unfold thread_at in TA. unfold DbConc.move. destruct (at_ t) as [|r|r b|r b|r b|r b k l|r b|[[gi go] m] b k|gi go [[gi0 go0] m] b k n i|e|y] eqn:AT.
      - destruct (todo t) as [|c l]; [split; [exact TI|split; [exact HP|unfold thread_at; cbn; rewrite AT; exact I]]|]. inversion TD as [|? ? HC _]; subst. fold (request_of c).
        destruct (request_of c) as [r|x|] eqn:RQ; cbn; (split; [exact TI|split; [exact HP|]]); unfold thread_at; cbn.
        + destruct (c_locked c); exists c; auto.
        + exists c. split; [reflexivity|]. unfold DbConcProofs.alone. rewrite RQ. reflexivity.
        + exists c. split; [reflexivity|]. unfold DbConcProofs.alone. rewrite RQ. reflexivity.
      - destruct (lock s); cbn; (split; [exact TI|split; [exact HP|]]); unfold thread_at; cbn; [rewrite AT|]; exact TA.
      - destruct b; [contradiction|]. cbn. split; [exact TI|split; [exact HP|]]. unfold thread_at. cbn. rewrite TI. exact TA.
      - contradiction.
      - contradiction.
      - contradiction.
      - destruct b; [contradiction|]. cbn. split; [exact TI|split; [exact HP|]]. unfold thread_at. cbn. rewrite TI. exact TA.
      - destruct b; [contradiction|]. destruct k as [|k]; [|contradiction]. cbn. split; [exact TI|split; [exact HP|]]. unfold thread_at. cbn. destruct TA as (c & D & HC & RQ).
        destruct (again_ok c gi go m (proj1 HC) RQ) as (gi' & go' & -> & -> & S1 & S2). cbn [bind]. unfold object. rewrite HP. cbn. split; [reflexivity|]. split; [exact S1|]. split; [exact S2|]. split; [reflexivity|eauto].
      - destruct b; [contradiction|]. destruct k as [|k]; [|contradiction]. cbn. split; [exact TI|split; [exact HP|]]. unfold thread_at. cbn. destruct TA as (-> & S1 & S2 & F & c & D & HC & RQ).
        unfold object. rewrite HP. cbn [nth]. rewrite Nat.eqb_refl. destruct (nth_error i0 i) as [[nm e]|] eqn:N.
        + rewrite match_answer. pose proof (decided i gi go (method_alias m) _ nm e N F eq_refl) as FD. destruct (answer py_str key_order fuel e gi go (method_alias m)) as [[]|x|]; cbn [bind] in FD.
          * exists c. split; [exact D|]. exact (alone_first c gi go gi0 go0 m _ RQ S1 S2 (stops _ _ _ _ _ FD ltac:(discriminate))).
          * split; [reflexivity|]. split; [exact S1|]. split; [exact S2|]. split; [exact FD|eauto].
          * exists c. split; [exact D|]. rewrite (alone_first c gi go gi0 go0 m _ RQ S1 S2 (stops _ _ _ _ _ FD ltac:(discriminate))). reflexivity.
          * exists c. split; [exact D|]. rewrite (alone_first c gi go gi0 go0 m _ RQ S1 S2 (stops _ _ _ _ _ FD ltac:(discriminate))). reflexivity.
        + exfalso. apply (proj2 HC gi0 go0 m RQ). rewrite <- (first_same py_str key_order fuel i0 gi gi0 go go0 _ S1 S2). apply nth_error_None in N. rewrite firstn_all2 in F by exact N. exact F.
      - cbn. split; [exact TI|split; [exact HP|]]. unfold thread_at. cbn. destruct TA as (c & D & AL). exists c. split; [exact D|symmetry; exact AL].
      - destruct (holds t); cbn; (split; [exact TI|split; [exact HP|exact I]]).
    Qed.
    Lemma run_loaded progs l : (forall n, Forall hit (progs n)) ->
      forall n, Forall (fun p => snd p = alone (fst p)) (results (threads (run (start_loaded i0 progs) l) n)).
    Proof using LI.
      intros HH.
      assert (X : (the_index (sh (run (start_loaded i0 progs) l)) = Some 0%nat /\ heap (sh (run (start_loaded i0 progs) l)) = [i0]) /\
                  forall n, thread_at (threads (run (start_loaded i0 progs) l) n) /\ Forall hit (todo (threads (run (start_loaded i0 progs) l) n)) /\ Forall (fun p => snd p = alone (fst p)) (results (threads (run (start_loaded i0 progs) l) n))).
      { apply (run_ind (fun g => (the_index (sh g) = Some 0%nat /\ heap (sh g) = [i0]) /\ forall n, thread_at (threads g n) /\ Forall hit (todo (threads g n)) /\ Forall (fun p => snd p = alone (fst p)) (results (threads g n)))).
        - split; [auto|]. intros n. split; [exact I|]. split; [apply HH|constructor].
        - clear l. intros g n ((TI & HP) & TN). destruct (TN n) as (TA & TD & TR). destruct (move_at (sh g) (threads g n) TI HP TD TA) as (M1 & M2 & M3). rewrite step_shared. split; [auto|].
          intros m. rewrite step_thread. destruct (Nat.eqb_spec m n) as [->|]; [|exact (TN m)]. split; [exact M3|]. split.
          + rewrite Forall_forall in *. intros c J. apply TD. exact (move_todo _ _ c J).
          + destruct (move_results (sh g) (threads g n)) as [->|(y & c & AT & D & ->)]; [exact TR|]. apply Forall_app. split; [exact TR|]. constructor; [|constructor]. cbn.
            unfold thread_at in TA. rewrite AT in TA. destruct TA as (c' & D' & F). rewrite D in D'. injection D' as <-. exact F. }
      intros n. exact (proj2 (proj2 (proj2 X n))).
    Qed.
  End Loaded.

  (** ** Lookups under the lock *)
  Definition whole : index rest := match listed with Ok l => fold_left load_item l [] | _ => [] end.
  Definition good s : Prop := match the_index s with None => True | Some k => (k < List.length (heap s))%nat /\ object k s = whole end.
  Definition asks t (r : mreq) : Prop := exists c, doing t = Some c /\ neat c /\ request_of c = Ok r.
  (** The index is there and, after the second loading, the file is readable. *)
  Definition ready s (b : bool) (k : nat) : Prop := the_index s = Some k /\ good s /\ (b = true -> exists l, listed = Ok l).
  Definition active s t : Prop :=
    match at_ t with
    | Idle | Want _ => False
    | Enter r b => asks t r /\ good s /\ (b = true -> exists k, ready s b k)
    | New r b => asks t r
    | Open r b => asks t r /\ exists k, the_index s = Some k /\ (k < List.length (heap s))%nat /\ object k s = []
    | Fill r b k rem => asks t r /\ the_index s = Some k /\ (k < List.length (heap s))%nat /\ exists pre, listed = Ok (pre ++ rem) /\ object k s = fold_left load_item pre []
    | Got r b => asks t r /\ exists k, ready s b k
    | Have r b k => asks t r /\ ready s b k
    | Scan gi go r b k n i => asks t r /\ ready s b k /\ n = List.length whole /\ let '(gi0, go0, m) := r in same_spec gi gi0 /\ same_spec go go0 /\ first (firstn i whole) gi go (method_alias m) = Ok None
    | Load e => good s /\ exists c, doing t = Some c /\ alone c = (w <- load_weights files path e ;; Ok (Some w))
    | Done y => good s /\ exists c, doing t = Some c /\ y = alone c
    end.
  Definition quiet t : Prop :=
    holds t = false /\ match at_ t with Idle => True | Want r => asks t r | Done y => exists c, doing t = Some c /\ y = alone c | _ => False end.
  Definition locked_inv g : Prop :=
    (lock (sh g) = false /\ good (sh g) /\ forall n, quiet (threads g n)) \/
    (lock (sh g) = true /\ exists h, holds (threads g h) = true /\ active (sh g) (threads g h) /\ forall n, n <> h -> quiet (threads g n)).
  Lemma whole_local : (exists l, listed = Ok l) -> local_index path files = Ok whole.
  Proof. intros (l & E). rewrite local_listed. unfold whole. rewrite E. reflexivity. Qed.
  Lemma whole_some k nm e : nth_error whole k = Some (nm, e) -> exists l, listed = Ok l.
  Proof. clear. unfold whole. destruct listed; eauto; destruct k; discriminate. Qed.
  Lemma whole_alone c gi go gi0 go0 m y : (exists l, listed = Ok l) -> request_of c = Ok (gi0, go0, m) -> same_spec gi gi0 -> same_spec go go0 ->
    first whole gi go (method_alias m) = y -> alone c = (o <- y ;; match o with Some e => w <- load_weights files path e ;; Ok (Some w) | None => Ok None end).
  Proof. intros L. exact (alone_first whole (whole_local L) c gi go gi0 go0 m y). Qed.

  (** The thread that has the lock. *)
  Lemma move_active s t : lock s = true -> holds t = true -> active s t ->
    (lock (fst (move s t)) = true /\ holds (snd (move s t)) = true /\ active (fst (move s t)) (snd (move s t))) \/
    (lock (fst (move s t)) = false /\ good (fst (move s t)) /\ quiet (snd (move s t))).
  Proof.
    intros LK HO AC. unfold active in AC. unfold DbConc.move. destruct (at_ t) as [|r|r b|r b|r b|r b k [|q l]|r b|[[gi go] m] b k|gi go [[gi0 go0] m] b k n i|e|y] eqn:AT; try contradiction.
    - left. cbn. split; [exact LK|]. split; [exact HO|]. unfold active. cbn. destruct AC as (AS & GD & RB). destruct (the_index s) as [k|] eqn:TI.
      + split; [exact AS|]. exists k. split; [exact TI|]. split; [exact GD|]. intros B. destruct (RB B) as (k' & _ & _ & L). exact (L B).
      + exact AS.
    - left. cbn. split; [exact LK|]. split; [exact HO|]. unfold active. cbn. split; [exact AC|]. exists (List.length (heap s)). split; [reflexivity|]. rewrite app_length. cbn. split; [lia|]. unfold object. cbn. rewrite app_nth2, Nat.sub_diag by lia. reflexivity.
    - left. cbn. split; [exact LK|]. split; [exact HO|]. unfold active. cbn. destruct AC as (AS & k & TI & K & OB). pose proof AS as (c & D & NC & RQ).
      assert (BAD : forall y, (forall z, listed <> Ok z) -> y = (x <- listed ;; Ok None) -> good s /\ exists c, doing t = Some c /\ y = alone c).
      { intros y NK EY. split; [unfold good; rewrite TI; split; [exact K|]; rewrite OB; unfold whole; destruct listed as [l|x|]; [exfalso; exact (NK l eq_refl)|reflexivity..]|].
        exists c. split; [exact D|]. unfold DbConcProofs.alone. rewrite RQ. destruct r as [[gi go] m]. cbn. rewrite local_listed. rewrite EY. destruct listed as [l|x|]; [exfalso; exact (NK l eq_refl)|reflexivity..]. }
      rewrite TI. destruct listed as [l|x|] eqn:L.
      + split; [exact AS|]. split; [first [exact TI|reflexivity]|]. split; [exact K|]. exists []. split; [reflexivity|exact OB].
      + apply BAD; [discriminate|reflexivity].
      + apply BAD; [discriminate|reflexivity].
    - left. cbn. split; [exact LK|]. split; [exact HO|]. unfold active. cbn. destruct AC as (AS & TI & K & pre & L & OB). rewrite app_nil_r in L. split; [exact AS|].
      assert (GD : good s) by (unfold good; rewrite TI; split; [exact K|]; unfold whole; rewrite L; exact OB). split; [exact GD|]. intros _. exists k. split; [exact TI|]. split; [exact GD|eauto].
    - left. cbn. split; [exact LK|]. split; [exact HO|]. unfold active. cbn. destruct AC as (AS & TI & K & pre & L & OB). split; [exact AS|]. split; [exact TI|]. rewrite put_length. split; [exact K|].
      exists (pre ++ [q]). rewrite <- app_assoc. split; [exact L|]. unfold object. cbn. rewrite put_same by exact K. unfold object in OB. rewrite OB, fold_left_app. reflexivity.
    - left. cbn. split; [exact LK|]. split; [exact HO|]. unfold active. cbn. destruct AC as (AS & k & RD). rewrite (proj1 RD). split; [exact AS|exact RD].
    - left. cbn. split; [exact LK|]. split; [exact HO|]. unfold active. cbn. destruct AC as (AS & RD). pose proof AS as (c & D & NC & RQ). destruct (again_ok c gi go m NC RQ) as (gi' & go' & -> & -> & S1 & S2). cbn [bind].
      split; [exact AS|]. split; [exact RD|]. split; [|split; [exact S1|split; [exact S2|reflexivity]]]. destruct RD as (TI & GD & _). unfold good in GD. rewrite TI in GD. rewrite (proj2 GD). reflexivity.
    - left. cbn. split; [exact LK|]. split; [exact HO|]. unfold active. cbn. destruct AC as (AS & RD & -> & S1 & S2 & F). pose proof AS as (c & D & NC & RQ). pose proof RD as (TI & GD & RB).
      assert (OB : object k s = whole) by (unfold good in GD; rewrite TI in GD; exact (proj2 GD)). rewrite OB, Nat.eqb_refl. destruct (nth_error whole i) as [[nm e]|] eqn:N.
      + pose proof (whole_some i nm e N) as L. rewrite match_answer. pose proof (decided whole i gi go (method_alias m) _ nm e N F eq_refl) as FD. destruct (answer py_str key_order fuel e gi go (method_alias m)) as [[]|x|]; cbn [bind] in FD.
        * split; [exact GD|]. exists c. split; [exact D|]. exact (whole_alone c gi go gi0 go0 m _ L RQ S1 S2 (stops whole _ _ _ _ _ FD ltac:(discriminate))).
        * split; [exact AS|]. split; [exact RD|]. split; [reflexivity|]. auto.
        * split; [exact GD|]. exists c. split; [exact D|]. rewrite (whole_alone c gi go gi0 go0 m _ L RQ S1 S2 (stops whole _ _ _ _ _ FD ltac:(discriminate))). reflexivity.
        * split; [exact GD|]. exists c. split; [exact D|]. rewrite (whole_alone c gi go gi0 go0 m _ L RQ S1 S2 (stops whole _ _ _ _ _ FD ltac:(discriminate))). reflexivity.
      + destruct b; [|exact AS]. split; [exact GD|]. exists c. split; [exact D|]. apply nth_error_None in N. rewrite firstn_all2 in F by exact N. rewrite (whole_alone c gi go gi0 go0 m _ (RB eq_refl) RQ S1 S2 F). reflexivity.
    - left. cbn. split; [exact LK|]. split; [exact HO|]. unfold active. cbn. destruct AC as (GD & c & D & AL). split; [exact GD|]. exists c. split; [exact D|symmetry; exact AL].
    - right. rewrite HO. cbn. split; [reflexivity|]. split; [exact (proj1 AC)|]. split; [reflexivity|exact I].
  Qed.
  (** A thread that has it not. *)
  Lemma move_quiet s t : Forall (fun c => neat c /\ c_locked c = true) (todo t) -> quiet t -> (lock s = false -> good s) ->
    (fst (move s t) = s /\ quiet (snd (move s t))) \/
    (lock s = false /\ lock (fst (move s t)) = true /\ holds (snd (move s t)) = true /\ active (fst (move s t)) (snd (move s t))).
  Proof.
    intros TD (HO & Q) GD. unfold DbConc.move. destruct (at_ t) as [|r|r b|r b|r b|r b k l|r b|r b k|gi go r b k n i|e|y] eqn:AT; try contradiction.
    - left. destruct (todo t) as [|c l]; [split; [reflexivity|split; [exact HO|cbn; rewrite AT; exact I]]|]. inversion TD as [|? ? [NC LC] _]; subst. fold (request_of c).
      destruct (request_of c) as [r|x|] eqn:RQ; (split; [reflexivity|]); cbn; (split; [reflexivity|]); cbn.
      + rewrite LC. exists c. auto.
      + exists c. split; [reflexivity|]. unfold DbConcProofs.alone. rewrite RQ. reflexivity.
      + exists c. split; [reflexivity|]. unfold DbConcProofs.alone. rewrite RQ. reflexivity.
    - destruct (lock s) eqn:LK; [left; split; [reflexivity|split; [exact HO|cbn; rewrite AT; exact Q]]|]. right. split; [reflexivity|]. split; [reflexivity|]. split; [reflexivity|]. unfold active. cbn. split; [exact Q|]. split; [exact (GD eq_refl)|discriminate].
    - left. rewrite HO. split; [reflexivity|]. split; [reflexivity|exact I].
  Qed.
  Lemma step_locked g n : Forall (fun c => neat c /\ c_locked c = true) (todo (threads g n)) -> locked_inv g -> locked_inv (step g n).
  Proof.
    intros TD [(LK & GD & Q)|(LK & h & HO & AC & Q)].
    - destruct (move_quiet (sh g) (threads g n) TD (Q n) (fun _ => GD)) as [[E Q']|(_ & LK' & HO & AC)].
      + left. rewrite step_shared, E. split; [exact LK|]. split; [exact GD|]. intros m. rewrite step_thread. destruct (Nat.eqb m n); [exact Q'|exact (Q m)].
      + right. rewrite step_shared. split; [exact LK'|]. exists n. rewrite step_thread, Nat.eqb_refl. split; [exact HO|]. split; [exact AC|]. intros m NE. rewrite step_thread. apply Nat.eqb_neq in NE. rewrite NE. exact (Q m).
    - destruct (Nat.eq_dec n h) as [->|NE].
      + destruct (move_active (sh g) (threads g h) LK HO AC) as [(LK' & HO' & AC')|(LK' & GD' & Q')].
        * right. rewrite step_shared. split; [exact LK'|]. exists h. rewrite step_thread, Nat.eqb_refl. split; [exact HO'|]. split; [exact AC'|]. intros m NE. rewrite step_thread. pose proof NE as NE'. apply Nat.eqb_neq in NE'. rewrite NE'. exact (Q m NE).
        * left. rewrite step_shared. split; [exact LK'|]. split; [exact GD'|]. intros m. rewrite step_thread. destruct (Nat.eqb_spec m h) as [->|NE]; [exact Q'|exact (Q m NE)].
      + destruct (move_quiet (sh g) (threads g n) TD (Q n NE)) as [[E Q']|(LK' & _)]; [congruence| |congruence].
        right. rewrite step_shared, E. split; [exact LK|]. exists h. rewrite step_thread. pose proof (Nat.eqb_neq h n) as [_ NE']. rewrite (NE' (not_eq_sym NE)). split; [exact HO|]. split; [exact AC|].
        intros m MH. rewrite step_thread. destruct (Nat.eqb m n); [exact Q'|exact (Q m MH)].
  Qed.
  Lemma locked_done g n y : locked_inv g -> at_ (threads g n) = Done y -> exists c, doing (threads g n) = Some c /\ y = alone c.
  Proof.
    intros [(LK & GD & Q)|(LK & h & HO & AC & Q)] AT.
    - destruct (Q n) as [_ K]. rewrite AT in K. exact K.
    - destruct (Nat.eq_dec n h) as [->|NE]; [unfold active in AC; rewrite AT in AC; exact (proj2 AC)|]. destruct (Q n NE) as [_ K]. rewrite AT in K. exact K.
  Qed.
  Definition all_locked progs : Prop := forall n, Forall (fun c => neat c /\ c_locked c = true) (progs n).
  Lemma run_locked progs l : all_locked progs ->
    locked_inv (run (start progs) l) /\ forall n, Forall (fun p => snd p = alone (fst p)) (results (threads (run (start progs) l) n)).
  Proof.
    intros AL.
    assert (X : locked_inv (run (start progs) l) /\ forall n, Forall (fun c => neat c /\ c_locked c = true) (todo (threads (run (start progs) l) n)) /\ Forall (fun p => snd p = alone (fst p)) (results (threads (run (start progs) l) n))).
    { apply (run_ind (fun g => locked_inv g /\ forall n, Forall (fun c => neat c /\ c_locked c = true) (todo (threads g n)) /\ Forall (fun p => snd p = alone (fst p)) (results (threads g n)))).
      - split; [left; split; [reflexivity|split; [exact I|intros n; split; [reflexivity|exact I]]]|]. intros n. split; [apply AL|constructor].
      - clear l. intros g n (LI & TN). split; [exact (step_locked g n (proj1 (TN n)) LI)|]. intros m. rewrite step_thread. destruct (Nat.eqb_spec m n) as [->|]; [|exact (TN m)]. destruct (TN n) as [TD TR]. split.
        + rewrite Forall_forall in *. intros c J. apply TD. exact (move_todo _ _ c J).
        + destruct (move_results (sh g) (threads g n)) as [->|(y & c & AT & D & ->)]; [exact TR|]. apply Forall_app. split; [exact TR|]. constructor; [|constructor]. cbn.
          destruct (locked_done g n y LI AT) as (c' & D' & F). rewrite D in D'. injection D' as <-. exact F. }
    split; [exact (proj1 X)|]. intros n. exact (proj2 (proj2 X n)).
  Qed.
End Threads.
