(** C147: threads that ask one grid object for its number and its kind. *)
From Coq Require Import Lia.
From Verif Require Import PyBase PyStr Float64 GridSpec PairConc.
Local Open Scope list_scope.
Local Open Scope nat_scope.
Set Default Proof Using "Type".

Section Any.
  Context {A B : Type}.
  Variable parse : result (A * B).
  Notation state := (@state A B).
  Notation thread := (@thread A B).
  Notation step := (step parse).
  Notation run := (run parse).
  Implicit Types (s : state) (t : thread).

  (** What the dictionary says. *)
  Definition right (q : ask) : result (@value A B) :=
    match parse with
    | Ok (n, k) => Ok (match q with Number => VNumber (Some n) | Kind => VKind (Some k) end)
    | Raise e => Raise e
    | OutOfFuel => OutOfFuel
    end.

  Lemma at_step s n k : threads (step s n) k = if Nat.eqb k n then snd (move parse (memo s) (threads s n)) else threads s k.
  Proof. unfold PairConc.step. destruct (move parse (memo s) (threads s n)) as [m t]. cbn. destruct (Nat.eqb_spec k n) as [->|]; reflexivity. Qed.
  Lemma memo_step s n : memo (step s n) = fst (move parse (memo s) (threads s n)).
  Proof. unfold PairConc.step. destruct (move parse (memo s) (threads s n)) as [m t]. reflexivity. Qed.
  Lemma run_invariant (P : state -> Prop) : (forall s n, P s -> P (step s n)) -> forall l s, P s -> P (run s l).
  Proof. intros H l. induction l as [|n l IH]; intros s Hs; [exact Hs|]. apply (IH (step s n)), H, Hs. Qed.

  (** ** The memos hold nothing wrong, and are known where a thread relies on it *)
  Definition fits (m : @memos A B) : Prop :=
    (m_number m = None \/ exists n k, parse = Ok (n, k) /\ m_number m = Some n) /\
    (m_kind m = None \/ exists n k, parse = Ok (n, k) /\ m_kind m = Some k).
  Definition fine (m : @memos A B) t : Prop :=
    (match at_ t with
     | Idle | Test1 _ | Parse _ => True
     | Test2 _ => known m Number = true
     | Put1 _ n k => parse = Ok (n, k)
     | Put2 _ k => known m Number = true /\ exists n, parse = Ok (n, k)
     | Read q => known m q = true
     end) /\ (forall q y, In (q, y) (results t) -> y = right q).
  Definition sound s : Prop := fits (memo s) /\ forall n, fine (memo s) (threads s n).

  Definition grows (m m' : @memos A B) : Prop := forall q, known m q = true -> known m' q = true.
  Lemma move_grows m t : grows m (fst (move parse m t)).
  Proof.
    intros q K. unfold move. destruct (at_ t) as [|q0|q0|q0|q0 x k|q0 k|q0]; try exact K.
    - destruct (todo t); exact K.
    - destruct parse as [[x k]| |]; exact K.
    - destruct q; [reflexivity|exact K].
    - destruct q; [exact K|reflexivity].
  Qed.
  Lemma fine_grows m m' t : grows m m' -> fine m t -> fine m' t.
  Proof.
    intros G [H R]. split; [|exact R]. destruct (at_ t); auto. destruct H as [K E]. split; [apply G, K|exact E].
  Qed.
  Lemma move_fits m t : fits m -> fine m t -> fits (fst (move parse m t)).
  Proof.
    intros F [H _]. unfold move. destruct (at_ t) as [|q0|q0|q0|q0 x k|q0 k|q0]; try exact F.
    - destruct (todo t); exact F.
    - destruct parse as [[x k]| |]; exact F.
    - destruct F as [_ F2]. split; [right; exists x, k; auto|exact F2].
    - destruct H as [_ [x E]]. destruct F as [F1 _]. split; [exact F1|right; exists x, k; auto].
  Qed.
  Lemma answered t q y : (forall q y, In (q, y) (results t) -> y = right q) -> y = right q ->
    forall q' y', In (q', y') (results (answer t q y)) -> y' = right q'.
  Proof. intros R E q' y' I. cbn in I. apply in_app_or in I. destruct I as [I|[I|[]]]; [exact (R _ _ I)|]. injection I as <- <-. exact E. Qed.
  Lemma known_right m q : fits m -> known m q = true -> Ok (match q with Number => VNumber (m_number m) | Kind => VKind (m_kind m) end) = right q.
  Proof.
    intros [F1 F2] K. unfold right. destruct q; unfold known in K.
    - destruct F1 as [E|(x & k & P & E)]; rewrite E in *; [discriminate|]. rewrite P. reflexivity.
    - destruct F2 as [E|(x & k & P & E)]; rewrite E in *; [discriminate|]. rewrite P. reflexivity.
  Qed.
  Lemma move_fine m t : fits m -> fine m t -> fine (fst (move parse m t)) (snd (move parse m t)).
  Proof.
    intros F [H R]. unfold move. destruct (at_ t) as [|q0|q0|q0|q0 x k|q0 k|q0] eqn:E.
    - destruct (todo t) as [|q l]; [split; [cbn [fst snd]; rewrite E; exact I|exact R]|]. split; [|exact R]. cbn. destruct (known m q) eqn:K; [exact K|exact I].
    - split; [|exact R]. cbn -[known]. destruct (known m Number) eqn:K; [reflexivity|exact I].
    - split; [|exact R]. cbn -[known]. destruct (known m Kind) eqn:K; [|exact I]. destruct q0; [exact H|exact K].
    - destruct parse as [[x k]|e|] eqn:P.
      + split; [exact P|exact R].
      + split; [exact I|]. apply answered; [exact R|]. unfold right. rewrite P. reflexivity.
      + split; [exact I|]. apply answered; [exact R|]. unfold right. rewrite P. reflexivity.
    - split; [|exact R]. split; [reflexivity|]. exists x. exact H.
    - split; [|exact R]. cbn -[known]. destruct q0; [exact (proj1 H)|reflexivity].
    - split; [exact I|]. apply answered; [exact R|]. apply known_right; assumption.
  Qed.
  Lemma step_sound s n : sound s -> sound (step s n).
  Proof.
    intros [F T]. split.
    - rewrite memo_step. apply move_fits; auto.
    - intros k. rewrite memo_step, at_step. destruct (Nat.eqb k n); [apply move_fine; auto|]. eapply fine_grows; [apply move_grows|apply T].
  Qed.
  Lemma start_sound progs : sound (start progs).
  Proof. split; [split; left; reflexivity|]. intros n. split; [exact I|]. intros q y []. Qed.

  (** Every question is answered as the dictionary says, whatever the other threads do in between:
      never with None, never with the answer of another kind, and an error only if it is bad. *)
  Theorem C147_right progs l n q y : In (q, y) (results (threads (run (start progs) l) n)) -> y = right q.
  Proof. intros I. assert (S : sound (run (start progs) l)) by (apply run_invariant; [intros; apply step_sound; assumption|apply start_sound]). apply (proj2 (proj2 S n)), I. Qed.

  (** What a memo holds is right, and it is not taken back. *)
  Theorem C147_settled progs l l' :
    let m := memo (run (start progs) l) in let m' := memo (run (start progs) (l ++ l')) in
    (forall x, m_number m = Some x -> right Number = Ok (VNumber (Some x)) /\ m_number m' = Some x) /\
    (forall y, m_kind m = Some y -> right Kind = Ok (VKind (Some y)) /\ m_kind m' = Some y).
  Proof.
    cbv zeta. set (s := run (start progs) l).
    assert (S : sound s) by (apply run_invariant; [intros; apply step_sound; assumption|apply start_sound]).
    assert (E : run (start progs) (l ++ l') = run s l') by (unfold s, PairConc.run; apply fold_left_app). rewrite E.
    assert (S' : sound (run s l')) by (apply run_invariant; [intros; apply step_sound; assumption|exact S]).
    assert (G : grows (memo s) (memo (run s l'))).
    { apply (run_invariant (fun s' => grows (memo s) (memo s'))); [|intros q K; exact K].
      intros s' n G q K. rewrite memo_step. apply move_grows, G, K. }
    destruct S as [F _]. destruct S' as [F' _]. split; intros v V.
    - pose proof (G Number) as K. pose proof (known_right (memo s) Number F) as R. pose proof (known_right _ Number F') as R'. cbn in K, R, R'. rewrite V in K, R.
      specialize (K eq_refl). specialize (R eq_refl). specialize (R' K). rewrite <- R. split; [reflexivity|]. rewrite <- R in R'. injection R' as R'. exact R'.
    - pose proof (G Kind) as K. pose proof (known_right (memo s) Kind F) as R. pose proof (known_right _ Kind F') as R'. cbn in K, R, R'. rewrite V in K, R.
      specialize (K eq_refl). specialize (R eq_refl). specialize (R' K). rewrite <- R. split; [reflexivity|]. rewrite <- R in R'. injection R' as R'. exact R'.
  Qed.
  (** A bad dictionary leaves both memos as they were. *)
  Theorem C147_bad progs l : (forall v, parse <> Ok v) -> memo (run (start progs) l) = mkMemos None None.
  Proof.
    intros N. assert (S : sound (run (start progs) l)) by (apply run_invariant; [intros; apply step_sound; assumption|apply start_sound]).
    destruct S as [[F1 F2] _]. destruct (memo (run (start progs) l)) as [a b]. cbn in F1, F2.
    destruct F1 as [->|(x & k & P & _)]; [|destruct (N _ P)]. destruct F2 as [->|(x & k & P & _)]; [reflexivity|destruct (N _ P)].
  Qed.

  (** ** Ending *)
  Definition work t : nat := 7 * List.length (todo t) + match at_ t with Idle => 0 | Test1 _ => 6 | Test2 _ => 5 | Parse _ => 4 | Put1 _ _ _ => 3 | Put2 _ _ => 2 | Read _ => 1 end.
  Lemma move_work m t : work (snd (move parse m t)) <= work t - 1.
  Proof.
    unfold work, move. destruct t as [td p rs]. cbn [at_ todo]. destruct p as [|q|q|q|q x k|q k|q].
    - destruct td as [|q l]; [cbn; lia|]. cbn [snd todo at_ List.length]. destruct (known m q); lia.
    - cbn -[known]. destruct (known m Number); lia.
    - cbn -[known]. destruct (known m Kind); lia.
    - destruct parse as [[x k]| |]; cbn; lia.
    - cbn; lia.
    - cbn; lia.
    - cbn; lia.
  Qed.
  Lemma run_work l : forall s n, work (threads (run s l) n) <= work (threads s n) - count_occ Nat.eq_dec l n.
  Proof.
    induction l as [|k l IH]; intros s n; [cbn; lia|]. cbn [PairConc.run fold_left]. change (fold_left (PairConc.step parse) l (step s k)) with (run (step s k) l).
    specialize (IH (step s k) n). rewrite at_step in IH. cbn [count_occ]. destruct (Nat.eqb_spec n k) as [EQ|N]; [subst k|].
    - pose proof (move_work (memo s) (threads s n)). destruct (Nat.eq_dec n n) as [_|X]; [lia|destruct (X eq_refl)].
    - destruct (Nat.eq_dec k n) as [X|_]; [destruct (N (eq_sym X))|lia].
  Qed.
  (** The questions, asked in their order and none twice. *)
  Definition now t : list ask := match at_ t with Idle => [] | Test1 q | Test2 q | Parse q | Put1 q _ _ | Put2 q _ | Read q => [q] end.
  Definition asked t : list ask := map fst (results t) ++ now t ++ todo t.
  Lemma move_asked m t : asked (snd (move parse m t)) = asked t.
  Proof.
    unfold asked, now, move. destruct t as [td p rs]. cbn [at_ todo results]. destruct p as [|q|q|q|q x k|q k|q]; try reflexivity.
    - destruct td as [|q l]; [reflexivity|]. cbn [snd todo at_ results]. destruct (known m q); reflexivity.
    - cbn -[known]. destruct (known m Number); reflexivity.
    - cbn -[known]. destruct (known m Kind); reflexivity.
    - destruct parse as [[x k]| |]; [reflexivity| |]; cbn; rewrite map_app, <- app_assoc; reflexivity.
    - cbn. rewrite map_app, <- app_assoc. reflexivity.
  Qed.
  Lemma run_asked progs l n : asked (threads (run (start progs) l) n) = progs n.
  Proof.
    apply (run_invariant (fun s => asked (threads s n) = progs n)); [|reflexivity]. intros s k H. rewrite at_step. destruct (Nat.eqb_spec n k) as [->|]; [rewrite move_asked|]; exact H.
  Qed.
  Lemma all_right (l : list (ask * result (@value A B))) : (forall q y, In (q, y) l -> y = right q) -> l = map (fun q => (q, right q)) (map fst l).
  Proof. induction l as [|[q y] l IH]; intros H; [reflexivity|]. cbn. rewrite (H q y (or_introl eq_refl)) at 1. f_equal. apply IH. intros q' y' I. apply H. right. exact I. Qed.
  (** Nothing waits: a thread that moved seven times for each of its questions has the right answers
      to all of them, in the order it asked. *)
  Theorem C147_ends progs l n : 7 * List.length (progs n) <= count_occ Nat.eq_dec l n ->
    results (threads (run (start progs) l) n) = map (fun q => (q, right q)) (progs n).
  Proof.
    intros C. pose proof (run_work l (start progs) n) as W. unfold work at 2 in W. cbn [threads start todo at_] in W.
    assert (Z : work (threads (run (start progs) l) n) = 0) by lia. pose proof (run_asked progs l n) as Q.
    pose proof (C147_right progs l n) as R. destruct (threads (run (start progs) l) n) as [td p rs]. unfold work, asked, now in *. cbn [todo at_ results] in *.
    destruct td; [|cbn in Z; lia]. destruct p; cbn in Z; try lia. rewrite app_nil_r in Q. rewrite <- Q. apply all_right. exact R.
  Qed.

  (** ** How often the dictionary is read *)
  (** The moves of thread [n] that read it. *)
  Fixpoint parses s (l : list nat) (n : nat) : nat :=
    match l with
    | [] => 0
    | k :: l => (if Nat.eqb k n then match at_ (threads s n) with Parse _ => 1 | _ => 0 end else 0) + parses (step s k) l n
    end.
  Definition spent (m : @memos A B) t : Prop :=
    match at_ t with
    | Put1 _ _ _ => True
    | Put2 _ _ => known m Number = true
    | Parse _ => False
    | _ => known m Number = true /\ known m Kind = true
    end.
  Lemma spent_grows m m' t : grows m m' -> spent m t -> spent m' t.
  Proof. unfold spent. intros G H. destruct (at_ t); auto; destruct H as [H1 H2]; split; apply G; assumption. Qed.
  Lemma move_spent m t : spent m t -> spent (fst (move parse m t)) (snd (move parse m t)).
  Proof.
    unfold spent, move. destruct t as [td p rs]. cbn [at_ todo]. destruct p as [|q|q|q|q x k|q k|q]; intros H.
    - destruct H as [H1 H2]. destruct td as [|q l]; [split; assumption|]. cbn [fst snd at_].
      assert (K : known m q = true) by (destruct q; assumption). rewrite K. split; assumption.
    - destruct H as [H1 H2]. cbn -[known]. rewrite H1. split; first [reflexivity | assumption].
    - destruct H as [H1 H2]. cbn -[known]. rewrite H2. split; first [reflexivity | assumption].
    - destruct H.
    - reflexivity.
    - split; [exact H|reflexivity].
    - exact H.
  Qed.
  Lemma step_spent s k n : spent (memo s) (threads s n) -> spent (memo (step s k)) (threads (step s k) n).
  Proof.
    intros H. rewrite memo_step, at_step. destruct (Nat.eqb_spec n k) as [->|]; [apply move_spent, H|]. eapply spent_grows; [apply move_grows|exact H].
  Qed.
  Lemma spent_parses l : forall s n, spent (memo s) (threads s n) -> parses s l n = 0.
  Proof.
    induction l as [|k l IH]; intros s n H; [reflexivity|]. cbn [parses]. rewrite (IH _ _ (step_spent s k n H)).
    destruct (Nat.eqb k n); [|reflexivity]. unfold spent in H. destruct (at_ (threads s n)); try reflexivity. destruct H.
  Qed.
  Lemma parses_once l : (exists v, parse = Ok v) -> forall s n, parses s l n <= 1.
  Proof.
    intros [[x y] P]. induction l as [|k l IH]; intros s n; [cbn; lia|]. cbn [parses].
    destruct (Nat.eqb_spec k n) as [->|N]; [|apply IH].
    destruct (at_ (threads s n)) eqn:E; try apply IH. rewrite spent_parses; [lia|].
    rewrite at_step, Nat.eqb_refl. unfold spent, move. rewrite E, P. exact I.
  Qed.
  (** A thread reads a good dictionary at most once, however many questions it asks. *)
  Theorem C147_once progs l n : (exists v, parse = Ok v) -> parses (start progs) l n <= 1.
  Proof. intros P. apply parses_once, P. Qed.
End Any.

(** ** The two classes *)
(** The number of a HEALPix grid, beside the order (gridspec.py:402-420). *)
Definition inspect_healpix (g : gspec) : result (Z * val) :=
  o <- order g ;; gr <- dget "grid" (gd g) ;;
  match gr with VStr s => match py_int (tl (chars s)) with Some n => Ok (n, o) | None => Raise ValueError end | _ => Raise ValueError end.
Local Open Scope string_scope.
(** Threads that ask a reduced Gaussian grid: numbers and kinds are those of [inspect_RGG]. *)
Theorem C147_reduced d progs l n q y : In (q, y) (results (threads (run (inspect_RGG d) (start progs) l) n)) ->
  match q with
  | Number => y = (p <- inspect_RGG d ;; Ok (VNumber (Some (fst p))))
  | Kind => y = (p <- inspect_RGG d ;; Ok (VKind (Some (snd p))))
  end.
Proof. intros I. apply C147_right in I. subst y. unfold right. destruct (inspect_RGG d) as [[x k]| |]; destruct q; reflexivity. Qed.
(** Threads that compare a HEALPix grid: each sees the order that it has. *)
Theorem C147_healpix g progs l n y : In (Kind, y) (results (threads (run (inspect_healpix g) (start progs) l) n)) ->
  y = (o <- order g ;; Ok (VKind (Some o))).
Proof.
  intros I. apply C147_right in I. subst y. unfold right, inspect_healpix, order.
  destruct (dget "grid" (gd g)) as [v| |]; cbn [bind]; try reflexivity. destruct v as [| | | |s| |]; try reflexivity.
  destruct (HEALPIX_match s); [|reflexivity]. destruct (py_int (tl (chars s))) as [n0|]; [|reflexivity]. cbv zeta.
  destruct (negb _); [reflexivity|]. destruct ((n0 <? 1) || (1000000 <? n0))%Z; reflexivity.
Qed.

(** ** The bound is met *)
(** Two threads read the dictionary of the same object, each once. *)
Example C147_both : exists d l, (exists v, inspect_RGG d = Ok v) /\
  let s := start (fun n => if Nat.ltb n 2 then [Kind; Number] else []) in
  parses (inspect_RGG d) s l 0 = 1 /\ parses (inspect_RGG d) s l 1 = 1 /\
  results (threads (run (inspect_RGG d) s l) 0) = [(Kind, Ok (VKind (Some true))); (Number, Ok (VNumber (Some 32%Z)))] /\
  results (threads (run (inspect_RGG d) s l) 1) = [(Kind, Ok (VKind (Some true))); (Number, Ok (VNumber (Some 32%Z)))].
Proof.
  exists [("grid", VStr "O32")], [0; 1; 0; 1; 0; 1; 0; 0; 0; 0; 0; 1; 1; 1; 1; 1]%nat. split; [eexists; vm_compute; reflexivity|]. vm_compute. auto.
Qed.

(** ** The hypotheses are met *)
(** The second thread finds the number but not yet the kind. *)
Example C147_between : exists d l, let s := run (inspect_RGG d) (start (fun n => if Nat.ltb n 2 then [Kind] else [])) l in
  m_number (memo s) = Some 32%Z /\ m_kind (memo s) = None /\ at_ (threads s 1) = Test2 Kind.
Proof. exists [("grid", VStr "O32")], [0; 0; 0; 0; 1; 1]%nat. vm_compute. auto. Qed.
Example C147_bad_met : forall v, inspect_RGG [("grid", VStr "O0")] <> Ok v.
Proof. intros v. vm_compute. discriminate. Qed.
Example C147_ends_met : results (threads (run (inspect_RGG [("grid", VStr "N80")]) (start (fun n => if Nat.eqb n 0 then [Number] else [])) (repeat 0 7)) 0) = [(Number, Ok (VNumber (Some 80%Z)))].
Proof. vm_compute. reflexivity. Qed.
Example C147_healpix_met : exists g, from_dict [("grid", VStr "H8"); ("order", VStr "nested")] = Ok g /\
  results (threads (run (inspect_healpix g) (start (fun n => if Nat.ltb n 2 then [Kind] else [])) [0; 1; 0; 1; 0; 1; 0; 1; 0; 1; 0; 1]%nat) 1) = [(Kind, Ok (VKind (Some (VStr "nested"))))].
Proof. eexists. split; [vm_compute; reflexivity|]. vm_compute. reflexivity. Qed.

Print Assumptions C147_right.
Print Assumptions C147_settled.
Print Assumptions C147_bad.
Print Assumptions C147_ends.
Print Assumptions C147_once.
Print Assumptions C147_reduced.
Print Assumptions C147_healpix.
