(** Proofs about weights indexes. *)
From Verif Require Import PyBase ListLemmas PyStr Float64 GridSpec GridVocab GridProofs GridProofs3 Index IndexSpec.
Set Default Proof Using "Type".
Local Open Scope string_scope.
Local Open Scope list_scope.
Local Open Scope Z_scope.

Section P.
  Context {rest : Type}.
  Variables (py_str : val -> string) (key_order : list string) (fuel : nat).
  Notation used := (used fuel).
  Notation used_entry := (@used_entry rest fuel).
  Notation used_index := (@used_index rest fuel).

  (** ** Memos *)
  Lemma used_refl g : used g g.
  Proof. repeat split. left. reflexivity. Qed.
  Lemma used_same g0 g : used g0 g -> ew g = ew g0 -> g = g0.
  Proof. clear. intros (A & B & C & _) D. destruct g, g0. cbn in *. congruence. Qed.
  Lemma ew_used g0 g : used g0 g ->
    snd (is_global_ew fuel g) = snd (is_global_ew fuel g0) /\
    (forall b, snd (is_global_ew fuel g) = Ok b -> used g0 (fst (is_global_ew fuel g))).
  Proof.
    clear. intros U. pose proof U as (A & B & C & [E|(b & E0 & E & S)]).
    - apply used_same in U; [|exact E]. subst g. split; [reflexivity|]. intros b H.
      destruct (is_global_ew fuel g0) as [g' r] eqn:Q. cbn in H. subst r. destruct (ew_again _ _ _ _ Q) as (F & F1 & F2 & F3).
      cbn [fst]. unfold IndexSpec.used. split; [exact F1|]. split; [exact F2|]. split; [exact F3|]. rewrite Q. cbn [snd].
      unfold is_global_ew in F. destruct (ew g') as [x|] eqn:W.
      + inversion F; subst x. destruct (ew g0) as [y|] eqn:Y.
        * unfold is_global_ew in Q. rewrite Y in Q. inversion Q; subst. left. congruence.
        * right. exists b. auto.
      + destruct (cls g') eqn:X; try discriminate F; (destruct (_ : result (num * num)) as [[w e]|x|] in F; try discriminate F;
          destruct (spans g' w e) in F; inversion F as [[P1]]; exfalso; rewrite <- P1 in W; discriminate W).
    - assert (Q : is_global_ew fuel g = (g, Ok b)) by (unfold is_global_ew; rewrite E; reflexivity).
      rewrite Q. cbn. split; [congruence|]. intros _ _. exact U.
  Qed.
  Lemma used_area g0 g n : used g0 g -> area_at g n = area_at g0 n.
  Proof. clear. intros (A & B & C & _). unfold area_at. rewrite B. reflexivity. Qed.
  Lemma both_used g0 g h0 h eps : used g0 g -> used h0 h ->
    snd (both_global fuel g h eps) = snd (both_global fuel g0 h0 eps) /\
    (forall b, snd (both_global fuel g h eps) = Ok b ->
       used g0 (fst (fst (both_global fuel g h eps))) /\ used h0 (snd (fst (both_global fuel g h eps)))).
  Proof.
    clear. intros A B. unfold both_global. destruct (ew_used g0 g A) as [E1 U1], (ew_used h0 h B) as [E2 U2].
    rewrite !(used_area g0 g _ A), !(used_area h0 h _ B).
    destruct (is_global_ew fuel g) as [g1 r1], (is_global_ew fuel g0) as [g2 r2], (is_global_ew fuel h) as [h1 q1], (is_global_ew fuel h0) as [h2 q2].
    cbn [fst snd] in *. subst r2 q2. destruct r1 as [[]|x|]; cbn [fst snd]; try (split; [reflexivity|]; intros b H; first [discriminate H|split; [eapply U1; reflexivity|exact B]]; fail).
    destruct q1 as [[]|x|]; cbn [fst snd]; (split; [reflexivity|]; intros b H; first [discriminate H|split; [eapply U1; reflexivity|eapply U2; reflexivity]]).
  Qed.
  Lemma eq_used g0 g h0 h : used g0 g -> used h0 h ->
    snd (eq py_str key_order fuel g h) = snd (eq py_str key_order fuel g0 h0) /\
    (forall b, snd (eq py_str key_order fuel g h) = Ok b ->
       used g0 (fst (fst (eq py_str key_order fuel g h))) /\ used h0 (snd (fst (eq py_str key_order fuel g h)))).
  Proof.
    intros A B. pose proof A as (A1 & A2 & A3 & _). pose proof B as (B1 & B2 & B3 & _).
    assert (EB : eq_base py_str key_order g h = eq_base py_str key_order g0 h0) by (unfold eq_base; rewrite A2, B2; reflexivity).
    unfold eq. rewrite EB, A1, !A2, !B2, !(used_area g0 g _ A), !(used_area h0 h _ B).
    destruct (eq_base py_str key_order g0 h0) as [[]|x|]; try (split; [reflexivity|auto]; fail).
    destruct (cls g0).
    - split_match; try (split; [reflexivity|auto]; fail). split_match; try (split; [reflexivity|auto]; fail). apply both_used; assumption.
    - split_match; try (split; [reflexivity|auto]; fail). apply both_used; assumption.
    - cbn [fst snd]. unfold order. rewrite A2, B2. split; [reflexivity|auto].
    - cbn. auto.
  Qed.

  (** ** find *)
  (** The answer of one entry, from the objects as they were made. *)
  Definition answer (e : entry rest) (gi go : gspec) (m : string) : result bool :=
    s <- interpolation_method_name (e_raw e) ;;
    if String.eqb s m then
      b <- snd (eq py_str key_order fuel (e_input e) gi) ;;
      if b then snd (eq py_str key_order fuel (e_output e) go) else Ok false
    else Ok false.
  Lemma answer_yes e gi go m : answer e gi go m = Ok true <-> answers py_str key_order fuel e gi go m.
  Proof.
    unfold answer, answers, compares. destruct (interpolation_method_name (e_raw e)) as [s|x|]; cbn [bind]; [|split; [discriminate|intros (H & _); discriminate]..].
    destruct (String.eqb_spec s m) as [->|N]; [|split; [discriminate|intros (H & _); congruence]].
    destruct (snd (eq py_str key_order fuel (e_input e) gi)) as [[]|x|]; cbn [bind]; split; try discriminate; try (intros (_ & H & _); discriminate); intuition.
  Qed.
  Lemma answer_no e gi go m : answer e gi go m = Ok false <-> does_not_answer py_str key_order fuel e gi go m.
  Proof.
    unfold answer, does_not_answer, compares. destruct (interpolation_method_name (e_raw e)) as [s|x|]; cbn [bind]; [|split; [discriminate|intros (? & H & _); discriminate]..].
    destruct (String.eqb_spec s m) as [->|N].
    - destruct (snd (eq py_str key_order fuel (e_input e) gi)) as [[]|x|]; cbn [bind]; split; try discriminate.
      + intros H. exists m. auto.
      + intros (s & E & [H|[H|[_ H]]]); [congruence|discriminate|exact H].
      + intros _. exists m. auto.
      + reflexivity.
      + intros (s & E & [H|[H|[H _]]]); [congruence|discriminate|discriminate].
      + intros (s & E & [H|[H|[H _]]]); [congruence|discriminate|discriminate].
    - split; [intros _; exists s; auto|reflexivity].
  Qed.
  Lemma answers_or_not (e : entry rest) gi go m : answers py_str key_order fuel e gi go m -> does_not_answer py_str key_order fuel e gi go m -> False.
  Proof. intros A B. apply answer_yes in A. apply answer_no in B. congruence. Qed.

  Lemma match_used e0 e gi0 gi go0 go m : used_entry e0 e -> used gi0 gi -> used go0 go ->
    let '(e', gi', go', r) := match_entry py_str key_order fuel e gi go m in
    r = answer e0 gi0 go0 m /\ (forall b, r = Ok b -> used_entry e0 e' /\ used gi0 gi' /\ used go0 go').
  Proof.
    intros (U1 & U2 & N & R) V W. unfold match_entry, answer. rewrite R.
    destruct (interpolation_method_name (e_raw e0)) as [s|x|]; cbn [bind]; [|split; [reflexivity|discriminate]..].
    destruct (String.eqb s m); [|split; [reflexivity|intros b _; exact (conj (conj U1 (conj U2 (conj N R))) (conj V W))]].
    destruct (eq_used _ _ _ _ U1 V) as [E1 K1]. destruct (eq py_str key_order fuel (e_input e) gi) as [[ei gi'] r]. cbn [fst snd] in *. rewrite <- E1.
    destruct r as [[]|x|]; cbn [bind]; [|split; [reflexivity|]; intros b H; first [discriminate H|destruct (K1 _ eq_refl) as [Q1 Q2]; exact (conj (conj Q1 (conj U2 (conj N eq_refl))) (conj Q2 W))]..].
    destruct (eq_used _ _ _ _ U2 W) as [E2 K2]. destruct (eq py_str key_order fuel (e_output e) go) as [[eo go'] r]. cbn [fst snd] in *.
    split; [exact E2|]. intros b H. destruct (K1 _ eq_refl) as [Q1 Q2], (K2 _ H) as [Q3 Q4]. exact (conj (conj Q1 (conj Q3 (conj N eq_refl))) (conj Q2 Q4)).
  Qed.

  (** The first entry that answers, asking the entries in order; an exception stops. *)
  Fixpoint first (idx : index rest) (gi go : gspec) (m : string) : result (option (entry rest)) :=
    match idx with
    | [] => Ok None
    | (n, e) :: l => b <- answer e gi go m ;; if b then Ok (Some e) else first l gi go m
    end.
  Definition found (o0 o : result (option (entry rest))) : Prop :=
    match o0, o with
    | Ok (Some e0), Ok (Some e) => used_entry e0 e
    | x, y => x = y
    end.
  Lemma loop_used i0 i : used_index i0 i -> forall gi0 gi go0 go m, used gi0 gi -> used go0 go ->
    found (first i0 gi0 go0 m) (snd (find_loop py_str key_order fuel i gi go m)) /\
    (forall x, snd (find_loop py_str key_order fuel i gi go m) = Ok x -> used_index i0 (fst (find_loop py_str key_order fuel i gi go m))).
  Proof.
    intros H. induction H as [|[n0 e0] [n e] i0 i [HN HE] HI IH]; intros gi0 gi go0 go m V W; cbn [find_loop first].
    - cbn. split; [reflexivity|]. intros _ _. constructor.
    - cbn [fst snd] in HN, HE. subst n0. pose proof (match_used e0 e gi0 gi go0 go m HE V W) as M.
      destruct (match_entry py_str key_order fuel e gi go m) as [[[e' gi'] go'] r]. destruct M as [-> K].
      destruct (answer e0 gi0 go0 m) as [[]|x|]; cbn [bind].
      + destruct (K _ eq_refl) as (K1 & K2 & K3). cbn. split; [exact K1|]. intros _ _. constructor; [cbn; auto|exact HI].
      + destruct (K _ eq_refl) as (K1 & K2 & K3). destruct (IH gi0 gi' go0 go' m K2 K3) as [F U].
        destruct (find_loop py_str key_order fuel i gi' go' m) as [l' y]. cbn [fst snd] in *. split; [exact F|].
        intros x E. constructor; [cbn; auto|exact (U x E)].
      + cbn. split; [reflexivity|discriminate].
      + cbn. split; [reflexivity|discriminate].
  Qed.
  Lemma used_index_refl i : used_index i i.
  Proof. induction i as [|[n e] i IH]; constructor; [cbn; repeat split; apply used_refl|exact IH]. Qed.

  Lemma first_some i gi go m e : first i gi go m = Ok (Some e) <->
    exists pre n post, i = pre ++ (n, e) :: post /\ answers py_str key_order fuel e gi go m /\
      Forall (fun p => does_not_answer py_str key_order fuel (snd p) gi go m) pre.
  Proof.
    induction i as [|[n0 e0] i IH]; cbn [first].
    - split; [discriminate|]. intros ([|? ?] & ? & ? & H & _); discriminate H.
    - split.
      + destruct (answer e0 gi go m) as [[]|x|] eqn:A; cbn [bind]; try discriminate.
        * intros H. inversion H; subst e0. exists [], n0, i. split; [reflexivity|]. split; [apply answer_yes; exact A|constructor].
        * intros H. apply IH in H. destruct H as (pre & n & post & -> & Y & F). exists ((n0, e0) :: pre), n, post.
          split; [reflexivity|]. split; [exact Y|]. constructor; [apply answer_no; exact A|exact F].
      + intros ([|p pre] & n & post & H & Y & F).
        * inversion H; subst. apply answer_yes in Y. rewrite Y. reflexivity.
        * inversion H; subst. inversion F as [|? ? F1 F2]; subst. apply answer_no in F1. cbn in F1. rewrite F1. cbn [bind].
          apply IH. exists pre, n, post. auto.
  Qed.
  Lemma first_none i gi go m : first i gi go m = Ok None <->
    Forall (fun p => does_not_answer py_str key_order fuel (snd p) gi go m) i.
  Proof.
    induction i as [|[n0 e0] i IH]; cbn [first]; [split; [constructor|reflexivity]|]. split.
    - destruct (answer e0 gi go m) as [[]|x|] eqn:A; cbn [bind]; try discriminate. intros H. constructor; [apply answer_no; exact A|apply IH; exact H].
    - intros F. inversion F as [|? ? F1 F2]; subst. apply answer_no in F1. cbn in F1. rewrite F1. apply IH. exact F2.
  Qed.

  (** ** Histories of lookups on one index object *)
  Definition lookup := (dict * dict * string)%type.
  Fixpoint run (i : index rest) (qs : list lookup) : index rest * list (result (option (entry rest))) :=
    match qs with
    | [] => (i, [])
    | (di, do, m) :: r => let '(i', x) := find py_str key_order fuel i di do m in
                          let '(i'', xs) := run i' r in (i'', x :: xs)
    end.
  Lemma find_used i0 i di do m : used_index i0 i ->
    found (match (gi <- from_dict di ;; go <- from_dict do ;; Ok (gi, go)) with
           | Ok (gi, go) => first i0 gi go m | Raise x => Raise x | OutOfFuel => OutOfFuel end)
          (snd (find py_str key_order fuel i di do m)) /\
    (forall x, snd (find py_str key_order fuel i di do m) = Ok x -> used_index i0 (fst (find py_str key_order fuel i di do m))).
  Proof.
    intros U. unfold find. destruct (_ : result (gspec * gspec)) as [[gi go]|x|]; cbn [fst snd]; [|split; [reflexivity|discriminate]..].
    apply (loop_used i0 i U gi gi go go m (used_refl gi) (used_refl go)).
  Qed.
  Lemma run_used qs : forall i0 i, used_index i0 i -> Forall (fun x => is_ok x = true) (snd (run i qs)) ->
    used_index i0 (fst (run i qs)).
  Proof.
    induction qs as [|[[di do] m] qs IH]; intros i0 i U F; cbn [run] in *; [exact U|].
    destruct (find_used i0 i di do m U) as [_ K]. destruct (find py_str key_order fuel i di do m) as [i' x]. cbn [fst snd] in *.
    specialize (IH i0 i'). destruct (run i' qs) as [i'' xs]. cbn [fst snd] in *. inversion F as [|? ? F1 F2]; subst.
    destruct x as [x|x|]; try discriminate F1. exact (IH (K x eq_refl) F2).
  Qed.
End P.
