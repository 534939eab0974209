(** Comparison depends on the dictionaries through their lookups only, and can be repeated. *)
From Verif Require Import PyBase ListLemmas PyStr Float64 GridSpec GridVocab GridProofs.
Set Default Proof Using "Type".
Local Open Scope string_scope.
Local Open Scope list_scope.
Local Open Scope Z_scope.

Ltac split_match := match goal with |- context [match ?x with Ok _ => _ | Raise _ => _ | OutOfFuel => _ end] => destruct x as [[]|?|] end.

Section Same.
  Variables (py_str : val -> string) (key_order : list string) (fuel : nat).

  Lemma same_compare_keys ks d d' e e' : same_dict d d' -> same_dict e e' ->
    compare_keys py_str ks d e = compare_keys py_str ks d' e'.
  Proof.
    intros A B. induction ks as [|k r IH]; cbn [compare_keys]; [reflexivity|].
    rewrite (same_dget k d d' A), (same_dget k e e' B), IH. reflexivity.
  Qed.
  Lemma same_base g g' h h' : same_spec g g' -> same_spec h h' ->
    eq_base py_str key_order g h = eq_base py_str key_order g' h'.
  Proof.
    intros (A1 & A2 & A3 & A4) (B1 & B2 & B3 & B4). unfold eq_base, get_type.
    rewrite (A2 "type"), (B2 "type"), (A2 "shape"), (B2 "shape"), (same_compare_keys key_order _ _ _ _ A2 B2). reflexivity.
  Qed.
  Lemma same_area_at g g' n : same_spec g g' -> area_at g n = area_at g' n.
  Proof. clear. intros (A1 & A2 & A3 & A4). unfold area_at. rewrite (same_dget "area" _ _ A2). reflexivity. Qed.
  Lemma same_dx g g' : same_spec g g' -> dx g = dx g'.
  Proof. clear. intros (A1 & A2 & A3 & A4). unfold dx, inspect_RGG. rewrite A1, (same_dget "grid" _ _ A2). reflexivity. Qed.
  Lemma same_spans g g' w e : same_spec g g' -> spans g w e = spans g' w e.
  Proof. clear. intros H. unfold spans. rewrite (same_dx g g' H). reflexivity. Qed.
  Lemma same_set_ew g g' b : same_spec g g' -> same_spec (set_ew g b) (set_ew g' b).
  Proof. clear. intros (A1 & A2 & A3 & A4). unfold same_spec, set_ew. cbn. auto. Qed.
  Lemma same_ew g g' : same_spec g g' ->
    snd (is_global_ew fuel g) = snd (is_global_ew fuel g') /\ same_spec (fst (is_global_ew fuel g)) (fst (is_global_ew fuel g')).
  Proof.
    clear. intros H. unfold is_global_ew. pose proof H as (A1 & A2 & A3 & A4). rewrite A3, A1. destruct (ew g'); [auto|].
    rewrite !(same_area_at g g' _ H).
    assert (X : forall c : gclass, snd (match (w0 <- area_at g' 1;; w <- normalise_lon fuel w0 0;; e0 <- area_at g' 3;; e <- normalise_lon fuel e0 0;; Ok (w, e)) with
       | Ok (w, e) => match spans g w e with Ok b => (set_ew g b, Ok b) | r => (set_ew g false, r) end
       | Raise x => (g, Raise x) | OutOfFuel => (g, OutOfFuel) end) =
      snd (match (w0 <- area_at g' 1;; w <- normalise_lon fuel w0 0;; e0 <- area_at g' 3;; e <- normalise_lon fuel e0 0;; Ok (w, e)) with
       | Ok (w, e) => match spans g' w e with Ok b => (set_ew g' b, Ok b) | r => (set_ew g' false, r) end
       | Raise x => (g', Raise x) | OutOfFuel => (g', OutOfFuel) end) /\
      same_spec (fst (match (w0 <- area_at g' 1;; w <- normalise_lon fuel w0 0;; e0 <- area_at g' 3;; e <- normalise_lon fuel e0 0;; Ok (w, e)) with
       | Ok (w, e) => match spans g w e with Ok b => (set_ew g b, Ok b) | r => (set_ew g false, r) end
       | Raise x => (g, Raise x) | OutOfFuel => (g, OutOfFuel) end))
      (fst (match (w0 <- area_at g' 1;; w <- normalise_lon fuel w0 0;; e0 <- area_at g' 3;; e <- normalise_lon fuel e0 0;; Ok (w, e)) with
       | Ok (w, e) => match spans g' w e with Ok b => (set_ew g' b, Ok b) | r => (set_ew g' false, r) end
       | Raise x => (g', Raise x) | OutOfFuel => (g', OutOfFuel) end))).
    { intros _. destruct (_ : result (num * num)) as [[w e]|x|]; [|cbn; auto|cbn; auto].
      rewrite (same_spans g g' w e H). destruct (spans g' w e); cbn; split; auto using same_set_ew. }
    destruct (cls g'); [exact (X LL)|exact (X RGG)|cbn; auto|cbn; auto].
  Qed.
  Lemma same_both g g' h h' eps : same_spec g g' -> same_spec h h' ->
    snd (both_global fuel g h eps) = snd (both_global fuel g' h' eps).
  Proof.
    clear. intros A B. unfold both_global. destruct (same_ew g g' A) as [E1 _], (same_ew h h' B) as [E2 _].
    destruct (is_global_ew fuel g) as [g1 r1], (is_global_ew fuel g') as [g2 r2], (is_global_ew fuel h) as [h1 q1], (is_global_ew fuel h') as [h2 q2].
    cbn in E1, E2. subst r2 q2. destruct r1 as [[]|x|]; try reflexivity. destruct q1 as [[]|x|]; try reflexivity.
    cbn [snd]. rewrite (same_area_at g g' 1 A), (same_area_at h h' 1 B). reflexivity.
  Qed.
  Lemma same_order g g' : same_spec g g' -> order g = order g'.
  Proof. clear. intros (A1 & A2 & A3 & A4). unfold order. rewrite (same_dget "grid" _ _ A2), (A2 "order"). reflexivity. Qed.
  Lemma eq_same g g' h h' : same_spec g g' -> same_spec h h' ->
    snd (eq py_str key_order fuel g h) = snd (eq py_str key_order fuel g' h').
  Proof.
    intros A B. unfold eq. rewrite (same_base g g' h h' A B). destruct (eq_base py_str key_order g' h') as [[]|x|]; try reflexivity.
    pose proof A as (A1 & A2 & A3 & A4). pose proof B as (B1 & B2 & B3 & B4). rewrite A1.
    rewrite !(same_dget "area" _ _ A2), !(same_dget "area" _ _ B2), !(same_area_at g g' _ A), !(same_area_at h h' _ B).
    destruct (cls g'); cbn [snd].
    - split_match; try reflexivity. split_match; try reflexivity. apply same_both; assumption.
    - split_match; try reflexivity. apply same_both; assumption.
    - rewrite (same_order g g' A), (same_order h h' B). reflexivity.
    - reflexivity.
  Qed.

  (** ** Repeated comparisons *)
  Lemma ew_again g g' b : is_global_ew fuel g = (g', Ok b) ->
    is_global_ew fuel g' = (g', Ok b) /\ cls g' = cls g /\ gd g' = gd g /\ ns g' = ns g.
  Proof.
    clear. unfold is_global_ew at 1. intros H.
    assert (X : (g' = g /\ ew g = Some b) \/ g' = set_ew g b).
    { destruct (ew g) as [x|]; [inversion H; subst; auto|].
      destruct (cls g); try discriminate; (destruct (_ : result (num * num)) as [[w e]|x|] in H; try discriminate;
        destruct (spans g w e); inversion H; subst; auto). }
    unfold is_global_ew. destruct X as [[-> E]| ->]; cbn; [rewrite E|]; auto.
  Qed.
  Lemma ew_obj g g' r : is_global_ew fuel g = (g', r) -> cls g' = cls g /\ gd g' = gd g.
  Proof.
    clear. unfold is_global_ew. destruct (ew g); [intros H; inversion H; auto|].
    destruct (cls g) eqn:E; try (intros H; inversion H; subst; auto; fail);
      (destruct (_ : result (num * num)) as [[w e]|x|]; [destruct (spans g w e)| |]; intros H; inversion H; subst; cbn; auto).
  Qed.
  Lemma both_again g h g' h' eps b : both_global fuel g h eps = (g', h', Ok b) ->
    snd (both_global fuel g' h' eps) = Ok b /\ (cls g' = cls g /\ gd g' = gd g) /\ (cls h' = cls h /\ gd h' = gd h).
  Proof.
    clear. unfold both_global at 1. destruct (is_global_ew fuel g) as [g1 [[]|x|]] eqn:E1; try (intros H; discriminate H).
    - destruct (is_global_ew fuel h) as [h1 [[]|x|]] eqn:E2; try (intros H; discriminate H).
      + intros H. inversion H as [[P1 P2 P3]]. subst g1 h1. destruct (ew_again _ _ _ E1) as (F1 & F2 & F3 & _). destruct (ew_again _ _ _ E2) as (K1 & K2 & K3 & _).
        split; [|auto]. unfold both_global. rewrite F1, K1. cbn [snd]. unfold area_at in *. rewrite F3, K3. first [exact P3|reflexivity].
      + intros H. inversion H; subst. destruct (ew_again _ _ _ E1) as (F1 & F2 & F3 & _). destruct (ew_again _ _ _ E2) as (K1 & K2 & K3 & _).
        split; [|auto]. unfold both_global. rewrite F1, K1. reflexivity.
    - intros H. inversion H; subst. destruct (ew_again _ _ _ E1) as (F1 & F2 & F3 & _). split; [|auto].
      unfold both_global. rewrite F1. reflexivity.
  Qed.
  Lemma eq_again g h g' h' b : eq py_str key_order fuel g h = (g', h', Ok b) ->
    snd (eq py_str key_order fuel g' h') = Ok b /\ gd g' = gd g /\ gd h' = gd h.
  Proof.
    intros H.
    assert (KEY : (g' = g /\ h' = h) \/ (exists eps, both_global fuel g h eps = (g', h', Ok b) /\ eps = match cls g with LL => DEGREE_EPS | _ => RGG_EPS end /\
        (cls g = LL \/ cls g = RGG))).
    { revert H. unfold eq. destruct (eq_base py_str key_order g h) as [[]|x|]; try (intros H; inversion H; auto; fail).
      destruct (cls g); try (intros H; inversion H; auto; fail).
      - split_match; try (intros H; inversion H; auto; fail). split_match; try (intros H; inversion H; auto; fail). intros H; right; eexists; split; [exact H|]; split; [reflexivity|auto].
      - split_match; try (intros H; inversion H; auto; fail). intros H; right; eexists; split; [exact H|]; split; [reflexivity|auto]. }
    destruct KEY as [[-> ->]|(eps & E & -> & C)]; [rewrite H; auto|].
    destruct (both_again _ _ _ _ _ _ E) as (B & (G1 & G2) & (K1 & K2)). split; [|auto].
    unfold eq in H |- *. assert (EB : eq_base py_str key_order g' h' = eq_base py_str key_order g h) by (unfold eq_base; rewrite G2, K2; reflexivity).
    rewrite EB. destruct (eq_base py_str key_order g h) as [[]|x|]; try (inversion H; reflexivity).
    rewrite G1, G2, K2. unfold area_at in *. rewrite G2, K2.
    destruct (cls g); try (destruct C; discriminate).
    - revert H. split_match; try (intros H; inversion H; reflexivity). split_match; try (intros H; inversion H; reflexivity). intros _. exact B.
    - revert H. split_match; try (intros H; inversion H; reflexivity). intros _. exact B.
  Qed.
End Same.
