(** Generic lemmas on lists and association lists. *)
From Verif Require Import PyBase.
From Coq Require Import Permutation.

Lemma zsum_app a b : zsum (a ++ b) = zsum a + zsum b.
Proof. induction a as [|x a IH]; cbn; [reflexivity|]. lia. Qed.

Lemma zsum_nonneg l : Forall (fun x => 0 <= x) l -> 0 <= zsum l.
Proof. induction 1; cbn; lia. Qed.

Lemma zsum_perm a b : Permutation a b -> zsum a = zsum b.
Proof. induction 1; cbn; lia. Qed.

Section Assoc.
  Context {A : Type}.
  Implicit Types l : list (string * A).

  Lemma akeys_map l : akeys l = map fst l.
  Proof. induction l as [|[k a] l IH]; cbn; congruence. Qed.

  Lemma In_akeys k a l : In (k, a) l -> In k (akeys l).
  Proof. intros H. rewrite akeys_map. apply (in_map fst) in H. exact H. Qed.

  Lemma akeys_app l1 l2 : akeys (l1 ++ l2) = akeys l1 ++ akeys l2.
  Proof. rewrite !akeys_map. apply map_app. Qed.

  Lemma alookup_In k l a : alookup k l = Some a -> In (k, a) l.
  Proof.
    induction l as [|[k' a'] l IH]; cbn; [discriminate|].
    destruct (String.eqb_spec k k'); intros H; [inversion H; subst; auto | auto].
  Qed.

  Lemma alookup_None k l : alookup k l = None <-> ~ In k (akeys l).
  Proof.
    induction l as [|[k' a'] l IH]; cbn; [tauto|].
    destruct (String.eqb_spec k k'); split; intros H; try discriminate.
    - exfalso; apply H; auto.
    - intros [E|E]; [congruence | apply IH in H; auto].
    - apply IH. tauto.
  Qed.

  Lemma alookup_Some_key k l a : alookup k l = Some a -> In k (akeys l).
  Proof. intros H. apply alookup_In in H. now apply In_akeys in H. Qed.

  Lemma In_alookup k l a : NoDup (akeys l) -> In (k, a) l -> alookup k l = Some a.
  Proof.
    induction l as [|[k' a'] l IH]; cbn; intros ND HI; [tauto|].
    inversion ND as [|? ? Hn ND']; subst.
    destruct HI as [HI|HI].
    - inversion HI; subst. rewrite String.eqb_refl. reflexivity.
    - destruct (String.eqb_spec k k'); [|auto].
      subst. exfalso. apply Hn. now apply In_akeys in HI.
  Qed.

  Lemma aremove_notin k l : ~ In k (akeys l) -> aremove k l = l.
  Proof.
    induction l as [|[k' a'] l IH]; cbn; intros H; [reflexivity|].
    destruct (String.eqb_spec k k'); [exfalso; apply H; auto|].
    rewrite IH; tauto.
  Qed.

  Lemma aremove_keys_in k x l : In x (akeys (aremove k l)) <-> In x (akeys l) /\ x <> k.
  Proof.
    induction l as [|[k' a'] l IH]; cbn; [tauto|].
    destruct (String.eqb_spec k k'); cbn; rewrite IH; intuition congruence.
  Qed.

  Lemma aremove_In k x a l : In (x, a) (aremove k l) <-> In (x, a) l /\ x <> k.
  Proof.
    induction l as [|[k' a'] l IH]; cbn; [tauto|].
    destruct (String.eqb_spec k k'); cbn; rewrite IH; intuition congruence.
  Qed.

  Lemma aremove_NoDup k l : NoDup (akeys l) -> NoDup (akeys (aremove k l)).
  Proof.
    induction l as [|[k' a'] l IH]; cbn; intros H; [constructor|].
    inversion H; subst.
    destruct (String.eqb_spec k k'); [auto|].
    cbn. constructor; [|auto]. rewrite aremove_keys_in. tauto.
  Qed.

  Lemma aremove_split k l a :
    NoDup (akeys l) -> alookup k l = Some a ->
    exists l1 l2, l = l1 ++ (k, a) :: l2 /\ aremove k l = l1 ++ l2.
  Proof.
    induction l as [|[k' a'] l IH]; cbn; intros ND H; [discriminate|].
    inversion ND; subst.
    destruct (String.eqb_spec k k').
    - inversion H; subst. exists [], l. cbn. split; [reflexivity|].
      apply aremove_notin. assumption.
    - destruct IH as (l1 & l2 & E1 & E2); auto.
      exists ((k', a') :: l1), l2. cbn. rewrite <- E2, E1. auto.
  Qed.

  Lemma aremove_perm k l a :
    NoDup (akeys l) -> alookup k l = Some a -> Permutation l ((k, a) :: aremove k l).
  Proof.
    intros ND H. destruct (aremove_split k l a ND H) as (l1 & l2 & E1 & E2).
    rewrite E2, E1. symmetry. apply Permutation_middle.
  Qed.

  Lemma aset_notin k v l : ~ In k (akeys l) -> aset k v l = l ++ [(k, v)].
  Proof.
    induction l as [|[k' a'] l IH]; cbn; intros H; [reflexivity|].
    destruct (String.eqb_spec k k'); [exfalso; apply H; auto|].
    rewrite IH; tauto.
  Qed.

  Lemma alookup_aset_eq k v l : alookup k (aset k v l) = Some v.
  Proof.
    induction l as [|[k' a'] l IH]; cbn; [now rewrite String.eqb_refl|].
    destruct (String.eqb_spec k k'); cbn.
    - subst. now rewrite String.eqb_refl.
    - destruct (String.eqb_spec k k'); [contradiction|exact IH].
  Qed.

  Lemma alookup_aset_neq k k' v l : k <> k' -> alookup k' (aset k v l) = alookup k' l.
  Proof.
    intros Hne. induction l as [|[x a'] l IH]; cbn.
    - destruct (String.eqb_spec k' k); [congruence|reflexivity].
    - destruct (String.eqb_spec k x); cbn.
      + subst. destruct (String.eqb_spec k' x); [congruence|reflexivity].
      + destruct (String.eqb_spec k' x); [reflexivity|exact IH].
  Qed.

  Lemma akeys_aset k v l :
    akeys (aset k v l) = if amem k l then akeys l else akeys l ++ [k].
  Proof.
    unfold amem. induction l as [|[x a'] l IH]; cbn; [reflexivity|].
    destruct (String.eqb_spec k x); cbn; [reflexivity|].
    rewrite IH. destruct (alookup k l); reflexivity.
  Qed.

  Lemma NoDup_snoc (x : string) (l : list string) : NoDup l -> ~ In x l -> NoDup (l ++ [x]).
  Proof.
    induction l as [|y l IH]; cbn; intros ND HN; [constructor; auto|].
    inversion ND; subst. constructor.
    - rewrite in_app_iff. cbn. intuition congruence.
    - apply IH; tauto.
  Qed.

  Lemma alookup_app k l1 l2 :
    alookup k (l1 ++ l2) = match alookup k l1 with Some a => Some a | None => alookup k l2 end.
  Proof.
    induction l1 as [|[x a'] l IH]; cbn; [reflexivity|].
    destruct (String.eqb k x); [reflexivity|exact IH].
  Qed.

  Lemma alookup_aremove_neq k k' l : k <> k' -> alookup k' (aremove k l) = alookup k' l.
  Proof.
    intros Hne. induction l as [|[x a'] l IH]; cbn; [reflexivity|].
    destruct (String.eqb_spec k x); cbn.
    - subst. destruct (String.eqb_spec k' x); [congruence|exact IH].
    - destruct (String.eqb_spec k' x); [reflexivity|exact IH].
  Qed.

  Lemma alookup_aremove_eq k l : alookup k (aremove k l) = None.
  Proof. apply alookup_None. rewrite aremove_keys_in. tauto. Qed.
End Assoc.
