(** The texts that are hashed determine the request. *)
From Verif Require Import PyBase PyStr Key KeySpec.
From Coq Require Import Permutation.
Local Open Scope string_scope.
Local Open Scope list_scope.

(** ** Strings *)
Lemma sapp_assoc a b c : ((a ++ b) ++ c)%string = (a ++ (b ++ c))%string.
Proof. induction a as [|x a IH]; cbn; [reflexivity|]. rewrite IH. reflexivity. Qed.
Lemma sapp_nil a : (a ++ "")%string = a.
Proof. induction a as [|x a IH]; cbn; [reflexivity|]. rewrite IH. reflexivity. Qed.
Lemma sapp_inv_head a x y : (a ++ x)%string = (a ++ y)%string -> x = y.
Proof. induction a as [|c a IH]; cbn; intros H; [exact H|]. inversion H. auto. Qed.
Lemma sapp_same_length a b x y : String.length a = String.length b -> (a ++ x)%string = (b ++ y)%string -> a = b /\ x = y.
Proof. revert b. induction a as [|c a IH]; intros [|d b] L H; cbn in *; try discriminate; [auto|]. inversion H. inversion L. destruct (IH b) as [-> ->]; auto. Qed.
Lemma slength_app a b : String.length (a ++ b)%string = (String.length a + String.length b)%nat.
Proof. induction a as [|c a IH]; cbn; [reflexivity|]. rewrite IH. reflexivity. Qed.

(** ** Escapes *)
Definition all_ascii : list ascii := map (fun n => ascii_of_nat n) (seq 0 256).
Lemma all_ascii_all c : In c all_ascii.
Proof. unfold all_ascii. apply in_map_iff. exists (nat_of_ascii c). split; [apply ascii_nat_embedding|]. apply in_seq. pose proof (nat_ascii_bounded c). lia. Qed.
Fixpoint comparable (a b : string) : bool :=
  match a, b with String x a', String y b' => Ascii.eqb x y && comparable a' b' | _, _ => true end.
Lemma comparable_app a b x y : (a ++ x)%string = (b ++ y)%string -> comparable a b = true.
Proof. revert b. induction a as [|c a IH]; intros [|d b] H; cbn in *; try reflexivity. inversion H; subst. rewrite Ascii.eqb_refl. cbn. eauto. Qed.
Lemma escape_code : forallb (fun c => forallb (fun d => Ascii.eqb c d || negb (comparable (escape c) (escape d))) all_ascii) all_ascii = true.
Proof. vm_compute. reflexivity. Qed.
Lemma escape_start : forallb (fun c => negb (comparable (escape c) """") && negb (String.eqb (escape c) "")) all_ascii = true.
Proof. vm_compute. reflexivity. Qed.
Lemma escape_inj c d x y : (escape c ++ x)%string = (escape d ++ y)%string -> c = d /\ x = y.
Proof.
  intros H. pose proof escape_code as E. rewrite forallb_forall in E. specialize (E c (all_ascii_all c)). rewrite forallb_forall in E. specialize (E d (all_ascii_all d)).
  rewrite (comparable_app _ _ _ _ H) in E. cbn in E. rewrite orb_false_r in E. apply Ascii.eqb_eq in E. subst d. split; [reflexivity|]. exact (sapp_inv_head _ _ _ H).
Qed.
Lemma escape_quote c x y : (escape c ++ x)%string <> String """" y.
Proof.
  intros H. pose proof escape_start as E. rewrite forallb_forall in E. specialize (E c (all_ascii_all c)). apply andb_prop in E. destruct E as [E _].
  change (String """" y) with ("""" ++ y)%string in H. rewrite (comparable_app _ _ _ _ H) in E. discriminate E.
Qed.
Lemma escapes_inj a b x y : (escapes a ++ String """" x)%string = (escapes b ++ String """" y)%string -> a = b /\ x = y.
Proof.
  revert b. induction a as [|c a IH]; intros [|d b]; cbn [escapes]; rewrite ?sapp_assoc; intros H.
  - cbn in H. inversion H. auto.
  - cbn in H. symmetry in H. destruct (escape_quote _ _ _ H).
  - cbn in H. destruct (escape_quote _ _ _ H).
  - apply escape_inj in H. destruct H as [-> H]. destruct (IH b H) as [-> ->]. auto.
Qed.
Lemma quote_inj a b x y : (quote a ++ x)%string = (quote b ++ y)%string -> a = b /\ x = y.
Proof.
  unfold quote. rewrite !sapp_assoc. cbn [String.append]. intros H. inversion H as [H']. apply escapes_inj in H'. exact H'.
Qed.

(** ** Sorting *)
Section Sort.
  Context {A : Type}.
  Implicit Types l m : list (string * A).
  Lemma insert_perm p l : Permutation (insert_key p l) (p :: l).
  Proof. induction l as [|q l IH]; cbn; [reflexivity|]. destruct (str_leb (fst p) (fst q)); [reflexivity|]. rewrite IH. apply perm_swap. Qed.
  Lemma sort_perm l : Permutation (sort_keys l) l.
  Proof. induction l as [|p l IH]; cbn; [reflexivity|]. rewrite insert_perm. constructor. exact IH. Qed.
End Sort.
Lemma insert_map {A B} (f : A -> B) p (l : list (string * A)) : insert_key (fst p, f (snd p)) (map (fun p => (fst p, f (snd p))) l) = map (fun p => (fst p, f (snd p))) (insert_key p l).
Proof. induction l as [|q l IH]; cbn; [reflexivity|]. destruct (str_leb (fst p) (fst q)); cbn; [reflexivity|]. rewrite IH. reflexivity. Qed.
Lemma sort_map {A B} (f : A -> B) (l : list (string * A)) : sort_keys (map (fun p => (fst p, f (snd p))) l) = map (fun p => (fst p, f (snd p))) (sort_keys l).
Proof. induction l as [|p l IH]; cbn; [reflexivity|]. fold (@sort_keys B). unfold sort_keys in *. cbn. rewrite IH. apply insert_map. Qed.
Lemma str_leb_total a b : str_leb a b = false -> str_leb b a = true.
Proof. revert b. induction a as [|x a IH]; intros [|y b]; cbn; try congruence; try reflexivity. rewrite (Ascii.eqb_sym y x). destruct (Ascii.eqb_spec x y) as [->|N]; [apply IH|]. intros H. apply Z.ltb_ge in H. apply Z.ltb_lt.
  assert (code x <> code y); [|lia]. intros E. apply N. unfold code in E. apply N2Z.inj in E. rewrite <- (ascii_N_embedding x), E. apply ascii_N_embedding. Qed.
Lemma str_leb_antisym a b : str_leb a b = true -> str_leb b a = true -> a = b.
Proof. revert b. induction a as [|x a IH]; intros [|y b]; cbn; try congruence. rewrite (Ascii.eqb_sym y x). destruct (Ascii.eqb_spec x y) as [->|N]; [intros; f_equal; auto|]. intros H1 H2. apply Z.ltb_lt in H1, H2. lia. Qed.
Lemma str_leb_trans a b c : str_leb a b = true -> str_leb b c = true -> str_leb a c = true.
Proof.
  revert b c. induction a as [|x a IH]; intros [|y b] [|z c]; cbn; try congruence. destruct (Ascii.eqb_spec x y) as [->|N1]; destruct (Ascii.eqb_spec y z) as [->|N2].
  - apply IH.
  - auto.
  - intros H _. destruct (Ascii.eqb_spec x z); [contradiction|exact H].
  - intros H1 H2. apply Z.ltb_lt in H1, H2. destruct (Ascii.eqb_spec x z) as [->|_]; [lia|]. apply Z.ltb_lt. lia.
Qed.
Section Sorted.
  Context {A : Type}.
  Implicit Types l m : list (string * A).
  Definition key_le (p q : string * A) : Prop := str_leb (fst p) (fst q) = true.
  Inductive sorted : list (string * A) -> Prop := sorted_nil : sorted [] | sorted_cons p l : sorted l -> (forall q, In q l -> key_le p q) -> sorted (p :: l).
  Lemma insert_sorted p l : sorted l -> sorted (insert_key p l).
  Proof.
    induction 1 as [|q l S IH H]; cbn; [repeat constructor; intros ? []|]. destruct (str_leb (fst p) (fst q)) eqn:L.
    - constructor; [constructor; assumption|]. intros x [<-|I]; [exact L|]. unfold key_le. eapply str_leb_trans; [exact L|]. apply H, I.
    - constructor; [exact IH|]. intros x I. apply (Permutation_in x (insert_perm p l)) in I. destruct I as [<-|I]; [apply str_leb_total, L|apply H, I].
  Qed.
  Lemma sort_sorted l : sorted (sort_keys l).
  Proof. induction l as [|p l IH]; cbn; [constructor|]. apply insert_sorted, IH. Qed.
  Lemma sorted_unique l m : NoDup (map fst l) -> sorted l -> sorted m -> Permutation l m -> l = m.
  Proof.
    revert m. induction l as [|p l IH]; intros m N S1 S2 P; [apply Permutation_nil in P; auto|]. destruct m as [|q m]; [apply Permutation_sym, Permutation_nil in P; discriminate P|].
    inversion S1; subst. inversion S2; subst. inversion N; subst. assert (p = q) as <-.
    { destruct (Permutation_in p P (or_introl eq_refl)) as [E|I]; [auto|]. destruct (Permutation_in q (Permutation_sym P) (or_introl eq_refl)) as [E|J]; [auto|exfalso].
      assert (E : fst p = fst q) by (apply str_leb_antisym; [apply H2, J|apply H4, I]). apply H5. rewrite E. apply in_map, J. }
    f_equal. apply IH; auto. exact (Permutation_cons_inv P).
  Qed.
  Lemma sort_eq l m : NoDup (map fst l) -> Permutation l m -> sort_keys l = sort_keys m.
  Proof.
    intros N P. apply sorted_unique; try apply sort_sorted.
    - eapply Permutation_NoDup; [|exact N]. apply Permutation_map, Permutation_sym, sort_perm.
    - rewrite (sort_perm l), (sort_perm m). exact P.
  Qed.
End Sorted.

(** ** Induction over JSON values *)
Section Induction.
  Variable P : json -> Prop.
  Hypothesis H1 : P JNull. Hypothesis H2 : forall b, P (JBool b). Hypothesis H3 : forall t, P (JNum t). Hypothesis H4 : forall s, P (JStr s).
  Hypothesis H5 : forall l, Forall P l -> P (JList l).
  Hypothesis H6 : forall l, Forall (fun p => P (snd p)) l -> P (JDict l).
  Fixpoint json_ind' (j : json) : P j :=
    match j with
    | JNull => H1 | JBool b => H2 b | JNum t => H3 t | JStr s => H4 s
    | JList l => H5 l ((fix go l : Forall P l := match l with [] => Forall_nil _ | x :: r => Forall_cons x (json_ind' x) (go r) end) l)
    | JDict l => H6 l ((fix go l : Forall (fun p => P (snd p)) l := match l with [] => Forall_nil _ | x :: r => Forall_cons x (json_ind' (snd x)) (go r) end) l)
    end.
End Induction.

(** ** Decoding *)
Definition stops (x : string) : Prop := match x with EmptyString => True | String c _ => num_char c = false end.
Definition is_num (j : json) : Prop := match j with JNum _ => True | _ => False end.
Definition decodes (a : json) : Prop := forall b x y, wf a -> wf b -> (is_num a -> stops x) -> (is_num b -> stops y) ->
  (dumps a ++ x)%string = (dumps b ++ y)%string -> jeq a b /\ x = y.

Lemma num_inj a b x y : forallb num_char (chars a) = true -> forallb num_char (chars b) = true -> stops x -> stops y -> (a ++ x)%string = (b ++ y)%string -> a = b /\ x = y.
Proof.
  revert b. induction a as [|c a IH]; intros [|d b] A B X Y H; cbn in *.
  - auto.
  - subst x. cbn in X. apply andb_prop in B. destruct B as [B _]. congruence.
  - subst y. cbn in Y. apply andb_prop in A. destruct A as [A _]. congruence.
  - inversion H; subst. apply andb_prop in A, B. destruct (IH b) as [-> ->]; tauto.
Qed.
(** The first characters tell the kinds apart. *)
Definition head (s : string) : ascii := match s with EmptyString => "000"%char | String c _ => c end.
Lemma dumps_head a : wf a ->
  match a with JNull => head (dumps a) = "n"%char | JBool true => head (dumps a) = "t"%char | JBool false => head (dumps a) = "f"%char
  | JNum _ => num_start (head (dumps a)) = true | JStr _ => head (dumps a) = """"%char | JList _ => head (dumps a) = "["%char | JDict _ => head (dumps a) = "{"%char end /\ dumps a <> "".
Proof. destruct a as [|[]|t|s|l|l]; cbn; try (split; [reflexivity|discriminate]). intros [_ H]. destruct t; [contradiction|]. split; [exact H|discriminate]. Qed.
Lemma head_app a x : a <> "" -> head (a ++ x)%string = head a.
Proof. destruct a; [contradiction|reflexivity]. Qed.

(** Elements separated by commas, up to a closing character. *)
Definition tail (close : string) (l : list string) (x : string) : string := fold_right (fun s r => (", " ++ s ++ r)%string) (close ++ x)%string l.
Lemma join_tail close s l x : (join_with ", " (s :: l) ++ close ++ x)%string = (s ++ tail close l x)%string.
Proof.
  revert s. induction l as [|a l IH]; intros s; [reflexivity|]. cbn [join_with]. cbn [join_with] in IH. rewrite !sapp_assoc, IH. reflexivity.
Qed.

Section Items.
  Context {T : Type}.
  Variable emit : T -> string.
  Variable rel : T -> T -> Prop.
  Variable ok : T -> Prop.
  Variable close : ascii.
  Hypothesis close_ok : close <> ","%char /\ num_char close = false.
  Hypothesis emit_head : forall b, ok b -> head (emit b) <> close /\ emit b <> "".
  Definition good (a : T) : Prop := forall b x y, ok b -> stops x -> stops y -> (emit a ++ x)%string = (emit b ++ y)%string -> rel a b /\ x = y.
  Notation cl := (String close "").
  Lemma tail_stops l x : stops (tail cl (map emit l) x).
  Proof. destruct l; cbn; [apply close_ok|reflexivity]. Qed.
  Lemma tail_inj l m x y : Forall good l -> Forall ok m -> tail cl (map emit l) x = tail cl (map emit m) y -> Forall2 rel l m /\ x = y.
  Proof.
    intros G. revert m. induction G as [|a l Ga G IH]; intros [|b m] O H; cbn [map tail fold_right] in H.
    - cbn in H. inversion H. split; [constructor|reflexivity].
    - cbn in H. inversion H as [[C _]]. destruct close_ok. congruence.
    - cbn in H. inversion H as [[C _]]. destruct close_ok. congruence.
    - inversion O; subst. cbn [String.append] in H. inversion H as [H']. fold (tail cl (map emit l) x) in H'. fold (tail cl (map emit m) y) in H'.
      destruct (Ga b _ _ ltac:(assumption) (tail_stops l x) (tail_stops m y) H') as [R E]. destruct (IH m ltac:(assumption) E) as [F ->]. split; [constructor; assumption|reflexivity].
  Qed.
  Lemma items_inj l m x y : Forall good l -> Forall ok l -> Forall ok m ->
    (join_with ", " (map emit l) ++ cl ++ x)%string = (join_with ", " (map emit m) ++ cl ++ y)%string -> Forall2 rel l m /\ x = y.
  Proof.
    intros G O1 O2 H. destruct l as [|a l], m as [|b m].
    - cbn in H. inversion H. split; [constructor|reflexivity].
    - exfalso. cbn [map] in H. rewrite join_tail in H. inversion O2; subst. destruct (emit_head b ltac:(assumption)) as [N1 N2]. apply (f_equal head) in H. rewrite (head_app (emit b)) in H by exact N2. apply N1. rewrite <- H. reflexivity.
    - exfalso. cbn [map] in H. rewrite join_tail in H. inversion O1; subst. destruct (emit_head a ltac:(assumption)) as [N1 N2]. apply (f_equal head) in H. rewrite (head_app (emit a)) in H by exact N2. apply N1. rewrite H. reflexivity.
    - cbn [map] in H. rewrite !join_tail in H. inversion G; subst. inversion O2; subst.
      match goal with Ga : good a |- _ => destruct (Ga b _ _ ltac:(assumption) (tail_stops l x) (tail_stops m y) H) as [R E] end.
      destruct (tail_inj l m x y ltac:(assumption) ltac:(assumption) E) as [F ->]. split; [constructor; assumption|reflexivity].
  Qed.
End Items.

Lemma wf_list l : wf (JList l) -> Forall wf l.
Proof. cbn. induction l as [|a l IH]; cbn; [constructor|]. intros [A B]. constructor; auto. Qed.
Lemma wf_dict l : wf (JDict l) -> NoDup (map fst l) /\ Forall (fun p => wf (snd p)) l.
Proof. cbn. intros [N H]. split; [exact N|]. clear N. induction l as [|a l IH]; cbn in *; [constructor|]. destruct H. constructor; auto. Qed.
Definition item (p : string * json) : string := (quote (fst p) ++ ": " ++ dumps (snd p))%string.
Lemma dumps_dict l : dumps (JDict l) = ("{" ++ join_with ", " (map item (sort_keys l)) ++ "}")%string.
Proof. cbn [dumps]. rewrite (sort_map dumps), map_map. reflexivity. Qed.

Definition same_kind (a b : json) : Prop :=
  match a, b with
  | JNull, JNull | JBool true, JBool true | JBool false, JBool false | JNum _, JNum _ | JStr _, JStr _ | JList _, JList _ | JDict _, JDict _ => True
  | _, _ => False
  end.
Lemma kinds a b x y : wf a -> wf b -> (dumps a ++ x)%string = (dumps b ++ y)%string -> same_kind a b.
Proof.
  intros WA WB H. apply (f_equal head) in H. destruct (dumps_head a WA) as [HA NA], (dumps_head b WB) as [HB NB]. rewrite !head_app in H by assumption.
  destruct a as [|[]|t|s|l|l], b as [|[]|t'|s'|m|m]; try exact I; exfalso; first [rewrite HA, HB in H; discriminate H | rewrite <- H, HA in HB; discriminate HB | rewrite H, HB in HA; discriminate HA].
Qed.

Lemma decoding a : decodes a.
Proof.
  induction a as [|b0|t|s|l IH|l IH] using json_ind'; intros b x y WA WB SA SB H; pose proof (kinds _ _ _ _ WA WB H) as K.
  - destruct b as [|[]|t'|s'|l'|l']; try contradiction. cbn in H. inversion H. split; [constructor|reflexivity].
  - destruct b0, b as [|[]|t'|s'|l'|l']; try contradiction; cbn in H; inversion H; (split; [constructor|reflexivity]).
  - destruct b as [|[]|t'|s'|l'|l']; try contradiction. cbn in H. cbn in WA, WB. unfold num_text in WA, WB. destruct (num_inj t t' x y (proj1 WA) (proj1 WB) (SA I) (SB I) H) as [-> ->]. split; [constructor|reflexivity].
  - destruct b as [|[]|t'|s'|l'|l']; try contradiction. cbn [dumps] in H. apply quote_inj in H. destruct H as [-> ->]. split; [constructor|reflexivity].
  - destruct b as [|[]|t'|s'|m|m]; try contradiction.
    cbn [dumps] in H. rewrite !sapp_assoc in H. cbn [String.append] in H. inversion H as [H']. apply wf_list in WA, WB.
    destruct (items_inj dumps jeq wf "]"%char) with (l := l) (m := m) (x := x) (y := y) as [F E]; [split; [discriminate|reflexivity]| | |exact WA|exact WB|cbn [String.append]; exact H'|split; [constructor; exact F|exact E]].
    + intros b WB'. destruct (dumps_head b WB') as [HB NB]. split; [|exact NB]. intros E. destruct b as [|[]|t'|s'|m'|m']; rewrite E in HB; discriminate HB.
    + rewrite Forall_forall in IH, WA |- *. intros a Ia b x' y' WB' SX SY E. apply (IH a Ia b x' y'); auto.
  - destruct b as [|[]|t'|s'|m|m]; try contradiction.
    rewrite !dumps_dict, !sapp_assoc in H. cbn [String.append] in H. inversion H as [H']. apply wf_dict in WA, WB. destruct WA as [_ WA], WB as [_ WB].
    assert (WL : Forall (fun p => wf (snd p)) (sort_keys l)) by (eapply Permutation_Forall; [apply Permutation_sym, sort_perm|exact WA]).
    assert (WM : Forall (fun p => wf (snd p)) (sort_keys m)) by (eapply Permutation_Forall; [apply Permutation_sym, sort_perm|exact WB]).
    assert (IL : Forall (fun p => decodes (snd p)) (sort_keys l)) by (eapply Permutation_Forall; [apply Permutation_sym, sort_perm|exact IH]).
    destruct (items_inj item (fun p q => fst p = fst q /\ jeq (snd p) (snd q)) (fun p => wf (snd p)) "}"%char) with (l := sort_keys l) (m := sort_keys m) (x := x) (y := y) as [F E];
      [split; [discriminate|reflexivity]| | |exact WL|exact WM|cbn [String.append]; exact H'|split; [|exact E]].
    + intros b _. split; discriminate.
    + rewrite Forall_forall in IL, WL |- *. intros a Ia b x' y' WB' SX SY E. unfold item in E. rewrite !sapp_assoc in E. apply quote_inj in E. destruct E as [K' E]. cbn [String.append] in E. inversion E as [E'].
      destruct (IL a Ia (snd b) x' y') as [J ->]; auto.
    + apply (jeq_dict l (sort_keys l) m (sort_keys m)); [apply Permutation_sym, sort_perm..|exact F].
Qed.

(** ** Equal values have equal texts *)
Lemma jeq_dumps a b : wf a -> jeq a b -> dumps a = dumps b.
Proof.
  revert b. induction a as [|b0|t|s|l IH|l IH] using json_ind'; intros b W J; inversion J; subst; try reflexivity.
  - apply wf_list in W. cbn [dumps]. do 2 f_equal. f_equal. match goal with F : Forall2 jeq l m |- _ => rename F into FF end. clear J. revert IH W. induction FF as [|x y l m R FF IHF]; intros IH W; [reflexivity|]. inversion IH; subst. inversion W; subst. cbn. f_equal; auto.
  - apply wf_dict in W. destruct W as [N W]. match goal with F : Forall2 _ l' m' |- _ => rename F into FF end. match goal with P : Permutation l l' |- _ => rename P into P1 end. match goal with P : Permutation m m' |- _ => rename P into P2 end.
    cbn [dumps]. do 2 f_equal. f_equal. f_equal.
    assert (W' : Forall (fun p => wf (snd p)) l') by (eapply Permutation_Forall; eauto).
    assert (IH' : Forall (fun p => forall b, wf (snd p) -> jeq (snd p) b -> dumps (snd p) = dumps b) l') by (eapply Permutation_Forall; [exact P1|exact IH]).
    assert (E : map (fun p => (fst p, dumps (snd p))) l' = map (fun p => (fst p, dumps (snd p))) m').
    { clear J N W IH P1 P2. induction FF as [|p q l0 m0 [R1 R2] FF IHF]; [reflexivity|]. inversion W'; subst. inversion IH'; subst. cbn. rewrite R1. f_equal; [f_equal; auto|auto]. }
    assert (NL : NoDup (map fst (map (fun p : string * json => (fst p, dumps (snd p))) l))) by (rewrite map_map; cbn; exact N).
    rewrite (sort_eq _ _ NL (Permutation_map _ P1)), E. symmetry. apply sort_eq; [|apply Permutation_map, P2].
    rewrite map_map. cbn. change (fun x : string * json => fst x) with (@fst string json). eapply Permutation_NoDup; [apply Permutation_map, Permutation_sym, P2|].
    assert (EK : map fst l' = map fst m'). { clear - FF. induction FF as [|p q l0 m0 [R1 R2] FF IHF]; [reflexivity|]. cbn. congruence. } rewrite <- EK. eapply Permutation_NoDup; [apply Permutation_map, P1|exact N].
Qed.
