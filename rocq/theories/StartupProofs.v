(** Facts about the start of the package. *)
From Coq Require Import Permutation Sorted.
From Verif Require Import PyBase ListLemmas PyStr Humanize HumanizeSpec HumanizeProofs Config ConfigSpec ConfigProofs ConfigProofs2 ConfigProofs3 Startup StartupSpec.
Local Open Scope string_scope.
Local Open Scope list_scope.
Local Open Scope Z_scope.
Set Default Proof Using "Type".

(** ** Order of names *)
Lemma cmp_refl a : String.compare a a = Eq.
Proof. induction a as [|c a IH]; cbn; [reflexivity|]. unfold Ascii.compare. rewrite N.compare_refl. exact IH. Qed.
Lemma cmp_lt_trans a : forall b c, String.compare a b = Lt -> String.compare b c = Lt -> String.compare a c = Lt.
Proof.
  induction a as [|x a IH]; intros [|y b] [|z c]; cbn; try congruence. unfold Ascii.compare.
  destruct (N.compare_spec (N_of_ascii x) (N_of_ascii y)) as [E1|L1|L1], (N.compare_spec (N_of_ascii y) (N_of_ascii z)) as [E2|L2|L2]; try discriminate.
  - rewrite E1, E2, N.compare_refl. apply IH.
  - intros _ _. rewrite E1. apply N.compare_lt_iff in L2. rewrite L2. reflexivity.
  - intros _ _. rewrite <- E2. apply N.compare_lt_iff in L1. rewrite L1. reflexivity.
  - intros _ _. pose proof (N.lt_trans _ _ _ L1 L2) as L. apply N.compare_lt_iff in L. rewrite L. reflexivity.
Qed.
Lemma ltb_lt a b : String.ltb a b = true <-> String.compare a b = Lt.
Proof. unfold String.ltb. destruct (String.compare a b); split; congruence. Qed.
Lemma ltb_ge a b : String.ltb a b = false -> a <> b -> String.compare b a = Lt.
Proof.
  unfold String.ltb. rewrite (String.compare_antisym a b). destruct (String.compare b a) eqn:E; cbn; try congruence.
  intros _ N. apply String.compare_eq_iff in E. congruence.
Qed.

(** ** Directories *)
Lemma of_chars_app a b : of_chars (a ++ b) = (of_chars a ++ of_chars b)%string.
Proof. induction a as [|c a IH]; [reflexivity|]. cbn. f_equal. exact IH. Qed.
Lemma of_chars_chars s : of_chars (chars s) = s. Proof. apply string_of_list_ascii_of_string. Qed.
Lemma chars_of_chars l : chars (of_chars l) = l. Proof. apply list_ascii_of_string_of_list_ascii. Qed.
Lemma chars_app a b : chars (a ++ b)%string = chars a ++ chars b.
Proof. induction a as [|c a IH]; cbn; [reflexivity|]. f_equal. exact IH. Qed.

Lemma from_slash_spec l : exists name, l = name ++ from_slash l /\ ~ In "/"%char name /\ (from_slash l = [] \/ exists r, from_slash l = "/"%char :: r).
Proof.
  induction l as [|c l (name & E & N & C)]; [exists []; cbn; auto|]. cbn. destruct (Ascii.eqb_spec c "/") as [->|D].
  - exists []. cbn. split; [reflexivity|]. split; [tauto|]. right. exists l. reflexivity.
  - exists (c :: name). cbn. split; [f_equal; exact E|]. split; [intros [H|H]; [congruence|exact (N H)]|exact C].
Qed.
Lemma no_slashes_spec l : exists k, l = repeat "/"%char k ++ no_slashes l /\ (no_slashes l = [] \/ exists c r, no_slashes l = c :: r /\ c <> "/"%char).
Proof.
  induction l as [|c l (k & E & C)]; [exists 0%nat; cbn; auto|]. cbn. destruct (Ascii.eqb_spec c "/") as [->|D].
  - exists (S k). cbn. split; [f_equal; exact E|exact C].
  - exists 0%nat. cbn. split; [reflexivity|]. right. eauto.
Qed.
Lemma rev_repeat {A} (x : A) k : rev (repeat x k) = repeat x k.
Proof. induction k as [|k IH]; cbn; [reflexivity|]. rewrite IH, <- repeat_cons. reflexivity. Qed.
Lemma dirname_in p : in_directory p (dirname p).
Proof.
  unfold dirname. destruct (from_slash_spec (rev (chars p))) as (name & E & N & C). destruct (no_slashes_spec (from_slash (rev (chars p)))) as (k & F & D).
  assert (P : p = (of_chars (rev (from_slash (rev (chars p)))) ++ of_chars (rev name))%string).
  { rewrite <- of_chars_app, <- rev_app_distr, <- E, rev_involutive, of_chars_chars. reflexivity. }
  assert (NS : forall a b, of_chars (rev name) <> (a ++ "/" ++ b)%string).
  { intros a b H. apply (f_equal chars) in H. rewrite chars_of_chars, chars_app in H. apply N, in_rev. rewrite H. apply in_or_app. right. left. reflexivity. }
  exists (of_chars (rev name)). split; [exact NS|]. destruct D as [D|(c & r & D & NC)].
  - right. rewrite D. exists k. rewrite D, app_nil_r in F. rewrite F, rev_repeat. split; [reflexivity|]. rewrite P at 1. rewrite F, rev_repeat. reflexivity.
  - left. rewrite D in F |- *. destruct k as [|k].
    + exfalso. destruct C as [C|(r' & C)]; rewrite C in F; cbn in F; congruence.
    + exists k. split; [|split].
      * rewrite P at 1. rewrite F, rev_app_distr, rev_repeat, of_chars_app. generalize (of_chars (rev (c :: r))), (of_chars (repeat "/"%char (S k))), (of_chars (rev name)).
        intros a b d. induction a as [|x a IH]; cbn; [reflexivity|f_equal; exact IH].
      * cbn. rewrite of_chars_app. destruct (of_chars (rev r)); discriminate.
      * intros a H. apply (f_equal chars) in H. rewrite chars_of_chars, chars_app in H. cbn in H. apply app_inj_tail in H. apply NC, H.
Qed.

Section Facts.
  Context {Obj : Type}.
  Variable obj_yaml : Obj -> bool.
  Variable home : string.
  Variable version : string.
  Notation value := (value Obj).
  Notation stated := (@stated Obj home).
  Notation defaults := (Config.defaults Obj home).
  Notation texts := (texts Obj).
  Notation as_items := (as_items Obj).
  Notation updated := (updated Obj).
  Notation is_text := (is_text Obj).
  Notation entries := (entries Obj home version).
  Notation written := (written Obj obj_yaml home version).
  Notation to_save := (to_save Obj home).
  Implicit Types (kvs : list (ykey * value)) (vals : list (string * value)).

  Lemma defaults_stated : defaults = stated. Proof. reflexivity. Qed.
  Lemma texts_items vals : texts (as_items vals) = vals.
  Proof. unfold Startup.texts, Startup.as_items. induction vals as [|[k v] l IH]; cbn; [reflexivity|]. f_equal. exact IH. Qed.
  Lemma items_texts kvs : forallb is_text kvs = true -> as_items (texts kvs) = kvs.
  Proof. induction kvs as [|[[s|n] v] l IH]; cbn; [reflexivity| |discriminate]. intros H. f_equal. apply IH, H. Qed.
  Lemma of_texts_iff kvs : forallb is_text kvs = true <-> of_texts kvs.
  Proof.
    rewrite forallb_forall. unfold of_texts. split; intros H.
    - intros k v I. specialize (H _ I). destruct k as [s|n]; [eauto|discriminate H].
    - intros [k v] I. destruct (H k v I) as (s & ->). reflexivity.
  Qed.
  Lemma text_in kvs n v : In (n, v) (texts kvs) <-> In (Text n, v) kvs.
  Proof.
    unfold Startup.texts. rewrite in_flat_map. split.
    - intros ([[s|k] u] & I & J); cbn in J; [|contradiction]. destruct J as [J|[]]. injection J as -> ->. exact I.
    - intros I. exists (Text n, v). split; [exact I|]. left. reflexivity.
  Qed.
  Lemma texts_nodup kvs : distinct kvs -> NoDup (akeys (texts kvs)).
  Proof.
    unfold distinct. induction kvs as [|[[s|k] v] l IH]; cbn; intros H; [constructor| |inversion H; auto]. inversion H as [|? ? H1 H2]; subst. constructor; [|apply IH, H2].
    intros I. apply H1. rewrite akeys_map in I. apply in_map_iff in I. destruct I as ([s' v'] & E & I). cbn in E. subst s'. apply text_in in I. apply in_map_iff. exists (Text s, v'). auto.
  Qed.
  Definition put (k : ykey) (v : value) := fix put (l : list (ykey * value)) : list (ykey * value) :=
          match l with
          | [] => [(k, v)]
          | (k', v') :: l' => if match k, k' with Text a, Text b => String.eqb a b | Other a, Other b => Nat.eqb a b | _, _ => false end then (k', v) :: l' else (k', v') :: put l'
          end.
  Lemma updated_cons k v kvs l : updated ((k, v) :: kvs) l = updated kvs (put k v l). Proof. reflexivity. Qed.
  Lemma put_text s v l : forallb is_text l = true -> forallb is_text (put (Text s) v l) = true /\ texts (put (Text s) v l) = aset s v (texts l).
  Proof.
    induction l as [|[[t|n] u] l IH]; cbn; intros H; [auto| |discriminate H]. destruct (String.eqb s t); cbn; [auto|]. destruct (IH H) as [A B]. split; [exact A|]. f_equal. exact B.
  Qed.
  Lemma updated_text kvs : forall l, forallb is_text kvs = true -> forallb is_text l = true ->
    forallb is_text (updated kvs l) = true /\ texts (updated kvs l) = update_all Obj (texts kvs) (texts l).
  Proof.
    induction kvs as [|[k v] kvs IH]; intros l H L; [cbn; auto|]. rewrite updated_cons. cbn in H. destruct k as [s|n]; [|discriminate H].
    destruct (put_text s v l L) as [A B]. destruct (IH (put (Text s) v l) H A) as [C D]. split; [exact C|]. rewrite D, B. reflexivity.
  Qed.
  Lemma put_other k v l n u : In (Other n, u) l -> exists u', In (Other n, u') (put k v l).
  Proof.
    induction l as [|[k' v'] l IH]; intros []; cbn.
    - injection H as -> ->. destruct (match k with Text _ => false | Other a => _ end) eqn:E; cbn; eauto.
    - destruct (match k, k' with Text a, Text b => String.eqb a b | Other a, Other b => Nat.eqb a b | _, _ => false end); [exists u; right; exact H|].
      destruct (IH H) as (u' & I). exists u'. right. exact I.
  Qed.
  Lemma put_in k v l : exists u, In (k, u) (put k v l).
  Proof.
    induction l as [|[k' v'] l (u & IH)]; cbn; [eauto|]. destruct k as [a|a], k' as [b|b]; try (exists u; right; exact IH).
    - destruct (String.eqb_spec a b) as [->|N]; [exists v; left; reflexivity|exists u; right; exact IH].
    - destruct (Nat.eqb_spec a b) as [->|N]; [exists v; left; reflexivity|exists u; right; exact IH].
  Qed.
  Lemma updated_other kvs : forall l n u, In (Other n, u) l -> exists u', In (Other n, u') (updated kvs l).
  Proof.
    induction kvs as [|[k v] kvs IH]; intros l n u I; [cbn; eauto|]. rewrite updated_cons. destruct (put_other k v l n u I) as (u' & I'). eapply IH, I'.
  Qed.
  Lemma updated_has kvs : forall l n u, In (Other n, u) kvs -> exists u', In (Other n, u') (updated kvs l).
  Proof.
    induction kvs as [|[k v] kvs IH]; intros l n u; [intros []|]. rewrite updated_cons. intros [E|I]; [|eapply IH, I].
    injection E as -> ->. destruct (put_in (Other n) u l) as (u' & I). eapply updated_other, I.
  Qed.
  Lemma items_text l : forallb is_text (as_items l) = true.
  Proof. induction l as [|[k v] l IH]; cbn; auto. Qed.
  Lemma not_texts kvs : forallb is_text kvs = false -> exists n v, In (Other n, v) kvs.
  Proof.
    induction kvs as [|[[s|n] v] l IH]; cbn; intros H; [discriminate H| |eauto]. destruct (IH H) as (n & u & I). eauto.
  Qed.
  Lemma some_other kvs n v : In (Other n, v) kvs -> forallb is_text kvs = false.
  Proof. intros I. destruct (forallb is_text kvs) eqn:E; [|reflexivity]. rewrite forallb_forall in E. specialize (E _ I). discriminate E. Qed.

  Lemma lookup_in vals n v : NoDup (akeys vals) -> alookup n vals = Some v <-> In (n, v) vals.
  Proof.
    intros N. split; [apply alookup_In|]. induction vals as [|[k u] l IH]; intros I; [destruct I|]. cbn in N |- *. inversion N as [|? ? H1 H2]; subst.
    destruct I as [E|I]; [injection E as -> ->; rewrite String.eqb_refl; reflexivity|].
    destruct (String.eqb_spec n k) as [->|D]; [|apply IH; assumption]. exfalso. apply H1. rewrite akeys_map. apply in_map_iff. exists (k, v). auto.
  Qed.
  Lemma stated_nodup : NoDup (akeys stated).
  Proof. clear obj_yaml. cbn. repeat (apply NoDup_cons; [cbn; intuition discriminate|]). apply NoDup_nil. Qed.

  (** ** Reading *)
  Lemma read_gives kvs n v : distinct kvs -> forallb is_text kvs = true ->
    alookup n (texts (updated kvs (as_items defaults))) = Some v <-> gives home kvs n v.
  Proof.
    intros D T. destruct (updated_text kvs (as_items defaults) T (items_text _)) as [_ ->]. rewrite texts_items, alookup_update by (apply texts_nodup, D).
    unfold gives. destruct (alookup n (texts kvs)) as [u|] eqn:E.
    - split.
      + intros H. injection H as ->. left. apply text_in, alookup_In, E.
      + intros [I|[N _]]; [|exfalso; apply (N u), text_in, alookup_In, E]. apply text_in in I. apply lookup_in in I; [|apply texts_nodup, D]. congruence.
    - rewrite defaults_stated, (lookup_in stated n v stated_nodup). split.
      + intros I. right. split; [|exact I]. intros u J. apply text_in in J. apply lookup_in in J; [congruence|apply texts_nodup, D].
      + intros [I|[_ I]]; [|exact I]. apply text_in in I. apply lookup_in in I; [congruence|apply texts_nodup, D].
  Qed.

  (** ** Writing *)
  Lemma insert_perm x l : Permutation (insert_item Obj x l) (x :: l).
  Proof. induction l as [|y l IH]; cbn; [constructor; constructor|]. destruct (String.ltb (fst x) (fst y)); [reflexivity|]. rewrite IH. apply perm_swap. Qed.
  Lemma sorted_perm vals : Permutation (sorted_items Obj vals) vals.
  Proof. induction vals as [|x l IH]; cbn; [constructor|]. rewrite insert_perm, IH. reflexivity. Qed.
  Definition lt_item (p q : string * value) := String.compare (fst p) (fst q) = Lt.
  Lemma insert_strict x l : StronglySorted lt_item l -> ~ In (fst x) (map fst l) -> StronglySorted lt_item (insert_item Obj x l).
  Proof.
    induction 1 as [|y l S IH F]; intros N; cbn; [constructor; constructor|]. destruct (String.ltb (fst x) (fst y)) eqn:E.
    - apply ltb_lt in E. constructor; [constructor; assumption|]. constructor; [exact E|]. eapply Forall_impl; [|exact F]. intros z Z. exact (cmp_lt_trans _ _ _ E Z).
    - constructor; [apply IH; intros I; apply N; right; exact I|]. rewrite Forall_forall in F |- *. intros z I. apply (Permutation_in z (insert_perm x l)) in I. destruct I as [<-|I]; [|apply F, I].
      apply ltb_ge; [exact E|]. intros H. apply N. left. symmetry. exact H.
  Qed.
  Lemma sorted_strict vals : NoDup (akeys vals) -> StronglySorted lt_item (sorted_items Obj vals).
  Proof.
    induction vals as [|x l IH]; intros N; cbn; [constructor|]. rewrite akeys_map in N. cbn in N. inversion N as [|? ? H1 H2]; subst.
    apply insert_strict; [apply IH; rewrite akeys_map; exact H2|]. intros I. apply H1. apply (Permutation_in _ (Permutation_map fst (sorted_perm l))), I.
  Qed.
  Lemma filter_strict f (l : list (string * value)) : StronglySorted lt_item l -> StronglySorted lt_item (filter f l).
  Proof.
    induction 1 as [|y l S IH F]; cbn; [constructor|]. destruct (f y); [|exact IH]. constructor; [exact IH|]. rewrite Forall_forall in F |- *. intros z I. apply filter_In in I. apply F, I.
  Qed.
  Lemma strict_nodup l : StronglySorted lt_item l -> NoDup (akeys l).
  Proof.
    induction 1 as [|[k v] l S IH F]; cbn; [constructor|]. constructor; [|exact IH]. intros I. rewrite akeys_map in I. apply in_map_iff in I. destruct I as (q & E & I).
    rewrite Forall_forall in F. specialize (F q I). unfold lt_item in F. cbn in F. rewrite E, cmp_refl in F. discriminate F.
  Qed.
  (** The place of an entry. *)
  Lemma place l n v : StronglySorted lt_item l -> In (n, v) l -> forall k,
    alookup n (firstn k l) = if (List.length (filter (fun p => String.ltb (fst p) n) l) <? k)%nat then Some v else None.
  Proof.
    induction 1 as [|[m u] l S IH F]; intros I k; [destruct I|]. rewrite Forall_forall in F. destruct I as [E|I].
    - injection E as -> ->. assert (Z : filter (fun p : string * value => String.ltb (fst p) n) ((n, v) :: l) = []).
      { cbn. unfold String.ltb at 1. rewrite cmp_refl. clear -F. induction l as [|q l IHl]; cbn; [reflexivity|]. pose proof (F q (or_introl eq_refl)) as L. unfold lt_item in L. cbn in L.
        unfold String.ltb at 1. rewrite String.compare_antisym, L. cbn. apply IHl. intros x X. apply F. right. exact X. }
      rewrite Z. cbn [List.length]. destruct k as [|k]; [reflexivity|]. cbn. rewrite String.eqb_refl. reflexivity.
    - pose proof (F _ I) as L. unfold lt_item in L. cbn in L. cbn [filter fst]. unfold String.ltb at 1. rewrite L. cbn [List.length]. destruct k as [|k]; [reflexivity|]. cbn [firstn alookup].
      destruct (String.eqb_spec n m) as [->|D]; [rewrite cmp_refl in L; discriminate L|]. rewrite IH by exact I. reflexivity.
  Qed.
  Lemma to_save_changed n v : to_save (n, v) = true <-> changed_to home n v.
  Proof.
    unfold Config.to_save. cbn [fst snd]. assert (A : forall d, In (n, d) stated <-> exists o, alookup n (options Obj home) = Some o /\ o_default Obj o = d).
    { intros d. rewrite <- (lookup_in stated n d stated_nodup), <- defaults_stated. unfold Config.defaults. generalize (options Obj home). clear. induction l as [|[k o] l IH]; cbn.
      - split; [discriminate|]. intros (o & E & _). discriminate E.
      - destruct (String.eqb n k); [|exact IH]. split; [intros E; injection E as <-; eauto|]. intros (o' & E & <-). injection E as <-. reflexivity. }
    assert (Q : forall o, alookup n (options Obj home) = Some o -> equals_default Obj v (o_default Obj o) = true <-> alike v (o_default Obj o)).
    { intros o E. apply alookup_In in E. unfold alike. assert (D : o_default Obj o = VNone \/ (exists s, o_default Obj o = VStr s) \/ exists b, o_default Obj o = VBool b).
      { clear -E. cbn in E. repeat (destruct E as [E|E]; [injection E as _ <-; cbn; eauto|]). destruct E. }
      destruct D as [->|[(s & ->)|(b & ->)]]; destruct v as [|b'|z|t|ob]; cbn; split; intros H; try discriminate H;
        try (destruct H as [H|(b0 & H1 & H2)]; try discriminate H; try discriminate H2; try discriminate H1); auto.
      - apply String.eqb_eq in H. subst. auto.
      - injection H as ->. apply String.eqb_refl.
      - apply Bool.eqb_prop in H. subst. auto.
      - injection H as ->. apply Bool.eqb_reflx.
      - apply Z.eqb_eq in H. subst. right. exists b. split; reflexivity.
      - injection H1 as ->. injection H2 as ->. apply Z.eqb_refl. }
    unfold changed_to. destruct (alookup n (options Obj home)) as [o|] eqn:E.
    - specialize (Q o eq_refl). rewrite negb_true_iff. split.
      + intros F. exists (o_default Obj o). split; [apply A; exists o; auto|]. intros H. apply Q in H. congruence.
      + intros (d & I & N). apply A in I. destruct I as (o' & E' & <-). injection E' as <-. destruct (equals_default Obj v (o_default Obj o)); [exfalso; apply N, Q; reflexivity|reflexivity].
    - split; [discriminate|]. intros (d & I & _). apply A in I. destruct I as (o & E' & _). discriminate E'.
  Qed.
  Lemma entries_app vals : entries vals = filter to_save (sorted_items Obj vals) ++ [("version", VStr version)]. Proof. reflexivity. Qed.
  Lemma firstn_lookup_app n k l (x : string * value) : fst x <> n -> alookup n (firstn k (l ++ [x])) = alookup n (firstn k l).
  Proof.
    revert k. induction l as [|[m u] l IH]; intros k N.
    - destruct k as [|[|k]]; cbn; try reflexivity; destruct x as [m u]; cbn in *; destruct (String.eqb_spec n m); congruence.
    - destruct k as [|k]; [reflexivity|]. cbn. rewrite IH by exact N. reflexivity.
  Qed.
  (** What is found of an option in an unfinished file. *)
  Lemma unfinished vals n k : NoDup (akeys vals) -> n <> "version" ->
    (forall v l, In (n, v) vals -> changed_to home n v -> before home vals n l -> alookup n (firstn k (entries vals)) = if (List.length l <? k)%nat then Some v else None) /\
    ((forall v, In (n, v) vals -> ~ changed_to home n v) -> alookup n (firstn k (entries vals)) = None).
  Proof.
    intros N NV. rewrite entries_app, firstn_lookup_app by (cbn; congruence). pose proof (filter_strict to_save _ (sorted_strict vals N)) as S. split.
    - intros v l I C [NL B]. assert (J : In (n, v) (filter to_save (sorted_items Obj vals))).
      { apply filter_In. split; [apply (Permutation_in _ (Permutation_sym (sorted_perm vals))), I|]. apply to_save_changed, C. }
      rewrite (place _ n v S J). replace (List.length (filter (fun p : string * value => String.ltb (fst p) n) (filter to_save (sorted_items Obj vals)))) with (List.length l); [reflexivity|].
      rewrite <- (map_length fst (filter _ _)). apply Permutation_length, NoDup_Permutation; [exact NL| |].
      + rewrite <- akeys_map. apply strict_nodup, filter_strict, S.
      + intros m. rewrite B, in_map_iff. split.
        * intros (L & u & IU & CU). exists (m, u). split; [reflexivity|]. apply filter_In. split; [|apply ltb_lt, L]. apply filter_In. split; [apply (Permutation_in _ (Permutation_sym (sorted_perm vals))), IU|apply to_save_changed, CU].
        * intros ([m' u] & E & IM). cbn in E. subst m'. apply filter_In in IM. destruct IM as [IM L]. apply filter_In in IM. destruct IM as [IM TS]. split; [apply ltb_lt, L|].
          exists u. split; [apply (Permutation_in _ (sorted_perm vals)), IM|apply to_save_changed, TS].
    - intros NC. destruct (alookup n (firstn k (filter to_save (sorted_items Obj vals)))) as [v|] eqn:E; [|reflexivity]. exfalso. apply alookup_In in E. 
      assert (J : In (n, v) (filter to_save (sorted_items Obj vals))) by (rewrite <- (firstn_skipn k); apply in_or_app; left; exact E). apply filter_In in J. destruct J as [J T].
      apply (NC v); [apply (Permutation_in _ (sorted_perm vals)), J|apply to_save_changed, T].
  Qed.
  Lemma entries_nodup vals : NoDup (akeys vals) -> NoDup (akeys (entries vals)).
  Proof.
    intros N. rewrite entries_app, akeys_map, map_app. cbn [map fst]. pose proof (strict_nodup _ (filter_strict to_save _ (sorted_strict vals N))) as S. rewrite akeys_map in S.
    apply (Permutation_NoDup (l := "version" :: map fst (filter to_save (sorted_items Obj vals)))); [apply Permutation_cons_append|]. constructor; [|exact S].
    intros I. apply in_map_iff in I. destruct I as ([m u] & E & I). cbn in E. subst m. apply filter_In in I. destruct I as [_ I]. cbn in I. discriminate I.
  Qed.
End Facts.
