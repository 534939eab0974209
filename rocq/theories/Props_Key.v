(** Theorems about the names of cache files and the keys of the memory cache: C49, C83, and the
    naming half of C53. *)
From Verif Require Import PyBase PyStr Key KeySpec KeyProofs.
From Coq Require Import Permutation.
Set Default Proof Using "Type".
Local Open Scope string_scope.
Local Open Scope list_scope.
Local Open Scope Z_scope.

(** ** Owners *)
Lemma split_at (bad : ascii -> bool) a b x y :
  forallb (fun c => negb (bad c)) (chars a) = true -> forallb (fun c => negb (bad c)) (chars b) = true ->
  match x with String c _ => bad c = true | EmptyString => False end -> match y with String c _ => bad c = true | EmptyString => False end ->
  (a ++ x)%string = (b ++ y)%string -> a = b /\ x = y.
Proof.
  revert b. induction a as [|c a IH]; intros [|d b] A B X Y H; cbn in *.
  - auto.
  - subst x. apply andb_prop in B. destruct B as [B _]. rewrite X in B. discriminate.
  - subst y. apply andb_prop in A. destruct A as [A _]. rewrite Y in A. discriminate.
  - inversion H; subst. apply andb_prop in A, B. destruct (IH b) as [-> ->]; tauto.
Qed.
Lemma string_tail c d a b : String c a = String d b -> a = b.
Proof. congruence. Qed.
Definition is_dash (c : ascii) : bool := Ascii.eqb c "-".
Definition is_open (c : ascii) : bool := Ascii.eqb c "[" || Ascii.eqb c "{".
Lemma plain_open s : plain_owner s -> forallb (fun c => negb (is_open c)) (chars s) = true.
Proof.
  intros H. apply forallb_forall. intros c I. destruct (H c I) as (A & B & _). unfold is_open.
  destruct (Ascii.eqb_spec c "["); [contradiction|]. destruct (Ascii.eqb_spec c "{"); [contradiction|]. reflexivity.
Qed.
Lemma lower_dash : forallb (fun c => Bool.eqb (is_dash (to_lower c)) (is_dash c)) all_ascii = true.
Proof. vm_compute. reflexivity. Qed.
Lemma plain_dash s : plain_owner s -> forallb (fun c => negb (is_dash c)) (chars (lower s)) = true.
Proof.
  intros H. unfold lower. rewrite chars_of_chars. apply forallb_forall. intros c I. apply in_map_iff in I. destruct I as (d & <- & I).
  pose proof (proj1 (forallb_forall _ _) lower_dash d (all_ascii_all d)) as E. apply Bool.eqb_prop in E. rewrite E. destruct (H d I) as (_ & _ & D). unfold is_dash. destruct (Ascii.eqb_spec d "-"); [contradiction|reflexivity].
Qed.

  (** ** C53, the names made when nothing is cached *)
  Lemma pad_length n z : String.length (pad n z) = n.
  Proof. revert z. induction n as [|n IH]; intros z; [reflexivity|]. cbn [pad]. rewrite slength_app, IH. cbn. lia. Qed.
  Lemma digit_char_inj a b : 0 <= a < 10 -> 0 <= b < 10 -> digit_char a = digit_char b -> a = b.
  Proof. intros A B H. apply (f_equal code) in H. rewrite !digit_char_code in H by lia. lia. Qed.
  Lemma pad_inj n a b : 0 <= a < 10 ^ Z.of_nat n -> 0 <= b < 10 ^ Z.of_nat n -> pad n a = pad n b -> a = b.
  Proof.
    revert a b. induction n as [|n IH]; intros a b A B H; [cbn in *; lia|]. cbn [pad] in H.
    rewrite Nat2Z.inj_succ, Z.pow_succ_r in A, B by lia.
    apply sapp_same_length in H; [|rewrite !pad_length; reflexivity]. destruct H as [H1 H2]. inversion H2 as [H3].
    apply IH in H1; [|split; [apply Z.div_pos; lia|apply Z.div_lt_upper_bound; lia]..].
    assert (a mod 10 = b mod 10). { apply digit_char_inj; [apply Z.mod_pos_bound; lia..|exact H3]. }
    rewrite (Z.div_mod a 10), (Z.div_mod b 10) by lia. congruence.
  Qed.
  Lemma pads n a b x y : 0 <= a < 10 ^ Z.of_nat n -> 0 <= b < 10 ^ Z.of_nat n -> (pad n a ++ x)%string = (pad n b ++ y)%string -> a = b /\ x = y.
  Proof. intros A B H. apply sapp_same_length in H; [|rewrite !pad_length; reflexivity]. destruct H as [H ->]. split; [eapply pad_inj; eassumption|reflexivity]. Qed.
  Lemma show_dot r x : 0 <= r -> show_Z r <> String "." x.
  Proof.
    intros H E. pose proof (show_nonneg_ok r H) as S. destruct S as (D & _ & _). unfold show_Z in E. destruct (Z.ltb_spec r 0); [lia|].
    apply (f_equal chars) in E. rewrite chars_of_chars in E. rewrite E in D. inversion D. discriminate.
  Qed.

  Theorem C53_text t1 r1 t2 r2 : in_range t1 -> in_range t2 -> 0 <= r1 -> 0 <= r2 ->
    (isoformat t1 ++ show_Z r1)%string = (isoformat t2 ++ show_Z r2)%string -> t1 = t2 /\ r1 = r2.
  Proof.
    destruct t1 as [y1 mo1 d1 h1 mi1 s1 u1], t2 as [y2 mo2 d2 h2 mi2 s2 u2]. unfold in_range, isoformat. cbn [year month day hour minute second micro].
    intros (A1 & A2 & A3 & A4 & A5 & A6 & A7) (B1 & B2 & B3 & B4 & B5 & B6 & B7) R1 R2 H. rewrite !sapp_assoc in H.
    apply pads in H; [|cbn; lia..]. destruct H as [-> H]. cbn [String.append] in H. apply string_tail in H. try rewrite !sapp_assoc in H.
    apply pads in H; [|cbn; lia..]. destruct H as [-> H]. cbn [String.append] in H. apply string_tail in H. try rewrite !sapp_assoc in H.
    apply pads in H; [|cbn; lia..]. destruct H as [-> H]. cbn [String.append] in H. apply string_tail in H. try rewrite !sapp_assoc in H.
    apply pads in H; [|cbn; lia..]. destruct H as [-> H]. cbn [String.append] in H. apply string_tail in H. try rewrite !sapp_assoc in H.
    apply pads in H; [|cbn; lia..]. destruct H as [-> H]. cbn [String.append] in H. apply string_tail in H. try rewrite !sapp_assoc in H.
    apply pads in H; [|cbn; lia..]. destruct H as [-> H].
    destruct (Z.eqb_spec u1 0), (Z.eqb_spec u2 0); cbn [String.append] in H.
    - apply show_Z_inj in H. subst. auto.
    - exfalso. exact (show_dot _ _ R1 H).
    - exfalso. exact (show_dot _ _ R2 (eq_sym H)).
    - apply string_tail in H. apply pads in H; [|cbn; lia..]. destruct H as [-> H]. apply show_Z_inj in H. subst. auto.
  Qed.
Section Names.
  Variable sha : string -> string.
  (** Two different texts with the same digest. *)
  Definition collision (a b : string) : Prop := a <> b /\ sha a = sha b.
  (** A digest has always the same number of characters. *)
  Definition fixed_length : Prop := forall a b, String.length (sha a) = String.length (sha b).

  Definition proper (q : request) : Prop := plain_owner (q_owner q) /\ wf (q_args q) /\ wf (q_extra q) /\ container (q_args q).
  Definition same_request (q r : request) : Prop := q_owner q = q_owner r /\ jeq (q_args q) (q_args r) /\ jeq (q_extra q) (q_extra r) /\ q_ext q = q_ext r.

  Lemma container_head a : container a -> match dumps a with String c _ => is_open c = true | EmptyString => False end.
  Proof. destruct a; cbn; try contradiction; reflexivity. Qed.
  Lemma app_first (a x : string) (P : ascii -> Prop) : match a with String c _ => P c | EmptyString => False end -> match (a ++ x)%string with String c _ => P c | EmptyString => False end.
  Proof. destruct a; [contradiction|]. exact (fun H => H). Qed.

  (** The text that is hashed tells the requests apart. *)
  Theorem C49_text q r : proper q -> proper r -> key_text q = key_text r -> same_request q r.
  Proof.
    intros (O1 & A1 & E1 & K1) (O2 & A2 & E2 & K2) H. unfold key_text in H.
    destruct (split_at is_open _ _ _ _ (plain_open _ O1) (plain_open _ O2) (app_first _ _ (fun c => is_open c = true) (container_head _ K1)) (app_first _ _ (fun c => is_open c = true) (container_head _ K2)) H) as [EO H2].
    assert (NN : forall a x, container a -> is_num a -> stops x) by (intros [] x [] []).
    destruct (decoding (q_args q) (q_args r) _ _ A1 A2 (NN _ _ K1) (NN _ _ K2) H2) as [JA H3].
    assert (SS : forall e, stops (dumps (JStr e))) by reflexivity.
    destruct (decoding (q_extra q) (q_extra r) _ _ E1 E2 (fun _ => SS _) (fun _ => SS _) H3) as [JE H4].
    cbn [dumps] in H4. rewrite <- (sapp_nil (quote (q_ext q))), <- (sapp_nil (quote (q_ext r))) in H4. apply quote_inj in H4. repeat split; tauto.
  Qed.

  (** C49: two requests for the same file are the same request (dictionaries in any order), or their texts collide. *)
  Theorem C49_different_files q r : fixed_length -> proper q -> proper r ->
    key_name sha q = key_name sha r -> same_request q r \/ collision (key_text q) (key_text r).
  Proof.
    intros FL P1 P2 H. unfold key_name in H.
    apply (split_at is_dash) in H; [|apply plain_dash, P1|apply plain_dash, P2|reflexivity|reflexivity]. destruct H as [_ H2].
    cbn [String.append] in H2. inversion H2 as [H3]. apply sapp_same_length in H3; [|apply FL]. destruct H3 as [HS _].
    destruct (string_dec (key_text q) (key_text r)) as [E|N]; [left; apply C49_text; assumption|right; split; assumption].
  Qed.
  (** The same request gets the same file again: this is what makes the cache a cache. *)
  Theorem C49_same_file q r : proper q -> same_request q r -> key_name sha q = key_name sha r.
  Proof.
    intros (_ & A & E & _) (HO & HA & HE & HX). unfold key_name, key_text. rewrite HO, HX, (jeq_dumps _ _ A HA), (jeq_dumps _ _ E HE). reflexivity.
  Qed.
  (** In particular for the files of the index and the matrices: one per address. *)
  Corollary C49_urls u v : fixed_length ->
    let q w := mkRequest "regrid" (JList [JStr w]) JNull ".cache" in
    key_name sha (q u) = key_name sha (q v) -> u = v \/ collision (key_text (q u)) (key_text (q v)).
  Proof.
    intros FL q H. assert (P : forall w, proper (q w)).
    { intros w. repeat split; cbn; try exact I; intros E; subst; cbn in *; intuition discriminate. }
    destruct (C49_different_files (q u) (q v) FL (P u) (P v) H) as [(_ & J & _)|C]; [left|right; exact C].
    cbn in J. inversion J as [| | | |l m F|]; subst. inversion F as [|? ? ? ? J1]; subst. inversion J1. reflexivity.
  Qed.

  (** C53, naming: calls at different times, or that draw different numbers, make different files. *)
  Theorem C53_fresh_names_partial owner ext t1 r1 t2 r2 : fixed_length -> in_range t1 -> in_range t2 -> 0 <= r1 -> 0 <= r2 ->
    fresh_name sha owner ext t1 r1 = fresh_name sha owner ext t2 r2 ->
    (t1 = t2 /\ r1 = r2) \/ collision (isoformat t1 ++ show_Z r1) (isoformat t2 ++ show_Z r2).
  Proof.
    intros FL I1 I2 R1 R2 H. unfold fresh_name in H. apply sapp_inv_head in H. cbn [String.append] in H. inversion H as [H']. apply sapp_same_length in H'; [|apply FL]. destruct H' as [H' _].
    destruct (string_dec (isoformat t1 ++ show_Z r1) (isoformat t2 ++ show_Z r2)) as [E|N]; [left; apply C53_text; assumption|right; split; assumption].
  Qed.

  (** Names of both kinds: the owner in small letters, a hyphen, the digest, the extension. *)
  Theorem C53_shape owner ext t r args extra :
    (exists text, fresh_name sha owner ext t r = (lower owner ++ "-" ++ sha text ++ ext)%string) /\
    (exists text, key_name sha (mkRequest owner args extra ext) = (lower owner ++ "-" ++ sha text ++ ext)%string).
  Proof. split; eexists; reflexivity. Qed.

  (** ** C83, the keys of the memory cache (the arguments are a tuple, so a list) *)
  Theorem C83_memory_keys a b : wf (JList a) -> wf (JList b) ->
    (make_sha sha (JList a) = make_sha sha (JList b) -> jeq (JList a) (JList b) \/ collision (dumps (JList a)) (dumps (JList b))) /\
    (jeq (JList a) (JList b) -> make_sha sha (JList a) = make_sha sha (JList b)).
  Proof.
    intros A B. split.
    - cbn [make_sha]. intros H. destruct (string_dec (dumps (JList a)) (dumps (JList b))) as [E|N]; [left|right; split; assumption].
      rewrite <- (sapp_nil (dumps (JList a))), <- (sapp_nil (dumps (JList b))) in E.
      exact (proj1 (decoding (JList a) (JList b) "" "" A B (fun _ => I) (fun _ => I) E)).
    - intros J. cbn [make_sha]. rewrite (jeq_dumps _ _ A J). reflexivity.
  Qed.
End Names.
(** REFUTED for texts: a text and a value that prints as it share a key (no caller mixes them). *)
Theorem C83_texts_refuted : exists s b, wf b /\ ~ jeq (JStr s) b /\ forall sha, make_sha sha (JStr s) = make_sha sha b.
Proof. exists "[""a""]", (JList [JStr "a"]). split; [repeat split|]. split; [intros H; inversion H|]. reflexivity. Qed.
(** The same grid written with 1 and with 1.0 has two keys (its matrix is then kept twice). *)
Theorem C83_spelling_refuted : exists a b, wf a /\ wf b /\ dumps a <> dumps b /\ a = JList [JList [JNum "1"; JNum "1"]] /\ b = JList [JList [JNum "1.0"; JNum "1.0"]].
Proof. do 2 eexists. split; [|split; [|split; [|split; reflexivity]]]; vm_compute; intuition discriminate. Qed.

(** REFUTED without [container]: numbers run together. *)
Theorem C49_refuted : exists q r, q <> r /\ ~ jeq (q_args q) (q_args r) /\ (forall sha, key_name sha q = key_name sha r).
Proof.
  exists (mkRequest "regrid" (JNum "1") (JNum "23") ".cache"), (mkRequest "regrid" (JNum "12") (JNum "3") ".cache").
  split; [discriminate|]. split; [intros H; inversion H|]. intros sha. reflexivity.
Qed.
(** The hypotheses are met. *)
Definition q_ex (w : string) : request := mkRequest "regrid" (JDict [("url", JStr w); ("parts", JList [JNum "1"; JNull]); ("x", JNum "-1.5e-07")]) (JBool true) ".npz".
Example C49_ex1 : proper (q_ex "a").
Proof.
  unfold proper. split; [|split; [|split; [exact I|exact I]]].
  - intros c I. cbn in I. repeat (destruct I as [<-|I]; [repeat split; discriminate|]). destruct I.
  - cbn. split; [|repeat split]. repeat constructor; cbn; intuition discriminate.
Qed.
Example C49_ex2 : key_text (q_ex "a""b") = "regrid{""parts"": [1, null], ""url"": ""a\""b"", ""x"": -1.5e-07}true"".npz""". Proof. vm_compute. reflexivity. Qed.
Example C49_ex3 : fixed_length (fun s => match s with String c _ => String c "" | EmptyString => " " end).
Proof. intros [|] [|]; reflexivity. Qed.
Example C83_ex1 : jeq (JList [JDict [("a", JNull); ("b", JStr "x")]; JStr "linear"]) (JList [JDict [("b", JStr "x"); ("a", JNull)]; JStr "linear"]).
Proof. constructor. constructor; [|constructor; [constructor|constructor]]. eapply jeq_dict; [apply Permutation_refl|apply perm_swap|]. repeat constructor. Qed.
Example C53_ex1 : isoformat (mkMoment 2024 1 2 3 4 5 0) = "2024-01-02T03:04:05" /\ isoformat (mkMoment 2024 1 2 3 4 5 60) = "2024-01-02T03:04:05.000060". Proof. vm_compute. auto. Qed.

Print Assumptions C49_text.
Print Assumptions C49_different_files.
Print Assumptions C49_same_file.
Print Assumptions C49_urls.
Print Assumptions C49_refuted.
Print Assumptions C83_memory_keys.
Print Assumptions C83_texts_refuted.
Print Assumptions C83_spelling_refuted.
Print Assumptions C53_text.
Print Assumptions C53_fresh_names_partial.
Print Assumptions C53_shape.
