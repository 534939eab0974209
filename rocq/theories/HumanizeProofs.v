(** Proofs about Humanize.v. *)
From Verif Require Import PyBase PyStr Humanize HumanizeSpec.

Local Open Scope list_scope.

(** ** Numbers with units *)
Lemma unit_char_iff c : is_unit_char c = true <-> is_word c = true \/ c = "%"%char.
Proof.
  unfold is_unit_char. destruct (Ascii.eqb_spec c "%") as [->|N]; cbn; [tauto|].
  split; [auto|]. intros [H|H]; [exact H|contradiction].
Qed.

Lemma space_not_digit c : is_space c = true -> is_digit c = false.
Proof. unfold is_space, is_digit. lia. Qed.
Lemma space_not_unit c : is_space c = true -> is_unit_char c = false.
Proof.
  unfold is_space, is_unit_char, is_word, is_alpha, is_upper, is_lower, is_digit.
  rewrite !ascii_eqb_code. change (code "%") with 37. change (code "_") with 95. lia.
Qed.
Lemma digit_not_space c : is_digit c = true -> is_space c = false.
Proof. unfold is_space, is_digit. lia. Qed.
Lemma unit_not_space c : is_unit_char c = true -> is_space c = false.
Proof. intros H. destruct (is_space c) eqn:E; [|reflexivity]. apply space_not_unit in E. congruence. Qed.

(** The greedy parser accepts exactly the written numbers. *)
Lemma parse_sound s ds u : parse_number (chars s) = Some (ds, u) -> written s (digits_val ds) u.
Proof.
  unfold parse_number.
  destruct (span is_space (chars s)) as [w1 r1] eqn:E1.
  destruct (span is_digit r1) as [d r2] eqn:E2.
  destruct (span is_space r2) as [w2 r3] eqn:E3.
  destruct (span is_unit_char r3) as [u' r4] eqn:E4.
  destruct (span is_space r4) as [w3 r5] eqn:E5.
  destruct d as [|d0 d]; [discriminate|]. destruct r5; [|discriminate].
  intros H. inversion H; subst; clear H.
  apply span_spec in E1, E2, E3, E4, E5.
  destruct E1 as (A1 & B1 & C1), E2 as (A2 & B2 & C2), E3 as (A3 & B3 & C3), E4 as (A4 & B4 & C4),
    E5 as (A5 & B5 & _).
  rewrite app_nil_r in A5.
  assert (HU : Forall (fun c => is_word c = true \/ c = "%"%char) u).
  { eapply Forall_impl; [|exact B4]. intros c. apply unit_char_iff. }
  destruct u as [|u0 u].
  - cbn in A4. subst. 
    assert (w3 = []) as ->.
    { destruct w3 as [|c w3]; [reflexivity|]. inversion B5; congruence. }
    eapply (written_intro _ _ _ w1 (d0 :: d) w2 []); try discriminate; auto.

  - eapply (written_intro _ _ _ w1 (d0 :: d) w2 w3); auto; try discriminate.
    + rewrite A1, A2, A3, A4, A5. reflexivity.
    + destruct w2 as [|c w2]; [right|left; discriminate].
      cbn in A3. rewrite A3, A4 in C2. exact C2.
Qed.

Lemma parse_complete s n u : written s n u ->
  exists ds, digits_val ds = n /\ parse_number (chars s) = Some (ds, u).
Proof.
  intros [w1 ds w2 w3 HS B1 B2 B3 HD HDD HV HU HW HE]. exists ds. split; [exact HV|].
  assert (HU' : Forall (fun c => is_unit_char c = true) u).
  { eapply Forall_impl; [|exact HU]. intros c. apply unit_char_iff. }
  unfold parse_number. rewrite HS.
  assert (HH : forall (p : ascii -> bool) (l : list ascii),
             (forall c, In c l -> p c = false) -> match l with [] => True | c :: _ => p c = false end).
  { intros p [|c l] H; [exact I|apply H; left; reflexivity]. }
  rewrite (span_app is_space w1); [|exact B1|].
  2:{ destruct ds as [|d ds]; [contradiction|]. cbn. inversion HDD. apply digit_not_space; assumption. }
  rewrite (span_app is_digit ds); [|exact HDD|].
  2:{ destruct w2 as [|c w2]; cbn.
      - destruct u as [|c u]; cbn; [rewrite (HE eq_refl); exact I|]. destruct HW as [H|H]; [contradiction|exact H].
      - inversion B2. apply space_not_digit; assumption. }
  rewrite (span_app is_space w2); [|exact B2|].
  2:{ destruct u as [|c u]; cbn; [rewrite (HE eq_refl); exact I|]. inversion HU'. apply unit_not_space; assumption. }
  rewrite (span_app is_unit_char u); [|exact HU'|].
  2:{ destruct w3 as [|c w3]; cbn; [exact I|]. inversion B3. apply space_not_unit; assumption. }
  rewrite <- (app_nil_r w3) at 1. rewrite (span_app is_space w3); [|exact B3|exact I].
  destruct ds; [contradiction|]. reflexivity.
Qed.

Lemma written_fun s n u n' u' : written s n u -> written s n' u' -> n = n' /\ u = u'.
Proof.
  intros H H'. destruct (parse_complete _ _ _ H) as (d & A & B), (parse_complete _ _ _ H') as (d' & A' & B').
  rewrite B in B'. inversion B'; subst. auto.
Qed.

Section AsNumber.
  Variable units : list (ascii * Z).
  Variable factor : ascii -> Z -> Prop.
  Hypothesis table : forall u f, factor u f <-> find (fun p => Ascii.eqb u (fst p)) units = Some (u, f).

  Lemma find_key u p : find (fun q => Ascii.eqb u (fst q)) units = Some p -> fst p = u.
  Proof. intros H. apply find_some in H. destruct H as [_ H]. destruct (Ascii.eqb_spec u (fst p)); congruence. Qed.

  Lemma as_number_ok s z none_ok :
    as_number (Some s) units none_ok = Ok (Some z) <->
    (written s z [] \/
     exists n u us f, written s n (u :: us) /\ factor u f /\ z = n * f).
  Proof.
    unfold as_number. destruct (parse_number (chars s)) as [[ds [|u us]]|] eqn:E.
    - pose proof (parse_sound _ _ _ E) as HW. split.
      + intros H. inversion H; subst. left. exact HW.
      + intros [H|(n & u & us & f & H & _)].
        * destruct (written_fun _ _ _ _ _ HW H) as [-> _]. reflexivity.
        * destruct (written_fun _ _ _ _ _ HW H) as [_ X]. discriminate.
    - pose proof (parse_sound _ _ _ E) as HW.
      destruct (find _ units) as [[u' f]|] eqn:EF.
      + pose proof (find_key _ _ EF) as HK. cbn in HK. subst u'. split.
        * intros H. inversion H; subst. right. exists (digits_val ds), u, us, f.
          split; [exact HW|]. split; [apply table; exact EF|reflexivity].
        * intros [H|(n & u' & us' & f' & H & HF & ->)].
          { destruct (written_fun _ _ _ _ _ HW H) as [_ X]. discriminate. }
          destruct (written_fun _ _ _ _ _ HW H) as [A B]. inversion B; subst.
          apply table in HF. rewrite EF in HF. inversion HF; subst. reflexivity.
      + split; [discriminate|]. intros [H|(n & u' & us' & f' & H & HF & ->)].
        * destruct (written_fun _ _ _ _ _ HW H) as [_ X]. discriminate.
        * destruct (written_fun _ _ _ _ _ HW H) as [A B]. inversion B; subst.
          apply table in HF. congruence.
    - split; [discriminate|]. intros [H|(n & u & us & f & H & _)];
        destruct (parse_complete _ _ _ H) as (d & _ & X); congruence.
  Qed.

  Lemma as_number_total s none_ok :
    (exists z, as_number (Some s) units none_ok = Ok (Some z)) \/ as_number (Some s) units none_ok = Raise ValueError.
  Proof.
    unfold as_number. destruct (parse_number (chars s)) as [[ds [|u us]]|]; eauto.
    destruct (find _ units) as [[u' f]|]; eauto.
  Qed.
End AsNumber.

Lemma byte_table u f : byte_factor u f <-> find (fun p => Ascii.eqb u (fst p)) byte_units = Some (u, f).
Proof.
  split.
  - intros (k & Hk & -> & H).
    destruct k as [|[|[|[|[|k]]]]]; [..|lia]; cbn in H; destruct H as [H|H]; inversion H; subst; reflexivity.
  - intros H. apply find_some in H. destruct H as [H _]. unfold byte_factor.
    cbn in H. repeat destruct H as [H|H]; try contradiction; inversion H; subst;
      first [exists 0%nat; split; [lia|]; split; [reflexivity|cbn; auto]; fail
            |exists 1%nat; split; [lia|]; split; [reflexivity|cbn; auto]; fail
            |exists 2%nat; split; [lia|]; split; [reflexivity|cbn; auto]; fail
            |exists 3%nat; split; [lia|]; split; [reflexivity|cbn; auto]; fail
            |exists 4%nat; split; [lia|]; split; [reflexivity|cbn; auto]].
Qed.
Lemma second_table u f : second_factor u f <-> find (fun p => Ascii.eqb u (fst p)) second_units = Some (u, f).
Proof.
  split.
  - unfold second_factor. intros H. repeat destruct H as [H|H]; destruct H; subst; reflexivity.
  - intros H. apply find_some in H. destruct H as [H _]. unfold second_factor.
    cbn in H. repeat destruct H as [H|H]; try contradiction; inversion H; subst; auto 20.
Qed.
Lemma percent_table u f : percent_factor u f <-> find (fun p => Ascii.eqb u (fst p)) percent_units = Some (u, f).
Proof.
  split.
  - intros [-> ->]. reflexivity.
  - intros H. apply find_some in H. destruct H as [H _]. cbn in H.
    destruct H as [H|[]]. inversion H. split; reflexivity.
Qed.

(** ** Edit distance *)
Inductive align : list ascii -> list ascii -> Z -> Prop :=
| al_nil : align [] [] 0
| al_ins b s t n : align s t n -> align s (b :: t) (n + 1)
| al_del a s t n : align s t n -> align (a :: s) t (n + 1)
| al_eq a s t n : align s t n -> align (a :: s) (a :: t) n
| al_sub a b s t n : align s t n -> align (a :: s) (b :: t) (n + 1).

Inductive edit1' : list ascii -> list ascii -> Prop :=
| e'_ins c t : edit1' t (c :: t)
| e'_del c t : edit1' (c :: t) t
| e'_sub c d t : edit1' (c :: t) (d :: t)
| e'_cons c t u : edit1' t u -> edit1' (c :: t) (c :: u).

Lemma edit1_iff s t : edit1 s t <-> edit1' s t.
Proof.
  split.
  - intros [p c q|p c q|p c d q]; induction p; cbn; constructor; assumption.
  - induction 1 as [c t|c t|c d t|c t u H IH].
    + apply (e_ins []). + apply (e_del []). + apply (e_sub []).
    + destruct IH as [p c' q|p c' q|p c' d q].
      * apply (e_ins (c :: p)). * apply (e_del (c :: p)). * apply (e_sub (c :: p)).
Qed.

Lemma edit1_rev s t : edit1 s t -> edit1 (rev s) (rev t).
Proof.
  intros [p c q|p c q|p c d q]; rewrite !rev_app_distr; cbn; rewrite <- ?app_assoc; cbn; constructor.
Qed.
Lemma edits_rev n s t : edits n s t -> edits n (rev s) (rev t).
Proof. induction 1; [constructor|]. econstructor; [eassumption|apply edit1_rev; assumption]. Qed.

Lemma align_edit s t n u : align s t n -> edit1' t u -> exists n', n' <= n + 1 /\ align s u n'.
Proof.
  intros H. revert u. induction H as [|b s t n H IH|a s t n H IH|a s t n H IH|a b s t n H IH]; intros u HE.
  - inversion HE; subst. exists (0 + 1). split; [lia|]. repeat constructor.
  - inversion HE; subst.
    + exists (n + 1 + 1). split; [lia|]. repeat constructor. assumption.
    + exists n. split; [lia|assumption].
    + exists (n + 1). split; [lia|]. constructor. assumption.
    + match goal with X : edit1' t _ |- _ => destruct (IH _ X) as (n' & A & B) end.
      exists (n' + 1). split; [lia|]. constructor. assumption.
  - destruct (IH u HE) as (n' & A & B). exists (n' + 1). split; [lia|]. constructor. assumption.
  - inversion HE; subst.
    + exists (n + 1). split; [lia|]. apply al_ins, al_eq. assumption.
    + exists (n + 1). split; [lia|]. apply al_del. assumption.
    + exists (n + 1). split; [lia|]. apply al_sub. assumption.
    + match goal with X : edit1' t _ |- _ => destruct (IH _ X) as (n' & A & B) end.
      exists n'. split; [lia|]. apply al_eq. assumption.
  - inversion HE; subst.
    + exists (n + 1 + 1). split; [lia|]. apply al_ins, al_sub. assumption.
    + exists (n + 1). split; [lia|]. apply al_del. assumption.
    + exists (n + 1). split; [lia|]. apply al_sub. assumption.
    + match goal with X : edit1' t _ |- _ => destruct (IH _ X) as (n' & A & B) end.
      exists (n' + 1). split; [lia|]. apply al_sub. assumption.
Qed.

Lemma align_refl s : align s s 0.
Proof. induction s; [constructor|]. apply al_eq. assumption. Qed.

Lemma edits_align n s t : edits n s t -> exists n', n' <= n /\ align s t n'.
Proof.
  induction 1 as [s|n s t u H IH HE]; [exists 0; split; [lia|apply align_refl]|].
  destruct IH as (n' & A & B). apply edit1_iff in HE.
  destruct (align_edit _ _ _ _ B HE) as (n'' & C & D). exists n''. split; [lia|assumption].
Qed.

Lemma edits_cons n a s t : edits n s t -> edits n (a :: s) (a :: t).
Proof.
  induction 1 as [|n s t u H IH HE]; [constructor|]. econstructor; [exact IH|].
  apply edit1_iff. constructor. apply edit1_iff. assumption.
Qed.
Lemma edits_trans n m s t u : edits n s t -> edits m t u -> edits (n + m) s u.
Proof.
  intros H1 H2. induction H2 as [|m t u v H IH HE]; [replace (n + 0) with n by lia; assumption|].
  rewrite Z.add_assoc. econstructor; [apply IH; assumption|assumption].
Qed.
Lemma edits_1 s t : edit1' s t -> edits (0 + 1) s t.
Proof. intros H. econstructor; [constructor|]. apply edit1_iff. assumption. Qed.

Lemma align_edits n s t : align s t n -> edits n s t.
Proof.
  induction 1 as [|b s t n H IH|a s t n H IH|a s t n H IH|a b s t n H IH].
  - constructor.
  - econstructor; [exact IH|]. apply edit1_iff. constructor.
  - replace (n + 1) with ((0 + 1) + n) by lia. eapply edits_trans; [|exact IH]. apply edits_1. constructor.
  - apply edits_cons. assumption.
  - replace (n + 1) with ((0 + 1) + n) by lia. eapply edits_trans; [|apply edits_cons; exact IH].
    apply edits_1. constructor.
Qed.

(** The recurrence, on reversed words. *)
Fixpoint lev (s : list ascii) : list ascii -> Z :=
  match s with
  | [] => fun t => Z.of_nat (List.length t)
  | a :: s' =>
      fix levt (t : list ascii) : Z :=
        match t with
        | [] => Z.of_nat (List.length s) 
        | b :: t' => Z.min (Z.min (lev s' t + 1) (levt t' + 1)) (lev s' t' + if Ascii.eqb a b then 0 else 1)
        end
  end.

Lemma lev_nil_r s : lev s [] = Z.of_nat (List.length s).
Proof. destruct s; reflexivity. Qed.
Lemma lev_cons a s b t : lev (a :: s) (b :: t) =
  Z.min (Z.min (lev s (b :: t) + 1) (lev (a :: s) t + 1)) (lev s t + if Ascii.eqb a b then 0 else 1).
Proof. reflexivity. Qed.

Lemma align_ins_all t : align [] t (Z.of_nat (List.length t)).
Proof. induction t as [|b t IH]; [constructor|]. cbn [List.length]. rewrite Nat2Z.inj_succ. constructor. exact IH. Qed.
Lemma align_del_all s : align s [] (Z.of_nat (List.length s)).
Proof. induction s as [|b s IH]; [constructor|]. cbn [List.length]. rewrite Nat2Z.inj_succ. constructor. exact IH. Qed.

Lemma lev_align s : forall t, align s t (lev s t).
Proof.
  induction s as [|a s IHs]; intros t; [apply align_ins_all|].
  induction t as [|b t IHt]; [apply align_del_all|]. rewrite lev_cons.
  destruct (Z.min_spec (Z.min (lev s (b :: t) + 1) (lev (a :: s) t + 1)) (lev s t + if Ascii.eqb a b then 0 else 1))
    as [[_ ->]|[_ ->]].
  - destruct (Z.min_spec (lev s (b :: t) + 1) (lev (a :: s) t + 1)) as [[_ ->]|[_ ->]].
    + apply al_del. apply IHs. + apply al_ins. apply IHt.
  - destruct (Ascii.eqb_spec a b) as [->|N]; [rewrite Z.add_0_r; apply al_eq|apply al_sub]; apply IHs.
Qed.

Lemma lev_ins s b : forall t, lev s (b :: t) <= lev s t + 1.
Proof.
  destruct s as [|a s]; intros t; [cbn; lia|]. rewrite lev_cons. lia.
Qed.
Lemma lev_del a s t : lev (a :: s) t <= lev s t + 1.
Proof. destruct t as [|b t]; [rewrite !lev_nil_r; cbn [List.length]; lia|]. rewrite lev_cons. lia. Qed.
Lemma align_lev s t n : align s t n -> lev s t <= n.
Proof.
  induction 1 as [|b s t n H IH|a s t n H IH|a s t n H IH|a b s t n H IH].
  - reflexivity.
  - pose proof (lev_ins s b t). lia.
  - pose proof (lev_del a s t). lia.
  - rewrite lev_cons, Ascii.eqb_refl. lia.
  - rewrite lev_cons. destruct (Ascii.eqb a b); lia.
Qed.

(** The table computes the recurrence on prefixes.  [pt] is the reversed part of [t]
    already passed. *)
Lemma dist_row_lev c ps : forall t pt,
  dist_row c (lev (c :: ps) pt) (lev ps pt)
    (map (fun k => lev ps (rev (firstn k t) ++ pt)) (seq 1 (List.length t))) t =
  map (fun k => lev (c :: ps) (rev (firstn k t) ++ pt)) (seq 1 (List.length t)).
Proof.
  induction t as [|b t IH]; intros pt; [reflexivity|].
  assert (HM : forall q, map (fun k => lev q (rev (firstn k (b :: t)) ++ pt)) (seq 2 (List.length t)) =
                         map (fun k => lev q (rev (firstn k t) ++ b :: pt)) (seq 1 (List.length t))).
  { intros q. rewrite <- (seq_shift _ 1), map_map. apply map_ext. intros k. cbn [firstn rev].
    rewrite <- app_assoc. reflexivity. }
  cbn [List.length seq map dist_row]. rewrite !HM. cbn [firstn rev app]. rewrite <- lev_cons.
  f_equal. apply IH.
Qed.

Definition lev_row (ps t : list ascii) : list Z :=
  map (fun k => lev ps (rev (firstn k t))) (seq 0 (S (List.length t))).

Lemma dist_rows_lev t : forall s ps,
  dist_rows (Z.of_nat (List.length ps) + 1) s (lev_row ps t) t = lev_row (rev s ++ ps) t.
Proof.
  induction s as [|c s IH]; intros ps; [reflexivity|]. cbn [dist_rows].
  unfold lev_row at 1. cbn [seq map firstn rev]. rewrite lev_nil_r.
  pose proof (dist_row_lev c ps t []) as H. rewrite !lev_nil_r in H.
  rewrite (map_ext _ (fun k => lev ps (rev (firstn k t)))) in H by (intros; rewrite app_nil_r; reflexivity).
  rewrite (map_ext (fun k => lev (c :: ps) (rev (firstn k t) ++ [])) (fun k => lev (c :: ps) (rev (firstn k t)))) in H
    by (intros; rewrite app_nil_r; reflexivity).
  cbn [List.length] in H. rewrite Nat2Z.inj_succ in H. unfold Z.succ in H. rewrite H.
  specialize (IH (c :: ps)). cbn [List.length] in IH. rewrite Nat2Z.inj_succ in IH. unfold Z.succ in IH.
  cbn [rev]. rewrite <- app_assoc. cbn [app]. rewrite <- IH. f_equal.
  unfold lev_row. cbn [seq map firstn rev]. rewrite lev_nil_r. cbn [List.length]. rewrite Nat2Z.inj_succ. reflexivity.
Qed.

Lemma arange_map n a : arange a n = map (fun k => a + Z.of_nat k) (seq 0 n).
Proof.
  revert a. induction n as [|n IH]; intros a; [reflexivity|]. cbn [arange seq map]. rewrite Z.add_0_r. f_equal.
  rewrite IH, <- seq_shift, map_map. apply map_ext. intros. lia.
Qed.

Lemma string_distance_lev s t : string_distance s t = lev (rev (chars s)) (rev (chars t)).
Proof.
  unfold string_distance. set (u := chars t).
  assert (arange 0 (S (List.length u)) = lev_row [] u) as ->.
  { rewrite arange_map. unfold lev_row. apply map_ext_in. intros k Hk. apply in_seq in Hk.
    cbn [lev]. rewrite rev_length, firstn_length. lia. }
  pose proof (dist_rows_lev u (chars s) []) as H. cbn [List.length] in H. change (Z.of_nat 0 + 1) with 1 in H.
  rewrite H, app_nil_r. unfold lev_row. rewrite seq_S, map_app. cbn [map]. rewrite last_last.
  cbn. rewrite firstn_all. reflexivity.
Qed.

Lemma distance_least s t :
  edits (string_distance s t) (chars s) (chars t) /\
  forall n, edits n (chars s) (chars t) -> string_distance s t <= n.
Proof.
  rewrite string_distance_lev. split.
  - rewrite <- (rev_involutive (chars s)) at 2. rewrite <- (rev_involutive (chars t)) at 2.
    apply edits_rev, align_edits, lev_align.
  - intros n H. apply edits_rev in H. destruct (edits_align _ _ _ H) as (n' & A & B).
    apply align_lev in B. lia.
Qed.

Lemma edit1_sym s t : edit1 s t -> edit1 t s.
Proof. intros []; constructor. Qed.
Lemma edits_sym n s t : edits n s t -> edits n t s.
Proof.
  induction 1 as [|n s t u H IH HE]; [constructor|]. rewrite Z.add_comm. eapply edits_trans; [|exact IH].
  apply (edits_S 0 u u t); [constructor|apply edit1_sym; exact HE].
Qed.
Lemma edits_nonneg n s t : edits n s t -> 0 <= n.
Proof. induction 1; lia. Qed.
Lemma edits_zero s t : edits 0 s t -> s = t.
Proof.
  intros H. remember 0 as n eqn:E. destruct H as [|n s t u H HE]; [reflexivity|].
  apply edits_nonneg in H. lia.
Qed.

Lemma distance_metric s t u :
  0 <= string_distance s t /\
  (string_distance s t = 0 <-> s = t) /\
  string_distance s t = string_distance t s /\
  string_distance s u <= string_distance s t + string_distance t u.
Proof.
  destruct (distance_least s t) as [A B], (distance_least t s) as [A' B'], (distance_least t u) as [C D],
    (distance_least s u) as [E F].
  split; [apply edits_nonneg in A; exact A|]. split; [|split].
  - split.
    + intros H. rewrite H in A. apply edits_zero in A. apply chars_inj. exact A.
    + intros ->. assert (string_distance t t <= 0) by (apply B; constructor). apply edits_nonneg in A. lia.
  - apply Z.le_antisymm; [apply B, edits_sym, A'|apply B', edits_sym, A].
  - apply F. eapply edits_trans; eassumption.
Qed.

Lemma pair_min_fold r : forall p,
  let m := fold_left (fun best q => if pair_ltb q best then q else best) r p in
  (m = p \/ In m r) /\ fst m <= fst p /\ forall q, In q r -> fst m <= fst q.
Proof.
  induction r as [|q r IH]; intros p; cbn; [split; [auto|split; [lia|contradiction]]|].
  destruct (IH (if pair_ltb q p then q else p)) as (A & B & C).
  unfold pair_ltb in *. 
  assert (HH : fst (if (fst q <? fst p) || (fst q =? fst p) && String.ltb (snd q) (snd p) then q else p) <= fst p /\
               fst (if (fst q <? fst p) || (fst q =? fst p) && String.ltb (snd q) (snd p) then q else p) <= fst q).
  { destruct (Z.ltb_spec (fst q) (fst p)); cbn; [lia|].
    destruct (Z.eqb_spec (fst q) (fst p)); cbn; [|lia]. destruct (String.ltb _ _); lia. }
  split; [|split].
  - destruct A as [A|A]; [|auto]. destruct (_ || _); auto.
  - lia.
  - intros x [->|Hx]; [lia|]. apply C. exact Hx.
Qed.

Lemma did_you_mean_least word vocab best : did_you_mean word vocab = Ok best ->
  In best vocab /\ forall w, In w vocab -> string_distance word best <= string_distance word w.
Proof.
  unfold did_you_mean. destruct vocab as [|v0 vocab]; cbn [map]; [discriminate|].
  set (f := fun w => (string_distance word w, w)).
  intros H. inversion H; subst; clear H.
  destruct (pair_min_fold (map f vocab) (f v0)) as (A & B & C). cbn zeta in *.
  set (m := fold_left _ _ _) in *.
  assert (HM : exists w, In w (v0 :: vocab) /\ m = f w).
  { destruct A as [A|A]; [exists v0; split; [left; reflexivity|exact A]|].
    apply in_map_iff in A. destruct A as (w & E & Hw). exists w. split; [right; exact Hw|auto]. }
  destruct HM as (w & Hw & E). rewrite E in *. cbn. split; [exact Hw|].
  intros x [<-|Hx]; [exact B|]. apply (C (f x)). apply in_map. exact Hx.
Qed.
