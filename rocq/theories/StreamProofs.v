(** Lemmas on the stream codec: utils/stream.py, modelled in Stream.v. *)
From Verif Require Import PyBase Stream StreamSpec.
Local Open Scope list_scope.
Local Open Scope Z_scope.

Lemma zlen_app a b : zlen (a ++ b) = zlen a + zlen b.
Proof. unfold zlen. rewrite app_length. lia. Qed.
Lemma zlen_nonneg a : 0 <= zlen a.
Proof. unfold zlen. lia. Qed.
Lemma zlen_cons a b : zlen (a :: b) = 1 + zlen b.
Proof. unfold zlen. cbn [List.length]. lia. Qed.
Lemma zlen_nil_iff a : zlen a = 0 <-> a = [].
Proof. destruct a; [split; reflexivity|]. rewrite zlen_cons. pose proof (zlen_nonneg a). split; [lia|discriminate]. Qed.

Lemma ztake_app a b : ztake (zlen a) (a ++ b) = a.
Proof.
  induction a as [|x a IH]; cbn [app ztake].
  - destruct b; reflexivity.
  - rewrite zlen_cons. pose proof (zlen_nonneg a).
    replace (1 + zlen a <=? 0) with false by lia.
    replace (1 + zlen a - 1) with (zlen a) by lia. now rewrite IH.
Qed.
Lemma zdrop_app a b : zdrop (zlen a) (a ++ b) = b.
Proof.
  induction a as [|x a IH]; cbn [app zdrop].
  - destruct b; reflexivity.
  - rewrite zlen_cons. pose proof (zlen_nonneg a).
    replace (1 + zlen a <=? 0) with false by lia.
    replace (1 + zlen a - 1) with (zlen a) by lia. now rewrite IH.
Qed.
Lemma ztake_short n s : zlen s <= n -> ztake n s = s.
Proof.
  revert n. induction s as [|x s IH]; intros n H; cbn [ztake]; [reflexivity|].
  rewrite zlen_cons in H. pose proof (zlen_nonneg s).
  replace (n <=? 0) with false by lia. rewrite IH; [reflexivity|lia].
Qed.
Lemma zdrop_short n s : zlen s <= n -> zdrop n s = [].
Proof.
  revert n. induction s as [|x s IH]; intros n H; cbn [zdrop]; [reflexivity|].
  rewrite zlen_cons in H. pose proof (zlen_nonneg s).
  replace (n <=? 0) with false by lia. apply IH. lia.
Qed.

Lemma be4 n : 0 <= n < 2 ^ 32 -> be 4 n = word n.
Proof.
  intros H. cbn [be app]. unfold word. rewrite !Z.div_div by lia.
  change (256 * 256) with (2 ^ 16). change (2 ^ 16 * 256) with (2 ^ 24). change (256) with (2 ^ 8).
  rewrite (Z.mod_small (n / 2 ^ 24)); [reflexivity|].
  split; [apply Z.div_pos; lia|]. apply Z.div_lt_upper_bound; lia.
Qed.
Lemma be_length k n : List.length (be k n) = k.
Proof. revert n. induction k as [|k IH]; intros n; cbn [be]; [reflexivity|]. rewrite app_length, IH. cbn. lia. Qed.
Lemma unbe_snoc s b : unbe (s ++ [b]) = 256 * unbe s + b.
Proof. unfold unbe. now rewrite fold_left_app. Qed.
Lemma unbe_be k n : 0 <= n < 256 ^ Z.of_nat k -> unbe (be k n) = n.
Proof.
  revert n. induction k as [|k IH]; intros n H.
  - cbn in H. cbn. lia.
  - cbn [be]. rewrite unbe_snoc, IH.
    + pose proof (Z.div_mod n 256). lia.
    + rewrite Nat2Z.inj_succ, Z.pow_succ_r in H by lia.
      split; [apply Z.div_pos; lia|]. apply Z.div_lt_upper_bound; lia.
Qed.
Lemma unbe_word n : 0 <= n < 2 ^ 32 -> unbe (word n) = n.
Proof. intros H. rewrite <- be4 by exact H. apply unbe_be. exact H. Qed.
Lemma be_mod j n m : m = 256 ^ Z.of_nat j -> be j (n mod m) = be j n.
Proof.
  revert n m. induction j as [|j IH]; intros n m ->; [reflexivity|].
  rewrite Nat2Z.inj_succ, Z.pow_succ_r by lia. cbn [be].
  assert (P : 0 < 256 ^ Z.of_nat j) by (apply Z.pow_pos_nonneg; lia).
  rewrite Z.rem_mul_r by lia. f_equal.
  - replace ((n mod 256 + 256 * ((n / 256) mod 256 ^ Z.of_nat j)) / 256) with ((n / 256) mod 256 ^ Z.of_nat j).
    + now apply IH.
    + rewrite (Z.mul_comm 256), Z.div_add by lia. rewrite (Z.div_small (n mod 256)); [lia|]. apply Z.mod_pos_bound. lia.
  - f_equal. rewrite (Z.mul_comm 256), Z.mod_add by lia. apply Z.mod_mod. lia.
Qed.
Lemma be_split k j n m : m = 256 ^ Z.of_nat j -> be (j + k) n = be k (n / m) ++ be j (n mod m).
Proof.
  intros ->. rewrite be_mod by reflexivity. revert n. induction j as [|j IH]; intros n.
  - cbn [Nat.add be]. rewrite Z.div_1_r, app_nil_r. reflexivity.
  - cbn [Nat.add be]. rewrite IH, Z.div_div, <- app_assoc.
    + do 3 f_equal. rewrite Nat2Z.inj_succ, Z.pow_succ_r by lia. reflexivity.
    + lia.
    + apply Z.pow_pos_nonneg; lia.
Qed.
Lemma be8_split n : 0 <= n < 2 ^ 64 -> be 8 n = word (n / 2 ^ 32) ++ word (n mod 2 ^ 32).
Proof.
  intros H.
  pose proof (Z.mod_pos_bound n (2 ^ 32) ltac:(lia)) as M.
  assert (D : 0 <= n / 2 ^ 32 < 2 ^ 32).
  { split; [apply Z.div_pos; lia|]. apply Z.div_lt_upper_bound; lia. }
  rewrite <- (be4 (n / 2 ^ 32)), <- (be4 (n mod 2 ^ 32)) by assumption.
  apply (be_split 4 4). reflexivity.
Qed.
Lemma unbe_app a b : unbe (a ++ b) = unbe a * 256 ^ zlen b + unbe b.
Proof.
  revert a. induction b as [|x b IH] using rev_ind; intros a.
  - rewrite app_nil_r. change (unbe []) with 0. change (zlen []) with 0. lia.
  - rewrite app_assoc, !unbe_snoc, IH, zlen_app. change (zlen [x]) with 1.
    rewrite Z.pow_add_r by (pose proof (zlen_nonneg b); lia). lia.
Qed.
Lemma unbe_2words h l : 0 <= h < 2 ^ 32 -> 0 <= l < 2 ^ 32 -> unbe (word h ++ word l) = h * 2 ^ 32 + l.
Proof. intros H L. rewrite unbe_app, !unbe_word by assumption. reflexivity. Qed.

Lemma word_length n : List.length (word n) = 4%nat. Proof. reflexivity. Qed.
Lemma zlen_word n : zlen (word n) = 4. Proof. reflexivity. Qed.

(** ** Writing *)
Definition writes (w : writer) (b : bytes) : Prop := forall out, w out = (Ok tt, out ++ b).
Lemma writes_seq w1 w2 a b : writes w1 a -> writes w2 b -> writes (w1 ;;; w2) (a ++ b).
Proof. intros H1 H2 out. unfold wseq. now rewrite H1, H2, app_assoc. Qed.
Lemma writes_ n k : k = zlen n -> writes (write_ n (Some k)) n.
Proof. intros -> out. unfold write_. rewrite Z.eqb_refl, orb_true_r. reflexivity. Qed.
Lemma writes_tag t : writes (write_tag t) [t].
Proof. apply writes_. reflexivity. Qed.
Lemma pack_L_ok n : 0 <= n < 2 ^ 32 -> pack_L n = Ok (word n).
Proof. intros H. unfold pack_L. rewrite be4 by exact H. destruct ((0 <=? n) && (n <? 2 ^ 32)) eqn:E; [reflexivity|lia]. Qed.
Lemma writes_L n : 0 <= n < 2 ^ 32 -> writes (write_L n) (word n).
Proof.
  intros H out. unfold write_L. rewrite pack_L_ok by exact H.
  apply writes_. reflexivity.
Qed.
Lemma writes_double bits : 0 <= bits < 2 ^ 64 -> writes (write_double (Some bits)) (wire (VDouble bits)).
Proof.
  intros H. apply (writes_seq _ _ [14]); [apply writes_tag|]. intros out.
  cbv zeta. rewrite be8_split by exact H.
  pose proof (Z.mod_pos_bound bits (2 ^ 32) ltac:(lia)) as M.
  assert (D : 0 <= bits / 2 ^ 32 < 2 ^ 32).
  { split; [apply Z.div_pos; lia|]. apply Z.div_lt_upper_bound; lia. }
  rewrite (ztake_app (word (bits / 2 ^ 32))), (zdrop_app (word (bits / 2 ^ 32))), !unbe_word by assumption.
  rewrite (pack_L_ok (bits mod 2 ^ 32)) by assumption. unfold wseq, write_.
  rewrite pack_L_ok by assumption. now rewrite app_assoc.
Qed.

(** values that can be written (whether or not they can be read back) *)
Definition writable (v : value) : Prop :=
  carried v \/ match v with
               | VLongLong n => 0 <= n < 2 ^ 32
               | VDouble b => 0 <= b < 2 ^ 64
               | _ => False
               end.
Lemma writes_value v : writable v -> writes (write_value v) (wire v).
Proof.
  intros [H|H].
  - destruct v; cbn [carried] in H; try contradiction; cbn [write_value wire].
    1,2: apply (writes_seq _ _ [_]); [apply writes_tag|apply writes_; unfold zlen; rewrite H; reflexivity].
    1,2,3,4: apply (writes_seq _ _ [_]); [apply writes_tag|now apply writes_L].
    + apply (writes_seq _ _ [_]); [apply writes_tag|].
      rewrite Z.div_small, Z.mod_small by exact H.
      apply writes_seq; [apply writes_L; lia|now apply writes_L].
    + apply (writes_seq _ _ [_]); [apply writes_tag|].
      apply writes_seq; [apply writes_L; unfold zlen; lia|apply writes_; reflexivity].
  - destruct v; try contradiction.
    + apply (writes_seq _ _ [_]); [apply writes_tag|now apply writes_L].
    + now apply writes_double.
Qed.
Lemma writes_ends n : writes (end_objects n) (repeat 2 n).
Proof.
  induction n as [|n IH]; cbn [end_objects repeat].
  - intros out. now rewrite app_nil_r.
  - apply (writes_seq _ _ [2]); [apply writes_tag|exact IH].
Qed.
Lemma writes_values l : Forall (fun nv => writable (snd nv)) l -> writes (write_values l) (wires l).
Proof.
  induction l as [|[n v] l IH]; intros H; cbn [write_values].
  - intros out. cbn. now rewrite app_nil_r.
  - apply Forall_inv in H as Hv. apply Forall_inv_tail in H.
    unfold wires. cbn [flat_map fst snd]. rewrite <- app_assoc.
    apply writes_seq; [apply writes_ends|]. apply writes_seq; [now apply writes_value|]. now apply IH.
Qed.

(** ** Reading *)
Lemma skip_ends n t r : t <> 2 -> skip_end_obj (repeat 2 n ++ t :: r) = (Some t, r).
Proof.
  intros H. induction n as [|n IH]; cbn [repeat app skip_end_obj].
  - unfold TAG_END_OBJ. now replace (t =? 2) with false by lia.
  - exact IH.
Qed.
Lemma skip_ends_eof n : skip_end_obj (repeat 2 n) = (None, []).
Proof. induction n as [|n IH]; [reflexivity|exact IH]. Qed.
Lemma read_tag_ok n t r : t <> 2 -> read_tag t (repeat 2 n ++ t :: r) = Ok r.
Proof.
  intros H. unfold read_tag. rewrite skip_ends by exact H. rewrite Z.eqb_refl. cbn [negb].
  destruct n; reflexivity.
Qed.
Lemma read_tag_eof n t : read_tag t (repeat 2 n) = Raise TypeError.
Proof. unfold read_tag. rewrite skip_ends_eof. now destruct n. Qed.
Lemma read_app n a b : zlen a = n -> n < 2 ^ 63 -> read_ n (a ++ b) = Ok (a, b).
Proof. intros <- H. unfold read_. rewrite (proj2 (Z.ltb_lt _ _)) by exact H. now rewrite ztake_app, zdrop_app. Qed.
Lemma read_short n s : zlen s <= n -> n < 2 ^ 63 -> read_ n s = Ok (s, []).
Proof. intros H K. unfold read_. rewrite (proj2 (Z.ltb_lt _ _)) by exact K. now rewrite ztake_short, zdrop_short. Qed.

Lemma read_L_ok t n k r : t <> 2 -> 0 <= k < 2 ^ 32 -> read_L t (repeat 2 n ++ t :: word k ++ r) = Ok (k, r).
Proof.
  intros T K. unfold read_L. rewrite read_tag_ok by exact T. cbn [bind].
  rewrite read_app by (reflexivity || lia). cbn [bind fst snd].
  unfold unpack_L. rewrite zlen_word. cbn [Z.eqb Pos.eqb]. rewrite unbe_word by exact K. reflexivity.
Qed.
Lemma read_value_ok n v r : carried v -> read_value (kind_of v) (repeat 2 n ++ wire v ++ r) = Ok (v, r).
Proof.
  intros H. destruct v; cbn [carried] in H; try contradiction; cbn [kind_of read_value wire app].
  1,2: unfold read_char, read_unsigned_char, read_bytes1; rewrite read_tag_ok by discriminate; cbn [bind];
       rewrite read_app by (unfold zlen; rewrite ?H; reflexivity || lia); reflexivity.
  1,2,3,4: unfold read_int, read_unsigned_int, read_long, read_unsigned_long;
       rewrite read_L_ok by (discriminate || assumption); reflexivity.
  - unfold read_unsigned_long_long. rewrite read_tag_ok by discriminate. cbn [bind].
    rewrite read_app by (reflexivity || lia). cbn [bind fst snd]. unfold unpack_Q.
    rewrite zlen_app, !zlen_word. cbn [Z.eqb Pos.eqb Z.add Pos.add].
    pose proof (Z.mod_pos_bound n0 (2 ^ 32) ltac:(lia)).
    rewrite Z.div_small by exact H. rewrite Z.mod_small by exact H.
    rewrite unbe_2words by lia. cbn [vmap bind fst snd]. repeat f_equal; lia.
  - unfold read_string. rewrite read_tag_ok by discriminate. cbn [bind].
    rewrite <- app_assoc. rewrite read_app by (reflexivity || lia). cbn [bind fst snd].
    unfold unpack_L. rewrite zlen_word. cbn [Z.eqb Pos.eqb bind].
    rewrite unbe_word by lia. rewrite read_app by (unfold zlen; lia). reflexivity.
Qed.
Lemma read_values_ok l r : Forall (fun nv => carried (snd nv)) l ->
  read_values (map (fun nv => kind_of (snd nv)) l) (wires l ++ r) = Ok (map snd l, r).
Proof.
  induction l as [|[n v] l IH]; intros H; [reflexivity|].
  apply Forall_inv in H as Hv. apply Forall_inv_tail in H. cbn [snd] in Hv.
  cbn [map read_values snd]. unfold wires. cbn [flat_map fst snd]. rewrite <- !app_assoc.
  rewrite read_value_ok by exact Hv. cbn [bind fst snd].
  fold (wires l). rewrite IH by exact H. reflexivity.
Qed.

(** ** Truncation *)
Lemma prefix_cases (p a b : bytes) : strict_prefix p (a ++ b) ->
  strict_prefix p a \/ (exists p', p = a ++ p' /\ strict_prefix p' b).
Proof.
  revert p. induction a as [|x a IH]; intros p (q & Q & E).
  - right. exists p. split; [reflexivity|]. now exists q.
  - destruct p as [|y p].
    + left. exists (x :: a). split; [discriminate|reflexivity].
    + cbn in E. injection E as -> E. destruct (IH p) as [(q' & Q' & E')|(p' & E' & S')].
      * now exists q.
      * left. exists q'. split; [exact Q'|]. cbn. now rewrite E'.
      * right. exists p'. split; [|exact S']. cbn. now rewrite E'.
Qed.
Lemma prefix_nil p : ~ strict_prefix p [].
Proof. intros (q & Q & E). destruct p; [now apply Q|discriminate]. Qed.
Lemma prefix_shorter p w : strict_prefix p w -> zlen p < zlen w.
Proof.
  intros (q & Q & ->). rewrite zlen_app. destruct q as [|x q]; [contradiction|].
  rewrite zlen_cons. pose proof (zlen_nonneg q). lia.
Qed.
Lemma prefix_repeat p n : strict_prefix p (repeat 2 n) -> exists m, p = repeat 2 m.
Proof.
  revert n. induction p as [|x p IH]; intros n (q & Q & E).
  - now exists O.
  - destruct n as [|n]; [discriminate|]. cbn in E. injection E as <- E.
    destruct (IH n) as (m & ->); [now exists q|]. now exists (S m).
Qed.
(** how far a truncated tagged value goes: the tag is missing, or the payload is cut *)
Lemma prefix_tagged p n t w : strict_prefix p (repeat 2 n ++ t :: w) ->
  (exists m, p = repeat 2 m) \/ (exists p', p = repeat 2 n ++ t :: p' /\ strict_prefix p' w).
Proof.
  intros H. apply prefix_cases in H as [H|(p' & -> & H)].
  - left. now apply prefix_repeat in H.
  - apply (prefix_cases _ [t]) in H as [H|(p2 & -> & H)].
    + left. assert (p' = []) as ->.
      { apply prefix_shorter in H. change (zlen [t]) with 1 in H. apply zlen_nil_iff. pose proof (zlen_nonneg p'). lia. }
      exists n. apply app_nil_r.
    + right. exists p2. split; [reflexivity|exact H].
Qed.

Definition noticed {A} (r : result A) : Prop := r = Raise TypeError \/ r = Raise StructError.

Lemma read_L_cut t n k p : t <> 2 -> strict_prefix p (repeat 2 n ++ t :: word k) -> noticed (read_L t p).
Proof.
  intros T H. apply prefix_tagged in H as [(m & ->)|(p' & -> & H)]; unfold read_L.
  - left. now rewrite read_tag_eof.
  - right. rewrite read_tag_ok by exact T. cbn [bind].
    apply prefix_shorter in H. rewrite zlen_word in H.
    rewrite read_short by lia. cbn [bind fst snd]. unfold unpack_L.
    now replace (zlen p' =? 4) with false by lia.
Qed.
Lemma noticed_bind {A B} (r : result A) (f : A -> result B) : noticed r -> noticed (bind r f).
Proof. now intros [->| ->]; [left|right]. Qed.

(** a truncated value is noticed, unless it is a string or a character whose payload is cut *)
Lemma read_value_cut n v p : carried v -> strict_prefix p (repeat 2 n ++ wire v) ->
  noticed (read_value (kind_of v) p) \/
  exists v', cut v v' /\ read_value (kind_of v) p = Ok (v', []).
Proof.
  intros C H. destruct v; cbn [carried] in C; try contradiction; cbn [kind_of read_value wire] in *.
  3,4,5,6: left; apply noticed_bind; eapply read_L_cut; [|exact H]; discriminate.
  - apply prefix_tagged in H as [(m & ->)|(p' & -> & H)]; unfold read_char, read_bytes1.
    + left. left. now rewrite read_tag_eof.
    + right. exists (VChar p'). split; [exact H|]. rewrite read_tag_ok by discriminate. cbn [bind].
      apply prefix_shorter in H. unfold zlen in H at 2. rewrite read_short by lia. reflexivity.
  - apply prefix_tagged in H as [(m & ->)|(p' & -> & H)]; unfold read_unsigned_char, read_bytes1.
    + left. left. now rewrite read_tag_eof.
    + right. exists (VUChar p'). split; [exact H|]. rewrite read_tag_ok by discriminate. cbn [bind].
      apply prefix_shorter in H. unfold zlen in H at 2. rewrite read_short by lia. reflexivity.
  - left. apply noticed_bind. apply prefix_tagged in H as [(m & ->)|(p' & -> & H)]; unfold read_unsigned_long_long.
    + left. now rewrite read_tag_eof.
    + right. rewrite read_tag_ok by discriminate. cbn [bind].
      apply prefix_shorter in H. rewrite zlen_app, !zlen_word in H.
      rewrite read_short by lia. cbn [bind fst snd]. unfold unpack_Q.
      now replace (zlen p' =? 8) with false by lia.
  - apply prefix_tagged in H as [(m & ->)|(p' & -> & H)]; unfold read_string.
    + left. left. now rewrite read_tag_eof.
    + rewrite read_tag_ok by discriminate. cbn [bind].
      apply prefix_cases in H as [H|(p2 & -> & H)].
      * left. right. apply prefix_shorter in H. rewrite zlen_word in H.
        rewrite read_short by lia. cbn [bind fst snd]. unfold unpack_L.
        now replace (zlen p' =? 4) with false by lia.
      * right. exists (VString p2). split; [exact H|].
        rewrite read_app by (reflexivity || lia). cbn [bind fst snd].
        unfold unpack_L. rewrite zlen_word. cbn [Z.eqb Pos.eqb bind].
        rewrite unbe_word by lia. apply prefix_shorter in H. unfold zlen in H at 2.
        rewrite read_short by lia. reflexivity.
Qed.

(** what is left after the file ended: nothing can be read *)
Lemma read_value_eof k : noticed (read_value k []).
Proof. destruct k; now left. Qed.

Lemma read_values_cut l p : Forall (fun nv => carried (snd nv)) l -> strict_prefix p (wires l) ->
  noticed (read_values (map (fun nv => kind_of (snd nv)) l) p) \/
  exists l' n v v', l = l' ++ [(n, v)] /\ cut v v' /\
    read_values (map (fun nv => kind_of (snd nv)) l) p = Ok (map snd l' ++ [v'], []).
Proof.
  revert p. induction l as [|[n v] l IH]; intros p F H.
  - exfalso. now apply prefix_nil in H.
  - apply Forall_inv in F as Fv. apply Forall_inv_tail in F. cbn [snd] in Fv.
    unfold wires in H. cbn [flat_map fst snd] in H. fold (wires l) in H.
    cbn [map read_values snd].
    apply prefix_cases in H as [H|(p' & -> & H)].
    + destruct (read_value_cut n v p Fv H) as [N|(v' & C & E)].
      * left. now apply noticed_bind.
      * rewrite E. cbn [bind fst snd]. destruct l as [|[n2 v2] l].
        -- right. exists [], n, v, v'. split; [reflexivity|]. split; [exact C|]. reflexivity.
        -- left. cbn [map read_values snd]. do 2 apply noticed_bind. apply read_value_eof.
    + rewrite <- app_assoc, read_value_ok by exact Fv. cbn [bind fst snd].
      destruct (IH p' F H) as [N|(l' & n2 & v2 & v' & -> & C & E)].
      * left. now apply noticed_bind.
      * right. exists ((n, v) :: l'), n2, v2, v'. split; [reflexivity|]. split; [exact C|].
        rewrite E. reflexivity.
Qed.
