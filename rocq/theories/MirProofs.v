(** Lemmas on the MIR codecs: utils/mir.py, modelled in Mir.v. *)
From Verif Require Import PyBase ListLemmas Stream StreamSpec StreamProofs Mir MirSpec.
Local Open Scope list_scope.
Local Open Scope Z_scope.

(** ** Arrays of items *)
Lemma le_bytes_S k n : le_bytes (S k) n = n mod 256 :: le_bytes k (n / 256).
Proof.
  unfold le_bytes. cbn [seq map]. rewrite Z.div_1_r. f_equal.
  rewrite <- seq_shift, map_map. apply map_ext. intros i.
  rewrite Z.div_div by (try apply Z.pow_pos_nonneg; lia).
  rewrite Nat2Z.inj_succ, Z.pow_succ_r by lia. reflexivity.
Qed.
Lemma le_be k n : be k n = rev (le_bytes k n).
Proof.
  revert n. induction k as [|k IH]; intros n; [reflexivity|].
  rewrite le_bytes_S. cbn [be rev]. now rewrite IH.
Qed.
Lemma le_length k n : List.length (le_bytes k n) = k.
Proof. unfold le_bytes. now rewrite map_length, seq_length. Qed.
Lemma item_length le k n : List.length (item_bytes le k n) = k.
Proof. destruct le; cbn [item_bytes]; rewrite ?rev_length; apply le_length. Qed.
Lemma item_value (le : bool) k n : 0 <= n < 256 ^ Z.of_nat k ->
  (if le then unle else unbe) (item_bytes le k n) = n.
Proof.
  intros H. destruct le; cbn [item_bytes]; unfold unle; rewrite <- le_be; now apply unbe_be.
Qed.
Lemma flat_length le k l : zlen (flat_map (item_bytes le k) l) = Z.of_nat k * zlen l.
Proof.
  induction l as [|x l IH]; cbn [flat_map]; [cbn; lia|].
  rewrite zlen_app, IH, zlen_cons. unfold zlen at 1. rewrite item_length. lia.
Qed.
Lemma chunks_flat le k l : (0 < k)%nat -> 
  chunks (List.length l) (Z.of_nat k) (flat_map (item_bytes le k) l) = map (item_bytes le k) l.
Proof.
  intros K. induction l as [|x l IH]; [reflexivity|].
  cbn [flat_map List.length chunks map].
  assert (E : zlen (item_bytes le k x) = Z.of_nat k) by (unfold zlen; now rewrite item_length).
  rewrite <- E at 1. rewrite ztake_app. rewrite <- E at 2. rewrite zdrop_app, IH. reflexivity.
Qed.
Lemma frombuffer_ok le k l : (0 < k)%nat -> Forall (fun n => 0 <= n < 256 ^ Z.of_nat k) l ->
  frombuffer le (Z.of_nat k) (flat_map (item_bytes le k) l) = Ok l.
Proof.
  intros K F. unfold frombuffer. rewrite flat_length, Z.mul_comm, Z.mod_mul, Z.div_mul by lia.
  cbn [Z.eqb]. unfold zlen. rewrite Nat2Z.id, chunks_flat by exact K. f_equal.
  rewrite map_map. rewrite <- (map_id l) at 2. apply map_ext_in. intros n N.
  rewrite Forall_forall in F. apply item_value. now apply F.
Qed.
(** as many items as the length says *)
Lemma chunks_length n k s : List.length (chunks n k s) = n.
Proof. revert s. induction n as [|n IH]; intros s; cbn [chunks List.length]; [reflexivity|now rewrite IH]. Qed.
Lemma frombuffer_length le k s l : 0 < k -> frombuffer le k s = Ok l -> zlen l * k = zlen s.
Proof.
  intros K H. unfold frombuffer in H. destruct (zlen s mod k =? 0) eqn:E; [|discriminate].
  injection H as <-. unfold zlen at 1. rewrite map_length, chunks_length.
  pose proof (zlen_nonneg s). rewrite Z2Nat.id by (apply Z.div_pos; lia).
  pose proof (Z.div_mod (zlen s) k). lia.
Qed.

(** ** Blobs *)
Lemma blob_bound (b : bytes) : zlen b < 2 ^ 63 ->
  0 <= zlen b / 2 ^ 32 < 2 ^ 32 /\ 0 <= zlen b mod 2 ^ 32 < 2 ^ 32.
Proof.
  intros H. pose proof (zlen_nonneg b). split.
  - split; [apply Z.div_pos; lia|]. apply Z.div_lt_upper_bound; lia.
  - apply Z.mod_pos_bound. lia.
Qed.
Lemma read_blob_ok b r : zlen b < 2 ^ 63 -> read_large_blob (blob b ++ r) = Ok (b, r).
Proof.
  intros H. destruct (blob_bound b H) as [B1 B2]. unfold read_large_blob, blob. fold (zlen b).
  rewrite <- app_comm_cons, <- !app_assoc. change (read_tag TAG_LARGE_BLOB (21 :: ?r)) with (read_tag 21 (repeat 2 0 ++ 21 :: r)).
  rewrite read_tag_ok by discriminate. cbn [bind].
  rewrite (app_assoc (word _) (word _)), read_app by (reflexivity || lia). cbn [bind fst snd].
  unfold unpack_Q. change (zlen _ =? 8) with true. cbn [bind].
  rewrite unbe_2words by assumption.
  replace (zlen b / 2 ^ 32 * 2 ^ 32 + zlen b mod 2 ^ 32) with (zlen b) by (pose proof (Z.div_mod (zlen b) (2 ^ 32)); lia).
  now rewrite read_app.
Qed.
Lemma read_blob_cut b p : zlen b < 2 ^ 63 -> strict_prefix p (blob b) ->
  noticed (read_large_blob p) \/ exists b', strict_prefix b' b /\ read_large_blob p = Ok (b', []).
Proof.
  intros H P. destruct (blob_bound b H) as [B1 B2]. unfold blob in P. fold (zlen b) in P.
  apply (prefix_tagged p 0) in P as [(m & ->)|(p' & -> & P)]; unfold read_large_blob.
  - left. left. now rewrite read_tag_eof.
  - rewrite read_tag_ok by discriminate. cbn [bind]. rewrite app_assoc in P.
    apply prefix_cases in P as [P|(p2 & -> & P)].
    + left. right. apply prefix_shorter in P. rewrite zlen_app, !zlen_word in P.
      rewrite read_short by lia. cbn [bind fst snd]. unfold unpack_Q.
      now replace (zlen p' =? 8) with false by lia.
    + right. exists p2. split; [exact P|].
      rewrite read_app by (reflexivity || lia). cbn [bind fst snd].
      unfold unpack_Q. change (zlen _ =? 8) with true. cbn [bind].
      rewrite unbe_2words by assumption.
      replace (zlen b / 2 ^ 32 * 2 ^ 32 + zlen b mod 2 ^ 32) with (zlen b) by (pose proof (Z.div_mod (zlen b) (2 ^ 32)); lia).
      apply prefix_shorter in P. now rewrite read_short by lia.
Qed.

(** ** Matrices *)
Lemma csr_array_ok k m : matrix_ok k m ->
  csr_array (m_data m) (m_indices m) (m_indptr m) (m_rows m) (m_cols m) = Ok m.
Proof.
  intros (R & C & LP & H0 & L & LD & _). unfold csr_array, zlen.
  rewrite LP, H0, L, LD, !Z.eqb_refl. cbn [negb]. rewrite Z.ltb_irrefl.
  rewrite !ztake_short by (unfold zlen; rewrite ?LD; lia). now destruct m.
Qed.

(** the header, read field by field *)
Lemma head_ulong v r : 0 <= v < 2 ^ 32 -> read_unsigned_long (10 :: word v ++ r) = Ok (v, r).
Proof. intros H. now apply (read_L_ok 10 0). Qed.
Lemma head_int v r : 0 <= v < 2 ^ 32 -> read_int (5 :: word v ++ r) = Ok (v, r).
Proof. intros H. now apply (read_L_ok 5 0). Qed.

Definition decode_arrays (h : header) (m : csrz) (s : bytes) : result csrz :=
  outer <- read_large_blob s ;;
  inner <- read_large_blob (snd outer) ;;
  data <- read_large_blob (snd inner) ;;
  k <- dtype_uint (Z.of_nat (h_index h)) ;;
  outer' <- frombuffer (negb (h_endian h =? 0)) k (fst outer) ;;
  k <- dtype_uint (Z.of_nat (h_index h)) ;;
  inner' <- frombuffer (negb (h_endian h =? 0)) k (fst inner) ;;
  k <- dtype_float (Z.of_nat (h_scalar h)) ;;
  data' <- frombuffer (negb (h_endian h =? 0)) k (fst data) ;;
  csr_array data' inner' outer' (m_rows m) (m_cols m).

Lemma decode_head h m s : header_ok h -> 0 <= m_rows m < 2 ^ 32 -> 0 <= m_cols m < 2 ^ 32 ->
  mir_cached_matrix_to_array (wires (matrix_head h m) ++ s) = decode_arrays h m s.
Proof.
  intros (H1 & H2 & H3 & H4 & H5) R C. unfold mir_cached_matrix_to_array.
  unfold matrix_head, wires. cbn [map flat_map fst snd repeat app wire]. rewrite <- !app_assoc. cbn [app].
  unfold word at 1 2 3 4 5 6 7. cbn [app].
  change (10 :: m_rows m / 2 ^ 24 :: _ :: _ :: _ :: ?r) with (10 :: word (m_rows m) ++ r).
  rewrite head_ulong by assumption. cbn [bind fst snd].
  change (10 :: m_cols m / 2 ^ 24 :: _ :: _ :: _ :: ?r) with (10 :: word (m_cols m) ++ r).
  rewrite head_ulong by assumption. cbn [bind fst snd].
  change (10 :: h_nnz h / 2 ^ 24 :: _ :: _ :: _ :: ?r) with (10 :: word (h_nnz h) ++ r).
  rewrite head_ulong by assumption. cbn [bind fst snd].
  change (5 :: h_endian h / 2 ^ 24 :: _ :: _ :: _ :: ?r) with (5 :: word (h_endian h) ++ r).
  rewrite head_int by assumption. cbn [bind fst snd].
  change (10 :: Z.of_nat (h_index h) / 2 ^ 24 :: _ :: _ :: _ :: ?r) with (10 :: word (Z.of_nat (h_index h)) ++ r).
  rewrite head_ulong by lia. cbn [bind fst snd].
  change (10 :: Z.of_nat (h_scalar h) / 2 ^ 24 :: _ :: _ :: _ :: ?r) with (10 :: word (Z.of_nat (h_scalar h)) ++ r).
  rewrite head_ulong by lia. cbn [bind fst snd].
  change (10 :: h_size h / 2 ^ 24 :: _ :: _ :: _ :: ?r) with (10 :: word (h_size h) ++ r).
  rewrite head_ulong by assumption. cbn [bind fst snd]. reflexivity.
Qed.

Lemma indptr_last k m : matrix_ok k m -> 0 <= zlen (m_indices m) < 2 ^ 32.
Proof.
  intros (R & C & LP & H0 & L & LD & FP & _). unfold zlen. rewrite <- L.
  rewrite Forall_forall in FP. apply FP.
  destruct (m_indptr m) as [|x l] eqn:E; [cbn in LP; lia|].
  rewrite (app_removelast_last 0 (l := x :: l)) at 2 by discriminate. apply in_or_app. right. now left.
Qed.
Lemma arrays_short h m : matrix_ok (h_scalar h) m -> Z.of_nat (h_index h) < 2 ^ 31 -> Z.of_nat (h_scalar h) < 2 ^ 31 ->
  zlen (array_bytes h (h_index h) (m_indptr m)) < 2 ^ 63 /\
  zlen (array_bytes h (h_index h) (m_indices m)) < 2 ^ 63 /\
  zlen (array_bytes h (h_scalar h) (m_data m)) < 2 ^ 63.
Proof.
  intros M I S. pose proof (indptr_last _ _ M) as B. destruct M as (R & C & LP & H0 & L & LD & _).
  unfold array_bytes. rewrite !flat_length. unfold zlen in *. rewrite LD, LP.
  change (2 ^ 63) with (2 ^ 31 * 2 ^ 32). repeat split; apply Z.le_lt_trans with ((2 ^ 31 - 1) * 2 ^ 32); try lia;
    apply Z.mul_le_mono_nonneg; lia.
Qed.

Lemma decode_file h m rest : header_ok h -> matrix_ok (h_scalar h) m ->
  h_index h = 4%nat -> h_scalar h = 4%nat \/ h_scalar h = 8%nat ->
  mir_cached_matrix_to_array (matrix_file h m ++ rest) = Ok m.
Proof.
  intros H M I S. destruct (arrays_short h m M) as (A1 & A2 & A3); [lia|lia|].
  pose proof M as (R & C & LP & H0 & L & LD & F1 & F2 & F3).
  unfold matrix_file. rewrite <- !app_assoc. rewrite decode_head by assumption.
  unfold decode_arrays. rewrite !read_blob_ok by assumption. cbn [bind fst snd].
  rewrite !read_blob_ok by assumption. cbn [bind fst snd].
  rewrite !read_blob_ok by assumption. cbn [bind fst snd].
  unfold dtype_uint. rewrite I. change (Z.of_nat 4 =? 4) with true. cbn [bind].
  unfold array_bytes. change (frombuffer ?e 4) with (frombuffer e (Z.of_nat 4)). rewrite !frombuffer_ok by (assumption || lia). cbn [bind].
  rewrite ?frombuffer_ok by (assumption || lia). cbn [bind].
  replace (dtype_float (Z.of_nat (h_scalar h))) with (@Ok Z (Z.of_nat (h_scalar h))) by (destruct S as [->| ->]; reflexivity).
  cbn [bind]. rewrite frombuffer_ok by (assumption || lia). cbn [bind].
  now apply (csr_array_ok (h_scalar h)).
Qed.

Lemma decode_sizes h m rest : header_ok h -> matrix_ok (h_scalar h) m ->
  Z.of_nat (h_index h) < 2 ^ 31 -> Z.of_nat (h_scalar h) < 2 ^ 31 ->
  h_index h <> 4%nat \/ (h_scalar h <> 4%nat /\ h_scalar h <> 8%nat) ->
  mir_cached_matrix_to_array (matrix_file h m ++ rest) = Raise KeyError.
Proof.
  intros H M I S B. destruct (arrays_short h m M) as (A1 & A2 & A3); [lia|lia|].
  pose proof M as (R & C & LP & H0 & L & LD & F1 & F2 & F3).
  unfold matrix_file. rewrite <- !app_assoc. rewrite decode_head by assumption.
  unfold decode_arrays. rewrite !read_blob_ok by assumption. cbn [bind fst snd].
  rewrite !read_blob_ok by assumption. cbn [bind fst snd].
  rewrite !read_blob_ok by assumption. cbn [bind fst snd].
  unfold dtype_uint. destruct (Z.of_nat (h_index h) =? 4) eqn:E; [|reflexivity]. cbn [bind].
  assert (I4 : h_index h = 4%nat) by lia. rewrite I4.
  unfold array_bytes. change (frombuffer ?e 4) with (frombuffer e (Z.of_nat 4)). rewrite !frombuffer_ok by (assumption || lia). cbn [bind].
  rewrite ?frombuffer_ok by (assumption || lia). cbn [bind].
  unfold dtype_float. now replace (Z.of_nat (h_scalar h) =? 4) with false by lia;
    replace (Z.of_nat (h_scalar h) =? 8) with false by lia.
Qed.

Lemma noticed_raise {A} (r : result A) : noticed r -> exists e, r = Raise e.
Proof. intros [->| ->]; eauto. Qed.

(** cut inside the numbers *)
Lemma head_cut h m p : header_ok h -> 0 <= m_rows m < 2 ^ 32 -> 0 <= m_cols m < 2 ^ 32 ->
  strict_prefix p (wires (matrix_head h m)) -> noticed (mir_cached_matrix_to_array p).
Proof.
  intros (H1 & H2 & H3 & H4 & H5) R C P.
  unfold matrix_head, wires in P. cbn [map flat_map fst snd repeat app wire] in P. rewrite app_nil_r in P.
  assert (G : forall v, 0 <= v < 2 ^ 32 -> forall w p, strict_prefix p (10 :: word v ++ w) ->
            noticed (read_unsigned_long p) \/ exists p', strict_prefix p' w /\ read_unsigned_long p = Ok (v, p')).
  { intros v V w q Q. apply (prefix_cases q (10 :: word v) w) in Q as [Q|(q' & -> & Q)].
    - left. now apply (read_L_cut 10 0 v).
    - right. exists q'. split; [exact Q|]. now apply (read_L_ok 10 0). }
  assert (G5 : forall v, 0 <= v < 2 ^ 32 -> forall w p, strict_prefix p (5 :: word v ++ w) ->
            noticed (read_int p) \/ exists p', strict_prefix p' w /\ read_int p = Ok (v, p')).
  { intros v V w q Q. apply (prefix_cases q (5 :: word v) w) in Q as [Q|(q' & -> & Q)].
    - left. now apply (read_L_cut 5 0 v).
    - right. exists q'. split; [exact Q|]. now apply (read_L_ok 5 0). }
  unfold mir_cached_matrix_to_array.
  apply G in P as [N|(p1 & P & E)]; [now apply noticed_bind| |assumption]. rewrite E. cbn [bind fst snd].
  apply G in P as [N|(p2 & P & E2)]; [now apply noticed_bind| |assumption]. rewrite E2. cbn [bind fst snd].
  apply G in P as [N|(p3 & P & E3)]; [now apply noticed_bind| |assumption]. rewrite E3. cbn [bind fst snd].
  apply G5 in P as [N|(p4 & P & E4)]; [now apply noticed_bind| |assumption]. rewrite E4. cbn [bind fst snd].
  apply G in P as [N|(p5 & P & E5)]; [now apply noticed_bind| |lia]. rewrite E5. cbn [bind fst snd].
  apply G in P as [N|(p6 & P & E6)]; [now apply noticed_bind| |lia]. rewrite E6. cbn [bind fst snd].
  rewrite <- (app_nil_r (word (h_size h))) in P.
  apply G in P as [N|(p7 & P & E7)]; [now apply noticed_bind| |assumption].
  exfalso. now apply prefix_nil in P.
Qed.

Lemma decode_cut h m p : header_ok h -> matrix_ok (h_scalar h) m ->
  h_index h = 4%nat -> h_scalar h = 4%nat \/ h_scalar h = 8%nat ->
  strict_prefix p (matrix_file h m) -> exists e, mir_cached_matrix_to_array p = Raise e.
Proof.
  intros H M I S P. destruct (arrays_short h m M) as (A1 & A2 & A3); [lia|lia|].
  pose proof M as (R & C & LP & H0 & L & LD & F1 & F2 & F3).
  unfold matrix_file in P.
  apply prefix_cases in P as [P|(p1 & -> & P)].
  { apply noticed_raise. now apply (head_cut h m). }
  rewrite decode_head by assumption. unfold decode_arrays.
  apply prefix_cases in P as [P|(p2 & -> & P)].
  { destruct (read_blob_cut _ _ A1 P) as [N|(b & B & E)].
    - apply noticed_raise. now apply noticed_bind.
    - rewrite E. cbn [bind fst snd]. now exists TypeError. }
  rewrite read_blob_ok by assumption. cbn [bind fst snd].
  apply prefix_cases in P as [P|(p3 & -> & P)].
  { destruct (read_blob_cut _ _ A2 P) as [N|(b & B & E)].
    - apply noticed_raise. now apply noticed_bind.
    - rewrite E. cbn [bind fst snd]. now exists TypeError. }
  rewrite read_blob_ok by assumption. cbn [bind fst snd].
  destruct (read_blob_cut _ _ A3 P) as [N|(b & B & E)].
  { apply noticed_raise. now apply noticed_bind. }
  rewrite E. cbn [bind fst snd].
  unfold dtype_uint. rewrite I. change (Z.of_nat 4 =? 4) with true. cbn [bind].
  unfold array_bytes at 1 2. change (frombuffer ?e 4) with (frombuffer e (Z.of_nat 4)). rewrite !frombuffer_ok by (assumption || lia). cbn [bind].
  rewrite ?frombuffer_ok by (assumption || lia). cbn [bind].
  replace (dtype_float (Z.of_nat (h_scalar h))) with (@Ok Z (Z.of_nat (h_scalar h))) by (destruct S as [->| ->]; reflexivity).
  cbn [bind].
  destruct (frombuffer _ (Z.of_nat (h_scalar h)) b) as [l|e|] eqn:FB; cbn [bind]; [|eauto|].
  - apply frombuffer_length in FB; [|lia]. apply prefix_shorter in B.
    unfold array_bytes in B. rewrite flat_length in B.
    assert (LT : zlen l < zlen (m_data m)).
    { apply Z.mul_lt_mono_pos_r with (Z.of_nat (h_scalar h)); lia. }
    unfold csr_array. rewrite H0.
    replace (zlen (m_indptr m) =? m_rows m + 1) with true by (unfold zlen; lia).
    replace (zlen (m_indices m) =? zlen l) with false by (unfold zlen in *; lia).
    cbn [negb Z.eqb]. eauto.
  - exfalso. unfold frombuffer in FB. now destruct (zlen b mod _ =? 0).
Qed.

(** ** Grid definitions *)
Lemma wires_cons n v l : wires ((n, v) :: l) = repeat 2 n ++ wire v ++ wires l.
Proof. unfold wires. cbn [flat_map fst snd]. now rewrite <- app_assoc. Qed.

Lemma writes_points lats lons : List.length lats = List.length lons ->
  Forall (fun b => 0 <= b < 2 ^ 64) lats -> Forall (fun b => 0 <= b < 2 ^ 64) lons ->
  writes (write_points (map Some lats) (map Some lons)) (wires (points lats lons)).
Proof.
  revert lons. induction lats as [|a lats IH]; intros [|o lons] L FA FO; try discriminate L.
  - intros out. cbn. now rewrite app_nil_r.
  - cbn [map write_points]. unfold points. cbn [combine flat_map fst snd app].
    rewrite !wires_cons. cbn [repeat app].
    apply Forall_inv in FA as A. apply Forall_inv in FO as O.
    apply writes_seq; [now apply writes_double|]. apply writes_seq; [now apply writes_double|].
    apply IH; [now injection L|now apply Forall_inv_tail in FA|now apply Forall_inv_tail in FO].
Qed.
Lemma griddef_content lats lons : is_grid lats lons ->
  griddef_writer (map Some lats) (map Some lons) [] = (Ok tt, griddef_file lats lons).
Proof.
  intros (N & L & B & FA & FO). unfold griddef_writer, griddef_file. rewrite map_length.
  cbn [app]. rewrite !wires_cons. cbn [repeat app].
  rewrite <- (app_nil_l (wire (VULong 1) ++ _)).
  apply (writes_seq _ _ (wire (VULong 1)) (wire (VULong (Z.of_nat (List.length lats))) ++ wires (points lats lons))).
  - apply (writes_value (VULong 1)). left. cbn. lia.
  - apply writes_seq.
    + apply (writes_value (VULong _)). left. cbn [carried]. lia.
    + now apply writes_points.
Qed.
