(** Lemmas about regridding. *)
From Coq Require Import Qcanon.
From Verif Require Import PyBase ListLemmas Regrid RegridSpec.
Set Default Proof Using "Type".
Local Open Scope nat_scope.
Local Open Scope list_scope.

(** ** Shapes *)
Lemma seq_split n k m : seq (k * m) (n * m) = flat_map (fun i => seq (i * m) m) (seq k n).
Proof.
  revert k. induction n as [|n IH]; intros k; [reflexivity|]. cbn [seq flat_map Nat.mul]. rewrite seq_app. f_equal.
  rewrite <- IH. f_equal; lia.
Qed.
Lemma flat_map_map {A B C} (f : A -> list B) (g : B -> C) l : map g (flat_map f l) = flat_map (fun a => map g (f a)) l.
Proof. induction l as [|a l IH]; [reflexivity|]. cbn. rewrite map_app, IH. reflexivity. Qed.
Lemma seq_shift' k n : map (fun x => k + x) (seq 0 n) = seq k n.
Proof.
  revert k. induction n as [|n IH]; intros k; [reflexivity|]. cbn [seq map]. rewrite Nat.add_0_r. f_equal.
  rewrite <- (IH (S k)), <- seq_shift, map_map. apply map_ext. intros; lia.
Qed.
Lemma offsets sh : map (offset sh) (indices sh) = seq 0 (prod sh).
Proof.
  induction sh as [|n sh IH]; [reflexivity|]. cbn [indices prod]. rewrite flat_map_map. change 0 with (0 * prod sh) at 2. rewrite (seq_split n 0 (prod sh)).
  apply flat_map_ext. intros i. rewrite map_map. cbn [offset].
  rewrite <- seq_shift', <- IH, map_map. reflexivity.
Qed.
Lemma indices_length sh : List.length (indices sh) = prod sh.
Proof. rewrite <- (map_length (offset sh)), offsets, seq_length. reflexivity. Qed.
Lemma indices_valid sh idx : In idx (indices sh) <-> valid sh idx.
Proof.
  revert idx. induction sh as [|n sh IH]; intros idx; cbn [indices].
  - split; [intros [<-|[]]; constructor|]. intros H. inversion H. left. reflexivity.
  - rewrite in_flat_map. split.
    + intros (i & I & J). apply in_map_iff in J. destruct J as (r & <- & J). apply in_seq in I. constructor; [lia|]. apply IH. exact J.
    + intros H. inversion H as [|? i ? r L V]; subst. exists i. split; [apply in_seq; lia|]. apply in_map, IH. exact V.
Qed.
Lemma offset_lt sh idx : valid sh idx -> offset sh idx < prod sh.
Proof.
  intros V. apply indices_valid in V. apply (in_map (offset sh)) in V. rewrite offsets in V. apply in_seq in V. lia.
Qed.
Lemma nth_indices sh idx d : valid sh idx -> nth (offset sh idx) (indices sh) d = idx.
Proof.
  revert idx. induction sh as [|n sh IH]; intros idx V; inversion V as [|? i ? r L W]; subst; [reflexivity|]. cbn [indices offset].
  specialize (IH _ W). pose proof (offset_lt _ _ W) as LT. clear V.
  assert (G : forall k m, i < m -> nth (i * prod sh + offset sh r) (flat_map (fun i => map (cons i) (indices sh)) (seq k m)) d = (k + i) :: r).
  { induction i as [|i IHi]; intros k m Hm.
    - destruct m as [|m]; [lia|]. cbn [seq flat_map]. cbn [Nat.mul Nat.add]. rewrite app_nth1 by (rewrite map_length, indices_length; lia).
      rewrite (nth_indep _ d (k :: d)) by (rewrite map_length, indices_length; lia). rewrite map_nth.
      rewrite Nat.add_0_r. f_equal. rewrite <- IH at 2. apply nth_indep. rewrite indices_length. lia.
    - destruct m as [|m]; [lia|]. cbn [seq flat_map]. rewrite app_nth2 by (rewrite map_length, indices_length; cbn [Nat.mul]; lia).
      rewrite map_length, indices_length. replace (S i * prod sh + offset sh r - prod sh) with (i * prod sh + offset sh r) by (cbn [Nat.mul]; lia).
      rewrite IHi by lia. f_equal. lia. }
  rewrite (G 0 n L). reflexivity.
Qed.
Lemma offset_inj sh i j : valid sh i -> valid sh j -> offset sh i = offset sh j -> i = j.
Proof. intros Vi Vj E. rewrite <- (nth_indices sh i [] Vi), <- (nth_indices sh j [] Vj), E. reflexivity. Qed.
Lemma offset_onto sh k : k < prod sh -> exists idx, valid sh idx /\ offset sh idx = k.
Proof.
  intros L. assert (I : In k (seq 0 (prod sh))) by (apply in_seq; lia). rewrite <- offsets in I. apply in_map_iff in I.
  destruct I as (idx & E & I). exists idx. split; [apply indices_valid; exact I|exact E].
Qed.

Lemma nth_seq_id {A} (l : list A) d : map (fun k => nth k l d) (seq 0 (List.length l)) = l.
Proof.
  induction l as [|a l IH]; [reflexivity|]. cbn [List.length seq map nth]. f_equal. rewrite <- seq_shift, map_map. exact IH.
Qed.
Lemma fold_left_map {A B C} (f : C -> B -> C) (g : A -> B) l c : fold_left f (map g l) c = fold_left (fun c a => f c (g a)) l c.
Proof. revert c. induction l as [|a l IH]; intros c; [reflexivity|]. cbn. apply IH. Qed.
Section Arr.
  Context {A : Type}.
  Variables (zero : A) (add mul : A -> A -> A).
  Lemma flatten_length (a : array A) : List.length (flatten a) = prod (shape a).
  Proof using. clear. unfold flatten. rewrite map_length, indices_length. reflexivity. Qed.
  Lemma flatten_of_list (l : list A) sh : List.length l = prod sh -> flatten (of_list zero l sh) = l.
  Proof.
    intros E. unfold flatten, of_list. cbn [shape item]. rewrite <- (map_map (offset sh) (fun k => nth k l zero)), offsets, <- E. apply nth_seq_id.
  Qed.
  Lemma nth_flatten (a : array A) idx d : valid (shape a) idx -> nth (offset (shape a) idx) (flatten a) d = item a idx.
  Proof using.
    clear. intros V. pose proof (offset_lt _ _ V). unfold flatten. rewrite (nth_indep _ d (item a [])) by (rewrite map_length, indices_length; lia).
    rewrite map_nth, nth_indices by exact V. reflexivity.
  Qed.
  Lemma flatten_column (a : array A) : flatten (reshape_column zero a) = flatten a.
  Proof. clear add mul. unfold reshape_column. apply flatten_of_list. rewrite flatten_length. cbn [prod]. lia. Qed.
  Lemma same_points_flatten (a b : array A) : same_points a b <-> flatten a = flatten b.
  Proof using.
    clear. split.
    - intros [P E]. apply (nth_ext _ _ (item a []) (item a [])); [rewrite !flatten_length; exact P|].
      intros k L. rewrite flatten_length in L. destruct (offset_onto (shape a) k L) as (i & Vi & <-).
      pose proof (offset_lt _ _ Vi) as L'. rewrite P in L'. destruct (offset_onto (shape b) _ L') as (j & Vj & Ej).
      rewrite nth_flatten by exact Vi. rewrite <- Ej, nth_flatten by exact Vj. apply E; auto.
    - intros E. split; [rewrite <- !flatten_length, E; reflexivity|]. intros i j Vi Vj O.
      rewrite <- (nth_flatten a i (item a []) Vi), <- (nth_flatten b j (item a []) Vj), E, O. reflexivity.
  Qed.

  (** ** Rows *)
  Lemma combine_slice (c : list nat) (d : list A) : List.length c = List.length d -> forall lo n, lo + n <= List.length d ->
    firstn n (skipn lo (combine c d)) = map (fun jj => (nth jj c 0, nth jj d zero)) (seq lo n).
  Proof.
    clear add mul. intros E lo n. revert c d E n. induction lo as [|lo IH]; intros c d E n L.
    - cbn [skipn]. revert c d E L. induction n as [|n IHn]; intros c d E L; [reflexivity|].
      destruct c as [|c0 c], d as [|d0 d]; cbn [List.length] in *; try lia. cbn [combine firstn seq map nth]. f_equal.
      rewrite IHn by lia. rewrite <- seq_shift, map_map. reflexivity.
    - destruct c as [|c0 c], d as [|d0 d]; cbn [List.length] in *; try lia. cbn [combine skipn]. rewrite IH by lia.
      rewrite <- seq_shift, map_map. reflexivity.
  Qed.
  Lemma indptr_le (z : csr A) : proper_csr z -> forall i, i <= n_rows z -> nth i (indptr z) 0 <= List.length (data z).
  Proof using.
    clear. intros P i L. rewrite <- (p_last z P). assert (G : forall k, i + k <= n_rows z -> nth i (indptr z) 0 <= nth (i + k) (indptr z) 0).
    { induction k as [|k IH]; intros H; [rewrite Nat.add_0_r; lia|]. etransitivity; [apply IH; lia|]. replace (i + S k) with (S (i + k)) by lia. apply (p_mono z P). lia. }
    specialize (G (n_rows z - i)). replace (i + (n_rows z - i)) with (n_rows z) in G by lia. apply G. lia.
  Qed.
  Lemma row_seq (z : csr A) i : proper_csr z -> i < n_rows z ->
    row z i = map (fun jj => (nth jj (col z) 0, nth jj (data z) zero)) (seq (nth i (indptr z) 0) (nth (S i) (indptr z) 0 - nth i (indptr z) 0)).
  Proof.
    clear add mul. intros P L. unfold row. apply combine_slice; [exact (p_data z P)|]. pose proof (p_mono z P i L). pose proof (indptr_le z P (S i) L). lia.
  Qed.
  Lemma row_sum_row (z : csr A) x i : proper_csr z -> i < n_rows z ->
    row_sum zero add mul z x i = fold_left (fun s p => add s (mul (snd p) (nth (fst p) x zero))) (row z i) zero.
  Proof.
    intros P L. rewrite row_seq by assumption. unfold row_sum. rewrite fold_left_map. reflexivity.
  Qed.
End Arr.

Section Regrid.
  Context {A grid : Type}.
  Variables (zero : A) (add mul : A -> A -> A).
  Notation regrid := (@regrid A zero add mul grid).
  Lemma matvec_length z x : List.length (matvec zero add mul z x) = n_rows z.
  Proof. unfold matvec. rewrite map_length, seq_length. reflexivity. Qed.
  (** All outcomes of [regrid] once weights are found. *)
  Lemma regrid_cases z sh values g :
    regrid (Ok (Some (z, sh))) values g =
    if (prod (shape values) =? n_cols z) && (n_rows z =? prod sh)
    then Ok (of_list zero (matvec zero add mul z (flatten values)) sh, g) else Raise ValueError.
  Proof.
    unfold Regrid.regrid. cbn [bind]. unfold matmul. cbn [shape reshape_column of_list nth].
    destruct (prod (shape values) =? n_cols z) eqn:E; [|reflexivity]. cbn [bind andb]. rewrite flatten_column.
    unfold reshape. cbn [shape of_list prod]. replace (n_rows z * (1 * 1)) with (n_rows z) by lia.
    destruct (n_rows z =? prod sh) eqn:E2; [|reflexivity]. cbn [bind]. do 2 f_equal.
    f_equal. apply (flatten_of_list zero). rewrite matvec_length. cbn [prod]. lia.
  Qed.
  Lemma nth_matvec z x i : i < n_rows z -> nth i (matvec zero add mul z x) zero = row_sum zero add mul z x i.
  Proof.
    intros L. unfold matvec. rewrite (nth_indep _ zero (row_sum zero add mul z x 0)) by (rewrite map_length, seq_length; lia).
    rewrite map_nth, seq_nth by lia. reflexivity.
  Qed.
End Regrid.

(** ** Exact arithmetic *)
Local Open Scope Qc_scope.
Lemma qsum_nil : qsum [] = 0. Proof. reflexivity. Qed.
Lemma qsum_cons x l : qsum (x :: l) = x + qsum l. Proof. reflexivity. Qed.
Lemma qsum_app a b : qsum (a ++ b) = qsum a + qsum b.
Proof. induction a as [|x a IH]; cbn [app map fold_left fst snd]; [rewrite ?qsum_nil; ring|rewrite ?qsum_cons]. rewrite IH. ring. Qed.
Lemma fold_qsum (l : list (nat * Qc)) x s :
  fold_left (fun s p => s + snd p * nth (fst p) x 0) l s = s + qsum (map (fun p => snd p * nth (fst p) x 0) l).
Proof. revert s. induction l as [|p l IH]; intros s; cbn [app map fold_left fst snd]; [rewrite ?qsum_nil; ring|rewrite ?qsum_cons]. rewrite IH. ring. Qed.
Lemma qsum_plus {B} (f g : B -> Qc) l : qsum (map (fun b => f b + g b) l) = qsum (map f l) + qsum (map g l).
Proof. induction l as [|b l IH]; cbn [app map fold_left fst snd]; [rewrite ?qsum_nil; ring|rewrite ?qsum_cons]. rewrite IH. ring. Qed.
Lemma qsum_scale {B} c (f : B -> Qc) l : qsum (map (fun b => c * f b) l) = c * qsum (map f l).
Proof. induction l as [|b l IH]; cbn [app map fold_left fst snd]; [rewrite ?qsum_nil; ring|rewrite ?qsum_cons]. rewrite IH. ring. Qed.
Lemma qsum_zero {B} (f : B -> Qc) l : (forall b, In b l -> f b = 0) -> qsum (map f l) = 0.
Proof. intros H. induction l as [|b l IH]; [reflexivity|]. cbn [map]. rewrite qsum_cons. rewrite H by (left; reflexivity). rewrite IH by (intros; apply H; right; assumption). ring. Qed.
Lemma qsum_pick n c (x : nat -> Qc) w : (c < n)%nat -> qsum (map (fun j => (if Nat.eqb c j then w else 0) * x j) (seq 0 n)) = w * x c.
Proof.
  intros L. replace n with (c + S (n - S c))%nat by lia. rewrite seq_app, map_app, qsum_app. cbn [seq map]. rewrite qsum_cons.
  rewrite Nat.add_0_l, Nat.eqb_refl. rewrite !qsum_zero; [ring| |]; intros j J; apply in_seq in J; destruct (Nat.eqb_spec c j); try lia; ring.
Qed.
Lemma group n (l : list (nat * Qc)) x : Forall (fun p => (fst p < n)%nat) l ->
  qsum (map (fun p => snd p * x (fst p)) l) =
  qsum (map (fun j => qsum (map snd (filter (fun p => Nat.eqb (fst p) j) l)) * x j) (seq 0 n)).
Proof.
  induction l as [|[c w] l IH]; intros F.
  - cbn [map filter]. symmetry. rewrite qsum_nil. apply qsum_zero. intros. ring.
  - inversion F as [|? ? F1 F2]; subst. cbn [fst] in F1. cbn [map fst snd]. rewrite qsum_cons, IH by exact F2.
    rewrite <- (qsum_pick n c x w F1), <- qsum_plus. f_equal. apply map_ext. intros j. cbn [filter fst].
    destruct (Nat.eqb c j); cbn [map snd]; rewrite ?qsum_cons; ring.
Qed.
Lemma firstn_Forall {B} (P : B -> Prop) n l : Forall P l -> Forall P (firstn n l).
Proof. intros F. revert n. induction F as [|b l H F IH]; intros [|n]; cbn; auto. Qed.
Lemma skipn_Forall {B} (P : B -> Prop) n l : Forall P l -> Forall P (skipn n l).
Proof. intros F. revert n. induction F as [|b l H F IH]; intros [|n]; cbn; auto. Qed.
Lemma row_cols {B} (z : csr B) i : proper_csr z -> Forall (fun p => (fst p < n_cols z)%nat) (row z i).
Proof.
  intros P. unfold row. apply firstn_Forall, skipn_Forall. pose proof (p_cols z P) as F. rewrite Forall_forall in *. intros [c d] I.
  apply in_combine_l in I. exact (F _ I).
Qed.
Lemma row_sum_weighted (z : csr Qc) (values : array Qc) i : proper_csr z -> (i < n_rows z)%nat -> prod (shape values) = n_cols z ->
  row_sum 0 Qcplus Qcmult z (flatten values) i = weighted z i values.
Proof.
  intros P L E. rewrite row_sum_row by assumption. rewrite fold_qsum, Qcplus_0_l.
  rewrite (group (n_cols z) _ (fun c => nth c (flatten values) 0)) by (apply row_cols; exact P).
  unfold weighted. f_equal. rewrite <- E, <- offsets, map_map. apply map_ext_in. intros idx I. apply indices_valid in I.
  rewrite nth_flatten by exact I. reflexivity.
Qed.
Lemma row_sum_pairs (z : csr Qc) x i : proper_csr z -> (i < n_rows z)%nat ->
  row_sum 0 Qcplus Qcmult z x i = qsum (map (fun p => snd p * nth (fst p) x 0) (row z i)).
Proof. intros P L. rewrite row_sum_row by assumption. rewrite fold_qsum. ring. Qed.

Lemma qsum_bounds (l : list (nat * Qc)) (x : nat -> Qc) lo hi : Forall (fun p => 0 <= snd p /\ lo <= x (fst p) /\ x (fst p) <= hi) l ->
  qsum (map snd l) * lo <= qsum (map (fun p => snd p * x (fst p)) l) /\
  qsum (map (fun p => snd p * x (fst p)) l) <= qsum (map snd l) * hi.
Proof.
  induction 1 as [|[c w] l (W & A & B) F [IH1 IH2]]; cbn [map fst snd] in *.
  - rewrite qsum_nil, !Qcmult_0_l. split; apply Qcle_refl.
  - rewrite !qsum_cons.
    rewrite !Qcmult_plus_distr_l. split; (apply Qcplus_le_compat; [|assumption]).
    + rewrite (Qcmult_comm w lo), (Qcmult_comm w (x c)). apply Qcmult_le_compat_r; assumption.
    + rewrite (Qcmult_comm w hi), (Qcmult_comm w (x c)). apply Qcmult_le_compat_r; assumption.
Qed.
