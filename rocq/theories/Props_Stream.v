(** Properties of the stream and matrix codecs: C55, C56, C57. *)
From Verif Require Import PyBase Stream StreamSpec StreamProofs Mir MirSpec MirProofs.
Local Open Scope list_scope.
Local Open Scope Z_scope.

(** ** C55: values written are read back *)

(** Any sequence of values that both sides can carry, each after any number of ends
    of objects, goes to the wire as the format says and is read back, and the reader
    stops exactly where the writer did. *)
Theorem C55_roundtrip_partial (l : list (nat * value)) (rest : bytes) :
  Forall (fun nv => carried (snd nv)) l ->
  exists out,
    write_values l [] = (Ok tt, out) /\
    out = wires l /\
    read_values (map (fun nv => kind_of (snd nv)) l) (out ++ rest) = Ok (map snd l, rest).
Proof.
  intros H. exists (wires l). split; [|split; [reflexivity|now apply read_values_ok]].
  rewrite <- (app_nil_l (wires l)). apply writes_values.
  eapply Forall_impl; [|exact H]. intros nv C. now left.
Qed.

Definition comes_back (v : value) : Prop :=
  exists w, write_value v [] = (Ok tt, w) /\ read_value (kind_of v) w = Ok (v, []).

Lemma pack_L_bad n : ~ 0 <= n < 2 ^ 32 -> pack_L n = Raise StructError.
Proof. intros H. unfold pack_L. destruct ((0 <=? n) && (n <? 2 ^ 32)) eqn:E; [lia|reflexivity]. Qed.

(** Which values of each type come back: not doubles, not long longs, no negative
    number, no 64-bit number that needs more than 32 bits. *)
Theorem C55_exactly_partial (v : value) : of_type v -> (comes_back v <-> carried v).
Proof.
  intros T. split.
  - intros (w & W & R). destruct v; cbn [of_type carried] in *; try assumption.
    + destruct (Z_lt_dec n 0) as [N|N]; [|lia]. exfalso. revert W. unfold write_value, write_int, wseq.
      cbn. unfold write_L. now rewrite pack_L_bad by lia.
    + destruct (Z_lt_dec n 0) as [N|N]; [|lia]. exfalso. revert W. unfold write_value, write_long, wseq.
      cbn. unfold write_L. now rewrite pack_L_bad by lia.
    + revert R. cbn [kind_of read_value]. unfold read_long_long.
      destruct (read_tag _ w); discriminate.
    + destruct (Z_lt_dec n (2 ^ 32)) as [N|N]; [lia|]. exfalso. revert W.
      unfold write_value, write_unsigned_long_long, wseq. cbn. unfold write_L. now rewrite pack_L_bad by lia.
    + revert R. cbn [kind_of read_value]. unfold read_double.
      destruct (read_tag _ w); discriminate.
  - intros C. exists (wire v). split.
    + apply (writes_value v). now left.
    + pose proof (read_value_ok 0 v [] C) as R. now rewrite app_nil_r in R.
Qed.

(** Objects: the two strings of an object go to the wire in their order between the marks of
    its start and end, and a stream that has both [read] and [recv] gives the first as the
    class of the object and the second as the next string; then comes what follows the object. *)
Theorem C55_objects_partial (name ref out rest : bytes) :
  Z.of_nat (List.length name) < 2 ^ 32 -> Z.of_nat (List.length ref) < 2 ^ 32 ->
  write_object name ref out = (Ok tt, out ++ [1] ++ wire (VString name) ++ wire (VString ref) ++ [2]) /\
  (exists mid, read_object true ([1] ++ wire (VString name) ++ wire (VString ref) ++ [2] ++ rest) = Ok (name, mid) /\
     exists last, read_string mid = Ok (ref, last) /\ last = [2] ++ rest) /\
  (forall t r, t <> 2 -> read_tag t ([2] ++ t :: r) = Ok r).
Proof.
  intros N R.
  assert (WN : writes (write_string name) (wire (VString name))) by (apply (writes_value (VString name)); left; exact N).
  assert (WR : writes (write_string ref) (wire (VString ref))) by (apply (writes_value (VString ref)); left; exact R).
  split; [|split].
  - unfold write_object, start_object, end_object, write_tag. unfold wseq at 1.
    change (write_ [TAG_START_OBJ] (Some 1) out) with (Ok tt, out ++ [1]). cbv iota beta. unfold wseq at 1. rewrite WN. unfold wseq. rewrite WR.
    unfold write_. cbn [zlen]. change (zlen [TAG_END_OBJ]) with 1. cbn [Z.eqb orb Pos.eqb]. rewrite <- !app_assoc. reflexivity.
  - exists (wire (VString ref) ++ [2] ++ rest). split.
    + unfold read_object, next_object. cbn [negb app bind]. change (1 <? 128) with true. cbv iota. change (1 =? TAG_START_OBJ) with true. cbv iota. cbn [bind].
      pose proof (read_value_ok 0 (VString name) (wire (VString ref) ++ [2] ++ rest) N) as Q. cbn [repeat app kind_of read_value] in Q.
      destruct (read_string (wire (VString name) ++ wire (VString ref) ++ 2 :: rest)) as [[a b]|x|] eqn:E; cbn [app] in Q; unfold bytes in *; rewrite ?E in Q; cbn in Q; try discriminate Q.
      injection Q as Q1 Q2. subst. reflexivity.
    + exists ([2] ++ rest). split; [|reflexivity].
      pose proof (read_value_ok 0 (VString ref) ([2] ++ rest) R) as Q. cbn [repeat app kind_of read_value] in Q.
      destruct (read_string (wire (VString ref) ++ 2 :: rest)) as [[a b]|x|] eqn:E; cbn [app] in Q; unfold bytes in *; rewrite ?E in Q; cbn in Q; try discriminate Q.
      injection Q as Q1 Q2. subst. exact E.
  - intros t r T. exact (read_tag_ok 1 t r T).
Qed.
(** ... but no file has [recv]: objects are written to files and never read from them, and
    where [recv] exists the end of the data is an error instead of "no object". *)
Theorem C55_objects_refuted (s : bytes) : read_object false s = Raise AttributeError /\ read_object true [] = Raise StructError.
Proof. split; reflexivity. Qed.
(** A byte that is not the mark of an object: RuntimeError, but IndexError for 128 to 235
    (a negative number that is no index of the table of names). *)
Theorem C55_marks_partial (t : Z) (r : bytes) : 0 <= t < 256 -> t <> 1 -> ~ (128 <= t < 236) -> read_object true (t :: r) = Raise RuntimeError.
Proof.
  intros T N M. unfold read_object, next_object. cbn [negb]. change TAG_START_OBJ with 1. change N_TAG_NAME with 20. change (- (20)) with (-20).
  destruct (Z.ltb_spec t 128).
  - destruct (Z.eqb_spec t 1); [contradiction|]. destruct (Z.ltb_spec t 20); [|reflexivity]. destruct (Z.leb_spec (-20) t); [reflexivity|lia].
  - destruct (Z.eqb_spec (t - 256) 1); [lia|]. destruct (Z.ltb_spec (t - 256) 20); [|reflexivity]. destruct (Z.leb_spec (-20) (t - 256)); [reflexivity|lia].
Qed.
Theorem C55_marks_refuted (t : Z) (r : bytes) : 128 <= t < 236 -> read_object true (t :: r) = Raise IndexError.
Proof.
  intros T. unfold read_object, next_object. cbn [negb]. change TAG_START_OBJ with 1. change N_TAG_NAME with 20. change (- (20)) with (-20).
  destruct (Z.ltb_spec t 128); [lia|]. destruct (Z.eqb_spec (t - 256) 1); [lia|]. destruct (Z.ltb_spec (t - 256) 20); [|lia]. destruct (Z.leb_spec (-20) (t - 256)); [lia|reflexivity].
Qed.
Example C55_objects_met : read_object true (snd (write_object [97; 98] [99] [])) = Ok ([97; 98], [15; 0; 0; 0; 1; 99; 2]).
Proof. vm_compute. reflexivity. Qed.

(** ... and what happens to the others.  A double, or a long long, is written and can
    never be read; a number out of reach is refused after its tag (and for 64-bit ones
    half the value) has gone to the stream, so all that follows is lost. *)
Theorem C55_refuted :
  (forall bits, 0 <= bits < 2 ^ 64 -> exists w,
     write_value (VDouble bits) [] = (Ok tt, w) /\ read_value KDouble w = Raise RuntimeError) /\
  (forall n, 0 <= n < 2 ^ 32 -> exists w,
     write_value (VLongLong n) [] = (Ok tt, w) /\ read_value KLongLong w = Raise RuntimeError) /\
  (forall n out, 2 ^ 32 <= n < 2 ^ 64 ->
     write_value (VULongLong n) out = (Raise StructError, out ++ [12; 0; 0; 0; 0])) /\
  (forall n out, - 2 ^ 31 <= n < 0 -> write_value (VInt n) out = (Raise StructError, out ++ [5])).
Proof.
  split; [|split; [|split]].
  - intros b B. exists (wire (VDouble b)). split.
    + apply (writes_value (VDouble b)). now right.
    + cbn [read_value]. unfold read_double. cbn [wire].
      change (read_tag TAG_DOUBLE (14 :: ?r)) with (read_tag 14 (repeat 2 0 ++ 14 :: r)).
      now rewrite read_tag_ok by discriminate.
  - intros n N. exists (wire (VLongLong n)). split.
    + apply (writes_value (VLongLong n)). now right.
    + cbn [read_value]. unfold read_long_long. cbn [wire].
      change (read_tag TAG_LONG_LONG (11 :: ?r)) with (read_tag 11 (repeat 2 0 ++ 11 :: r)).
      now rewrite read_tag_ok by discriminate.
  - intros n out N. unfold write_value, write_unsigned_long_long, wseq.
    rewrite (writes_tag _ out), (writes_L 0) by lia. unfold write_L. rewrite pack_L_bad by lia.
    now rewrite <- app_assoc.
  - intros n out N. unfold write_value, write_int, wseq.
    rewrite (writes_tag _ out). unfold write_L. now rewrite pack_L_bad by lia.
Qed.

Example C55_hyp_met :
  Forall (fun nv => carried (snd nv))
    [(0%nat, VULong 4294967295); (2%nat, VString [104; 105]); (0%nat, VULongLong 7); (1%nat, VChar [65])]
  /\ of_type (VULongLong (2 ^ 40)) /\ of_type (VInt (-1)).
Proof. repeat constructor; cbn; lia. Qed.

(** ** C56: truncated streams *)

(** A stream of numbers, cut anywhere: reading it raises. *)
Theorem C56_numbers_partial (l : list (nat * value)) (p : bytes) :
  Forall (fun nv => carried (snd nv) /\ number (snd nv)) l ->
  strict_prefix p (wires l) ->
  let r := read_values (map (fun nv => kind_of (snd nv)) l) p in
  r = Raise TypeError \/ r = Raise StructError.
Proof.
  intros F P. cbv zeta.
  destruct (read_values_cut l p) as [N|(l' & n & v & v' & -> & C & _)].
  - eapply Forall_impl; [|exact F]. now intros nv [? _].
  - exact P.
  - exact N.
  - exfalso. rewrite Forall_app in F. destruct F as [_ F]. apply Forall_inv in F as [_ F]. cbn [snd] in F.
    destruct v; cbn in *; contradiction.
Qed.

(** With strings and characters too: the only cut that goes unnoticed is one inside the
    payload of the last value, which is then returned too short. *)
Theorem C56_only_last_partial (l : list (nat * value)) (p : bytes) :
  Forall (fun nv => carried (snd nv)) l ->
  strict_prefix p (wires l) ->
  let r := read_values (map (fun nv => kind_of (snd nv)) l) p in
  r = Raise TypeError \/ r = Raise StructError \/
  exists l' n v v', l = l' ++ [(n, v)] /\ cut v v' /\ r = Ok (map snd l' ++ [v'], []).
Proof.
  intros F P. cbv zeta. destruct (read_values_cut l p F P) as [[N|N]|X]; auto.
Qed.

(** ... and it does: every string can be cut so that the reader does not notice. *)
Theorem C56_refuted (s s' : bytes) : Z.of_nat (List.length s) < 2 ^ 32 -> strict_prefix s' s ->
  exists p, strict_prefix p (wire (VString s)) /\ read_string p = Ok (s', []).
Proof.
  intros L P. exists (15 :: word (Z.of_nat (List.length s)) ++ s'). split.
  - destruct P as (q & Q & ->). exists q. split; [exact Q|]. cbn [wire app]. now rewrite <- app_assoc.
  - unfold read_string.
    change (read_tag TAG_STRING (15 :: ?r)) with (read_tag 15 (repeat 2 0 ++ 15 :: r)).
    rewrite read_tag_ok by discriminate. cbn [bind].
    rewrite read_app by (reflexivity || lia). cbn [bind fst snd].
    unfold unpack_L. rewrite zlen_word. cbn [Z.eqb Pos.eqb bind].
    rewrite unbe_word by lia. apply prefix_shorter in P. unfold zlen in P at 2.
    now rewrite read_short by lia.
Qed.

(** A file of weights, cut anywhere, is never taken for a matrix. *)
Theorem C56_matrix (h : header) (m : csrz) (p : bytes) :
  header_ok h -> matrix_ok (h_scalar h) m ->
  h_index h = 4%nat -> h_scalar h = 4%nat \/ h_scalar h = 8%nat ->
  strict_prefix p (matrix_file h m) ->
  exists e, mir_cached_matrix_to_array p = Raise e.
Proof. apply decode_cut. Qed.

Example C56_hyp_met :
  strict_prefix [2; 10; 0; 0] (wires [(1%nat, VULong 5); (0%nat, VInt 7)]) /\
  strict_prefix [1] [1; 2].
Proof. split; [now exists [0; 5; 5; 0; 0; 0; 7]|now exists [2]]. Qed.

(** ** C57: matrices are decoded *)

(** Little- or big-endian, single or double precision, whatever the number of rows,
    columns and weights; what follows in the file does not matter. *)
Theorem C57_decoded_partial (h : header) (m : csrz) (rest : bytes) :
  header_ok h -> matrix_ok (h_scalar h) m ->
  h_index h = 4%nat -> h_scalar h = 4%nat \/ h_scalar h = 8%nat ->
  mir_cached_matrix_to_array (matrix_file h m ++ rest) = Ok m.
Proof. apply decode_file. Qed.

(** With indices or weights of any other size (8-byte indices, say) no matrix at all is
    decoded. *)
Theorem C57_sizes_refuted (h : header) (m : csrz) (rest : bytes) :
  header_ok h -> matrix_ok (h_scalar h) m ->
  Z.of_nat (h_index h) < 2 ^ 31 -> Z.of_nat (h_scalar h) < 2 ^ 31 ->
  h_index h <> 4%nat \/ (h_scalar h <> 4%nat /\ h_scalar h <> 8%nat) ->
  mir_cached_matrix_to_array (matrix_file h m ++ rest) = Raise KeyError.
Proof. apply decode_sizes. Qed.

Definition ex_matrix := mkCsrz 2 3 [0; 1; 3] [2; 0; 1] [4607182418800017408; 0; 18446744073709551615].
Example C57_hyp_met :
  header_ok (mkHeader 3 1 4 8 8) /\ matrix_ok 8 ex_matrix /\
  header_ok (mkHeader 3 0 8 8 8) /\
  mir_cached_matrix_to_array (matrix_file (mkHeader 3 1 4 8 8) ex_matrix) = Ok ex_matrix /\
  mir_cached_matrix_to_array (matrix_file (mkHeader 3 0 4 8 8) ex_matrix) = Ok ex_matrix.
Proof.
  unfold header_ok, matrix_ok. cbn -[mir_cached_matrix_to_array matrix_file Z.pow].
  split; [lia|]. split.
  - split; [lia|]. split; [lia|]. split; [lia|]. split; [lia|]. split; [lia|]. split; [lia|].
    split; [repeat constructor; lia|]. split; [repeat constructor; lia|].
    change (256 ^ 8) with 18446744073709551616. repeat constructor; lia.
  - split; [lia|]. split; vm_compute; reflexivity.
Qed.

Print Assumptions C55_roundtrip_partial.
Print Assumptions C55_exactly_partial.
Print Assumptions C55_objects_partial.
Print Assumptions C55_objects_refuted.
Print Assumptions C55_marks_partial.
Print Assumptions C55_marks_refuted.
Print Assumptions C55_refuted.
Print Assumptions C56_numbers_partial.
Print Assumptions C56_only_last_partial.
Print Assumptions C56_refuted.
Print Assumptions C56_matrix.
Print Assumptions C57_decoded_partial.
Print Assumptions C57_sizes_refuted.
