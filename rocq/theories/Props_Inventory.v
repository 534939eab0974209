(** C89-C91: making inventories (tools/manage/merge_index.py, tools/subset/subset_remote_db.py). *)
From Verif Require Import PyBase ListLemmas PyStr Float64 GridSpec GridVocab GridProofs Index IndexSpec IndexProofs IndexProofs2 Inventory Props_Index KeyProofs.
Local Open Scope string_scope.
Local Open Scope list_scope.
Local Open Scope Z_scope.

(** ** Lemmas on paths *)
Definition last_char (s : string) : option ascii := last (map Some (chars s)) None.
Lemma last_char_app a b : b <> "" -> last_char (a ++ b)%string = last_char b.
Proof.
  intros N. unfold last_char. rewrite chars_app, map_app. destruct b as [|c b]; [contradiction|].
  induction (map Some (chars a)) as [|x l IH]; [reflexivity|]. cbn [app]. rewrite <- IH. cbn. destruct l; reflexivity.
Qed.
Lemma last_char_join a b : b <> "" -> last_char (join_path a b) = last_char b.
Proof.
  intros N. unfold join_path. destruct (starts_with_slash b); [reflexivity|]. destruct (_ || _); [apply last_char_app; exact N|].
  rewrite last_char_app by (cbn; discriminate). change ("/" ++ b)%string with (String "/" "" ++ b)%string. apply last_char_app. exact N.
Qed.
Lemma npz_nonempty s : (s ++ ".npz")%string <> "".
Proof. destruct s; discriminate. Qed.
Lemma join_nonempty a b : b <> "" -> join_path a b <> "".
Proof.
  intros N. unfold join_path. destruct (starts_with_slash b); [exact N|]. destruct (_ || _); destruct a; cbn; try discriminate; exact N.
Qed.
(** The file of weights of an entry never is the index. *)
Lemma not_index {rest} (e : entry rest) p out : matrix_path e = Ok p -> join_path out p <> join_path out "index.json".
Proof.
  intros H E. apply (f_equal last_char) in E. unfold matrix_path in H. destruct (matrix_dir_name (e_raw e)) as [d|x|]; try discriminate H.
  cbn [bind] in H. injection H as <-. rewrite last_char_join in E by (apply join_nonempty, npz_nonempty).
  rewrite last_char_join in E by apply npz_nonempty. rewrite last_char_app in E by discriminate. rewrite last_char_join in E by discriminate. discriminate E.
Qed.
Lemma join_relative a b b' : starts_with_slash b = false -> starts_with_slash b' = false -> join_path a b = join_path a b' -> b = b'.
Proof.
  intros S S' H. unfold join_path in H. rewrite S, S' in H. apply chars_inj'. apply (f_equal chars) in H.
  destruct (_ || _); rewrite !chars_app in H; apply app_inv_head in H; [exact H|]. cbn in H. injection H as H. exact H.
Qed.

Section Update.
  Context {rest : Type}.
  Implicit Types m : list (string * raw rest).
  Lemma update_disjoint m' : forall m, NoDup (akeys m') -> (forall n, In n (akeys m) -> ~ In n (akeys m')) -> update m m' = m ++ m'.
  Proof.
    unfold update. induction m' as [|[k r] m' IH]; intros m N D; cbn [fold_left fst snd]; [symmetry; apply app_nil_r|].
    inversion N as [|? ? N1 N2]; subst.
    rewrite aset_notin by (intros I; apply (D k I); left; reflexivity). rewrite IH; [rewrite <- app_assoc; reflexivity|exact N2|].
    intros n I J. rewrite akeys_app in I. apply in_app_or in I. destruct I as [I|[<-|[]]]; [apply (D n I); right; exact J|exact (N1 J)].
  Qed.
  Lemma aset_length (k : string) (r : raw rest) m : List.length (aset k r m) = (List.length m + if amem k m then 0 else 1)%nat.
  Proof.
    unfold amem. induction m as [|[k' a] m IH]; [reflexivity|]. cbn [aset alookup List.length]. destruct (String.eqb k k'); cbn [List.length]; [lia|]. rewrite IH. lia.
  Qed.
  Lemma update_length m' : forall m, (List.length (update m m') <= List.length m + List.length m')%nat.
  Proof.
    unfold update. induction m' as [|[k r] m' IH]; intros m; cbn [fold_left fst snd List.length]; [lia|].
    specialize (IH (aset k r m)). rewrite aset_length in IH. destruct (amem k m); lia.
  Qed.
  Lemma update_overlap m' : forall m n, In n (akeys m) -> In n (akeys m') -> (List.length (update m m') < List.length m + List.length m')%nat.
  Proof.
    unfold update. induction m' as [|[k r] m' IH]; intros m n I J; cbn [fold_left fst snd List.length akeys] in *; [destruct J|].
    destruct J as [->|J].
    - pose proof (update_length m' (aset n r m)) as L. unfold update in L. rewrite aset_length in L.
      unfold amem in L. destruct (alookup n m) eqn:E; [lia|]. apply alookup_None in E. contradiction.
    - specialize (IH (aset k r m) n). rewrite aset_length in IH.
      assert (K : In n (akeys (aset k r m))) by (rewrite akeys_aset; destruct (amem k m); [exact I|apply in_or_app; left; exact I]).
      specialize (IH K J). destruct (amem k m); lia.
  Qed.
  Lemma update_lookup m' : forall m n, NoDup (akeys m') -> alookup n (update m m') = match alookup n m' with Some r => Some r | None => alookup n m end.
  Proof.
    unfold update. induction m' as [|[k r] m' IH]; intros m n N; cbn [fold_left fst snd alookup]; [reflexivity|].
    inversion N as [|? ? N1 N2]; subst. rewrite (IH (aset k r m) n N2).
    destruct (String.eqb_spec n k) as [->|Q].
    - replace (alookup k m') with (@None (raw rest)) by (symmetry; apply alookup_None; exact N1). apply alookup_aset_eq.
    - destruct (alookup n m'); [reflexivity|]. apply alookup_aset_neq. intros E. apply Q. symmetry. exact E.
  Qed.
End Update.

Lemma NoDup_both (l l' : list string) : NoDup l -> NoDup l' -> (forall n, In n l -> In n l' -> False) -> NoDup (l ++ l').
Proof.
  intros N N' D. induction N as [|x l X N IH]; [exact N'|]. cbn [app]. constructor.
  - intros I. apply in_app_or in I. destruct I as [I|I]; [exact (X I)|]. apply (D x); [left; reflexivity|exact I].
  - apply IH. intros n I J. apply (D n); [right; exact I|exact J].
Qed.

(** ** C89 *)
Section Merge.
  Context {rest weights : Type}.
  Variables (py_str : val -> string) (key_order : list string) (fuel : nat).
  Implicit Types (d : fs rest weights) (ms ml : list (string * raw rest)).

  (** The two indexes that are merged. *)
  Definition to_merge d input_dir sysp vs ms vl ml : Prop :=
    alookup sysp d = Some (IndexFile (mkFile vs (Some ms))) /\
    alookup (join_path input_dir "index.json") d = Some (IndexFile (mkFile vl (Some ml))) /\
    NoDup (akeys ms) /\ NoDup (akeys ml).
  Definition disjoint ms ml : Prop := forall n, In n (akeys ms) -> In n (akeys ml) -> False.

  Lemma merged_two d input_dir sysp vs ms vl ml : to_merge d input_dir sysp vs ms vl ml ->
    merged input_dir (Some sysp) d = Ok (mkFile vs (Some (update ms ml)), Z.of_nat (List.length ms) + Z.of_nat (List.length ml)).
  Proof. intros (A & B & _). unfold merged, read_index. rewrite A. cbn [matrix_of f_matrix bind]. rewrite B. reflexivity. Qed.

  (** What is written: every entry of both, those of the new index first in case of a conflict,
      under the version of the system index; the other files are left alone. *)
  Theorem C89_written d input_dir out sysp vs ms vl ml : to_merge d input_dir sysp vs ms vl ml ->
    exists m, alookup out (snd (merge input_dir out (Some sysp) false d)) = Some (IndexFile (mkFile vs (Some m))) /\
      (forall n, alookup n m = match alookup n ml with Some r => Some r | None => alookup n ms end) /\
      (forall p, p <> out -> alookup p (snd (merge input_dir out (Some sysp) false d)) = alookup p d).
  Proof.
    intros T. unfold merge. rewrite (merged_two _ _ _ _ _ _ _ T). cbn [snd]. exists (update ms ml).
    split; [apply alookup_aset_eq|]. split; [intros n; apply update_lookup; apply T|].
    intros p Q. apply alookup_aset_neq. intros E. apply Q. symmetry. exact E.
  Qed.
  (** It reports success exactly when no name is in both. *)
  Theorem C89_success_partial d input_dir out sysp vs ms vl ml : to_merge d input_dir sysp vs ms vl ml ->
    (fst (merge input_dir out (Some sysp) false d) = Ok tt <-> disjoint ms ml).
  Proof.
    intros T. pose proof T as (_ & _ & N & N'). unfold merge. rewrite (merged_two _ _ _ _ _ _ _ T). cbn [fst]. unfold check_file, read_index.
    rewrite alookup_aset_eq. cbn [matrix_of f_matrix bind]. split.
    - intros H n I J. pose proof (update_overlap ml ms n I J) as L. destruct (Z.eqb_spec (Z.of_nat (List.length (update ms ml))) (Z.of_nat (List.length ms) + Z.of_nat (List.length ml))); [lia|discriminate H].
    - intros D. rewrite (update_disjoint ml ms N') by (intros n I J; exact (D n I J)). rewrite app_length, Nat2Z.inj_add, Z.eqb_refl. reflexivity.
  Qed.
  (** With a name in both it raises, after the file is written: wrongly, since all entries are there. *)
  Theorem C89_overlap_refuted d input_dir out sysp vs ms vl ml n : to_merge d input_dir sysp vs ms vl ml ->
    In n (akeys ms) -> In n (akeys ml) ->
    fst (merge input_dir out (Some sysp) false d) = Raise AssertionError /\
    alookup out (snd (merge input_dir out (Some sysp) false d)) = Some (IndexFile (mkFile vs (Some (update ms ml)))).
  Proof.
    intros T I J. unfold merge. rewrite (merged_two _ _ _ _ _ _ _ T). cbn [fst snd]. split; [|apply alookup_aset_eq].
    unfold check_file, read_index. rewrite alookup_aset_eq. cbn [matrix_of f_matrix bind]. pose proof (update_overlap ml ms n I J) as L.
    destruct (Z.eqb_spec (Z.of_nat (List.length (update ms ml))) (Z.of_nat (List.length ms) + Z.of_nat (List.length ml))); [lia|reflexivity].
  Qed.

  Notation find := (@Index.find rest py_str key_order fuel).
  (** The same answer: an entry of the same name and contents, or the same failure. *)
  Definition same_answer (x y : result (option (entry rest))) : Prop :=
    match x, y with
    | Ok (Some e), Ok (Some e') => e_name e = e_name e' /\ e_raw e = e_raw e'
    | Ok None, Ok None => True
    | Raise e, Raise e' => e = e'
    | OutOfFuel, OutOfFuel => True
    | _, _ => False
    end.
  Lemma found_same o x y : found fuel o x -> found fuel o y -> same_answer x y.
  Proof.
    destruct o as [[e|]|z|], x as [[a|]|u|], y as [[b|]|v|]; cbn; intros A B; try discriminate; try congruence; try exact I.
    destruct A as (_ & _ & A1 & A2), B as (_ & _ & B1 & B2). split; congruence.
  Qed.
  Lemma first_app (i j : index rest) gi go m : first py_str key_order fuel (i ++ j) gi go m =
    match first py_str key_order fuel i gi go m with Ok None => first py_str key_order fuel j gi go m | x => x end.
  Proof.
    induction i as [|[n e] i IH]; [reflexivity|]. cbn [app first]. destruct (answer py_str key_order fuel e gi go m) as [[]|x|]; cbn [bind]; auto.
  Qed.
  Lemma loaded_app ms ml : loaded (ms ++ ml) = loaded ms ++ loaded ml.
  Proof. unfold loaded. apply flat_map_app. Qed.

  (** The merged index loads, and answers every request as the system index does, or, where that
      has nothing, as the new one. *)
  Theorem C89_answers d input_dir out sysp ms ml is il : to_merge d input_dir sysp (Some 1) ms (Some 1) ml -> disjoint ms ml ->
    load [] (mkFile (Some 1) (Some ms)) = Ok is -> load [] (mkFile (Some 1) (Some ml)) = Ok il ->
    exists f i, alookup out (snd (merge input_dir out (Some sysp) false d)) = Some (IndexFile f) /\ load [] f = Ok i /\
      forall di do m,
        (snd (find is di do m) = Ok None -> same_answer (snd (find i di do m)) (snd (find il di do m))) /\
        (snd (find is di do m) <> Ok None -> same_answer (snd (find i di do m)) (snd (find is di do m))).
  Proof.
    intros T D LS LL. pose proof T as (_ & _ & N & N').
    rewrite (load_loaded (mkFile (Some 1) (Some ms)) ms eq_refl eq_refl N) in LS. injection LS as <-. rewrite (load_loaded (mkFile (Some 1) (Some ml)) ml eq_refl eq_refl N') in LL. injection LL as <-.
    exists (mkFile (Some 1) (Some (ms ++ ml))), (loaded ms ++ loaded ml). split; [|split].
    - unfold merge. rewrite (merged_two _ _ _ _ _ _ _ T). cbn [snd]. rewrite alookup_aset_eq. rewrite (update_disjoint ml ms N') by (intros n I J; exact (D n I J)). reflexivity.
    - rewrite <- loaded_app. apply load_loaded; [reflexivity|reflexivity|]. rewrite akeys_app. exact (NoDup_both _ _ N N' D).
    - intros di do m.
      destruct (find_used py_str key_order fuel _ _ di do m (used_index_refl fuel (loaded ms ++ loaded ml))) as [F _].
      destruct (find_used py_str key_order fuel _ _ di do m (used_index_refl fuel (loaded ms))) as [Fs _].
      destruct (find_used py_str key_order fuel _ _ di do m (used_index_refl fuel (loaded ml))) as [Fl _].
      destruct (gi <- from_dict di ;; go <- from_dict do ;; Ok (gi, go)) as [[gi go]|x|] eqn:R.
      + rewrite first_app in F. split; intros H.
        * destruct (first py_str key_order fuel (loaded ms) gi go m) as [[e|]|x|] eqn:E; cbn in Fs; rewrite H in Fs; try discriminate Fs; try contradiction.
          exact (found_same _ _ _ F Fl).
        * destruct (first py_str key_order fuel (loaded ms) gi go m) as [[e|]|x|] eqn:E; try exact (found_same _ _ _ F Fs).
          cbn in Fs. exfalso. apply H. symmetry. exact Fs.
      + split; intros H; [exact (found_same _ _ _ F Fl)|exact (found_same _ _ _ F Fs)].
      + split; intros H; [exact (found_same _ _ _ F Fl)|exact (found_same _ _ _ F Fs)].
  Qed.

  (** The version of the new index is not looked at: entries of an index of any other version,
      which load refuses (C31_other_version), are loaded once merged. *)
  Theorem C89_version_refuted d input_dir out sysp ms vl ml : to_merge d input_dir sysp (Some 1) ms vl ml -> vl <> Some 1 ->
    load [] (mkFile vl (Some ml)) = Raise ValueError /\
    exists f i, alookup out (snd (merge input_dir out (Some sysp) false d)) = Some (IndexFile f) /\ load [] f = Ok i /\
      forall n r e, In (n, r) ml -> load_entry n r = Ok e -> In (n, e) i.
  Proof.
    intros T V. split; [apply C31_other_version; exact V|]. pose proof T as (_ & _ & N & N').
    exists (mkFile (Some 1) (Some (update ms ml))). unfold merge. rewrite (merged_two _ _ _ _ _ _ _ T). cbn [snd].
    assert (U : NoDup (akeys (update ms ml))).
    { clear T. revert ms N. unfold update. induction ml as [|[k r] l IH]; intros ms N; cbn [fold_left fst snd]; [exact N|]. inversion N'; subst. apply IH; [assumption|]. apply NoDup_aset. exact N. }
    exists (loaded (update ms ml)). split; [apply alookup_aset_eq|]. split; [apply load_loaded; auto|].
    intros n r e I L. assert (J : In (n, r) (update ms ml)) by (apply alookup_In; rewrite (update_lookup ml ms n N'); rewrite (In_alookup n ml r N' I); reflexivity).
    unfold loaded. apply in_flat_map. exists (n, r). split; [exact J|]. cbn [fst snd]. rewrite L. left. reflexivity.
  Qed.

  (** A dry run, and a merge that cannot read its inputs, change nothing; without a system index
      the result is a copy. *)
  Theorem C89_quiet d input_dir out sysp : snd (merge input_dir out sysp true d) = d /\
    (forall x, merged input_dir sysp d = Raise x -> merge input_dir out sysp false d = (Raise x, d)).
  Proof.
    split; [|intros x H; unfold merge; rewrite H; reflexivity]. unfold merge. destruct (merged input_dir sysp d) as [[f n]|x|]; reflexivity.
  Qed.
  Theorem C89_copy d input_dir out v ml : alookup (join_path input_dir "index.json") d = Some (IndexFile (mkFile v (Some ml))) ->
    merge input_dir out None false d = (Ok tt, aset out (IndexFile (mkFile v (Some ml))) d).
  Proof.
    intros H. unfold merge, merged, read_index, check_file, read_index. rewrite H. cbn [bind matrix_of f_matrix]. rewrite alookup_aset_eq. cbn [bind matrix_of f_matrix]. rewrite Z.eqb_refl. reflexivity.
  Qed.
End Merge.

(** ** C90: a subset is an inventory of its own *)
Section Subset.
  Context {rest weights : Type}.
  Variable remote : string -> result weights.
  Variables (py_str : val -> string) (key_order : list string) (fuel : nat).
  Notation answers := (@answers rest py_str key_order fuel).
  Notation no_answer := (@does_not_answer rest py_str key_order fuel).
  Notation find := (@Index.find rest py_str key_order fuel).
  Notation make := (subset_remote_db remote py_str key_order fuel).
  Implicit Types (d : fs rest weights) (e : entry rest).

  (** The weights file of the entry has a name of its own: see C35. *)
  Definition plain_path (r : raw rest) (n : string) : Prop :=
    exists dir, matrix_dir_name r = Ok dir /\ free_of "/" dir /\ starts_with_slash n = false.

  Lemma path_of e : plain_path (e_raw e) (e_name e) -> exists p, matrix_path e = Ok p /\ starts_with_slash p = false.
  Proof.
    intros (dir & D & F & S). unfold matrix_path. rewrite D. cbn [bind]. eexists. split; [reflexivity|].
    assert (NE : dir <> "").
    { intros ->. unfold matrix_dir_name in D. destruct (r_inter (e_raw e)) as [i|]; [|discriminate D]. destruct (i_engine i) as [[|? ?]|]; destruct (i_version i); try discriminate D;
      (destruct (interpolation_method_name (e_raw e)); cbn in D; discriminate D). }
    assert (SD : forall x, starts_with_slash (dir ++ x)%string = false).
    { intros x. destruct dir as [|c dir]; [contradiction|]. cbn. destruct (Ascii.eqb_spec c "/"); [|reflexivity]. subst c. exfalso. apply F. left. reflexivity. }
    unfold join_path. replace (starts_with_slash (e_name e ++ ".npz")%string) with false by (destruct (e_name e); [reflexivity|symmetry; exact S]).
    destruct (_ || _); apply SD.
  Qed.
  Lemma path_distinct e e' out p p' : plain_path (e_raw e) (e_name e) -> plain_path (e_raw e') (e_name e') ->
    matrix_path e = Ok p -> matrix_path e' = Ok p' -> join_path out p = join_path out p' -> e_name e = e_name e'.
  Proof.
    intros P P' M M' J. destruct (path_of e P) as (q & Q & S). destruct (path_of e' P') as (q' & Q' & S'). rewrite M in Q. rewrite M' in Q'. injection Q as <-. injection Q' as <-.
    apply (join_relative out p p' S S') in J. subst p'. destruct P as (dir & D & F & T), P' as (dir' & D' & F' & T').
    apply (C35_paths_partial e e' p dir dir'); assumption.
  Qed.

  Lemma copy_one e out ok d t d' : copy_matrix_file remote e out ok false d = (Ok t, d') ->
    exists p w, matrix_path e = Ok p /\ remote p = Ok w /\ d' = aset (join_path out p) (Weights w) d.
  Proof.
    unfold copy_matrix_file. destruct (matrix_path e) as [p|x|]; try discriminate. cbn [bind]. destruct (remote p) as [w|x|] eqn:R; try discriminate. cbn [bind].
    destruct (_ && _ && _); [discriminate|]. intros H. injection H as E1 E2. subst d'. exists p, w. split; [reflexivity|]. split; [assumption|]. reflexivity.
  Qed.
  Lemma copy_elsewhere e out ok dry d q : (forall p, matrix_path e = Ok p -> join_path out p <> q) ->
    alookup q (snd (copy_matrix_file remote e out ok dry d)) = alookup q d.
  Proof.
    intros H. unfold copy_matrix_file. destruct (matrix_path e) as [p|x|]; try reflexivity. cbn [bind]. destruct (remote p) as [w|x|]; try reflexivity. cbn [bind].
    destruct (_ && _ && _); [reflexivity|]. destruct dry; [reflexivity|]. apply alookup_aset_neq. apply H. reflexivity.
  Qed.
  Lemma copy_all_elsewhere l out ok dry q : forall d, (forall n e p, In (n, e) l -> matrix_path e = Ok p -> join_path out p <> q) ->
    alookup q (snd (copy_all remote l out ok dry d)) = alookup q d.
  Proof.
    induction l as [|[n e] l IH]; intros d H; [reflexivity|]. cbn [copy_all].
    pose proof (copy_elsewhere e out ok dry d q (fun p => H n e p (or_introl eq_refl))) as C.
    destruct (copy_matrix_file remote e out ok dry d) as [[t|x|] d'] eqn:E; cbn [snd] in *; try exact C.
    rewrite IH; [exact C|]. intros n' e' p I. apply (H n' e' p). right. exact I.
  Qed.
  Lemma copy_all_there l out ok : forall d d', NoDup (map (fun p => e_name (snd p)) l) ->
    (forall n e, In (n, e) l -> plain_path (e_raw e) (e_name e)) ->
    copy_all remote l out ok false d = (Ok tt, d') ->
    forall n e, In (n, e) l -> exists p w, matrix_path e = Ok p /\ remote p = Ok w /\ alookup (join_path out p) d' = Some (Weights w).
  Proof.
    induction l as [|[n e] l IH]; intros d d' N P H n' e' I; [destruct I|]. cbn [copy_all] in H. cbn in N. inversion N as [|? ? N1 N2]; subst.
    destruct (copy_matrix_file remote e out ok false d) as [[t|x|] d1] eqn:E; try discriminate H.
    destruct I as [I|I].
    - injection I as <- <-. destruct (copy_one _ _ _ _ _ _ E) as (p & w & M & R & ->). exists p, w. split; [exact M|]. split; [exact R|].
      pose proof (copy_all_elsewhere l out ok false (join_path out p) (aset (join_path out p) (Weights w) d)) as C. rewrite H in C. cbn [snd] in C. rewrite C; [apply alookup_aset_eq|].
      intros n' e' p' J M' EQ. apply N1. symmetry in EQ.
      rewrite (path_distinct e e' out p p' (P n e (or_introl eq_refl)) (P n' e' (or_intror J)) M M' EQ). change (e_name e') with ((fun p : string * entry rest => e_name (snd p)) (n', e')). apply in_map. exact J.
    - apply (IH d1 d' N2 (fun n e J => P n e (or_intror J)) H n' e' I).
  Qed.

  (** The remote inventory: its index [i0], and [i], the same after some lookups. *)
  Variables (f : file rest) (m : list (string * raw rest)) (i0 i : index rest).
  Hypotheses (V : f_version f = Some 1) (M : f_matrix f = Some m) (N : NoDup (akeys m)) (L : load [] f = Ok i0)
             (U : used_index fuel i0 i) (PP : forall n e, In (n, e) i0 -> plain_path (e_raw e) n).

  Lemma i0_proper : proper i0.
  Proof using V M N L. assert (E : i0 = loaded m) by (pose proof (load_loaded f m V M N); congruence). rewrite E. apply loaded_proper. exact N. Qed.

  Lemma made items out strict fom d d' : make i items out strict fom false d = (Ok tt, d') ->
    exists i' res res0, subset py_str key_order fuel i items fom = (i', Ok res) /\ used_index fuel res0 res /\ incl res0 i0 /\ proper res0 /\
      akeys res0 = akeys res /\ local_index out d' = Ok res0 /\
      forall n e, In (n, e) res0 -> exists p w, matrix_path e = Ok p /\ remote p = Ok w /\ local_matrix out e d' = Ok w.
  Proof using V M N L U PP.
    pose proof i0_proper as P. unfold subset_remote_db. destruct (_ && _ && _); [discriminate|].
    destruct (subset py_str key_order fuel i items fom) as [i' [res|x|]] eqn:S; cbn [snd]; try discriminate.
    destruct (copy_all remote res out (negb strict) false d) as [[[]|x|] d1] eqn:C; try discriminate. intros H. injection H as <-.
    destruct (subset_spec py_str key_order fuel items i0 i [] i' res P U (conj (NoDup_nil _) (Forall_nil _)) fom S) as (G1 & G2 & _).
    destruct (from_list fuel i0 res G2) as (res0 & UR & IC). pose proof (used_keys fuel res0 res UR) as K.
    assert (P0 : proper res0).
    { split; [rewrite <- K; apply G2|]. apply Forall_forall. intros x I. destruct P as [_ F]. rewrite Forall_forall in F. apply F, IC, I. }
    exists i', res, res0. split; [reflexivity|]. split; [exact UR|]. split; [exact IC|]. split; [exact P0|]. split; [symmetry; exact K|]. split.
    - unfold local_index, read_index. rewrite alookup_aset_eq. cbn [bind]. rewrite (used_raw fuel res0 res UR). apply load_to_raw. exact P0.
    - intros n e I.
      assert (X : exists e1, In (n, e1) res /\ e_name e1 = e_name e /\ e_raw e1 = e_raw e).
      { clear - UR I. induction UR as [|[n0 x0] [n1 x1] l0 l (A & B) UR IH]; [destruct I|]. destruct I as [I|I].
        - injection I as -> ->. cbn in *. subst n1. exists x1. split; [left; reflexivity|]. apply B.
        - destruct (IH I) as (e1 & J & E). exists e1. split; [right; exact J|exact E]. }
      destruct X as (e1 & J & E1 & E2).
      assert (NM : forall n e, In (n, e) res -> e_name e = n /\ exists e0, In (n, e0) i0 /\ used_entry fuel e0 e).
      { intros n2 e2 I2. destruct G2 as [_ F2]. rewrite Forall_forall in F2. destruct (F2 _ I2) as (e3 & I3 & U3). cbn [fst snd] in *. split; [|eauto].
        destruct P as [_ F]. rewrite Forall_forall in F. destruct (F _ I3) as (Q & _). cbn in Q. destruct U3 as (_ & _ & U3 & _). congruence. }
      assert (ND : NoDup (map (fun p => e_name (snd p)) res)).
      { replace (map (fun p : string * entry rest => e_name (snd p)) res) with (akeys res); [apply G2|]. rewrite akeys_map. apply map_ext_in. intros [n2 e2] I2. cbn. symmetry. apply (NM n2 e2 I2). }
      destruct (copy_all_there res out (negb strict) d d1 ND) with (n := n) (e := e1) as (p & w & Q1 & Q2 & Q3).
      { intros n2 e2 I2. destruct (NM n2 e2 I2) as (Q & e3 & I3 & U3). destruct U3 as (_ & _ & U3 & U4). rewrite U4, Q. apply PP. exact I3. }
      { exact C. } { exact J. }
      assert (ME : matrix_path e = Ok p) by (unfold matrix_path in *; rewrite <- E1, <- E2; exact Q1).
      exists p, w. split; [exact ME|]. split; [exact Q2|]. unfold local_matrix. rewrite ME. cbn [bind].
      rewrite alookup_aset_neq by (intros EQ; symmetry in EQ; revert EQ; apply (not_index e p out ME)). rewrite Q3. reflexivity.
  Qed.

  (** Whatever the local inventory finds for any request is an entry of the remote one, and its
      weights are there, the very ones the remote has. *)
  Theorem C90_self_contained items out strict fom d d' : make i items out strict fom false d = (Ok tt, d') ->
    exists idx, local_index out d' = Ok idx /\
      forall di do me e, snd (find idx di do me) = Ok (Some e) ->
        (exists e0, In (e_name e, e0) i0 /\ used_entry fuel e0 e) /\
        exists p w, matrix_path e = Ok p /\ remote p = Ok w /\ local_matrix out e d' = Ok w.
  Proof using V M N L U PP.
    intros H. destruct (made items out strict fom d d' H) as (i' & res & res0 & _ & _ & IC & P0 & _ & LI & LM). exists res0. split; [exact LI|].
    intros di do me e F. destruct (find_used py_str key_order fuel res0 res0 di do me (used_index_refl fuel res0)) as [G _]. rewrite F in G.
    destruct (gi <- from_dict di ;; go <- from_dict do ;; Ok (gi, go)) as [[gi go]|x|]; cbn in G; try discriminate G.
    destruct (first py_str key_order fuel res0 gi go me) as [[e0|]|x|] eqn:E; cbn in G; try discriminate G.
    apply first_some in E. destruct E as (pre & n & post & -> & _ & _). assert (I : In (n, e0) (pre ++ (n, e0) :: post)) by (apply in_or_app; right; left; reflexivity).
    assert (n = e_name e).
    { destruct P0 as [_ F0]. rewrite Forall_forall in F0. destruct (F0 _ I) as (Q & _). cbn in Q. destruct G as (_ & _ & G & _). congruence. }
    subst n. split; [exists e0; split; [apply IC; exact I|exact G]|].
    destruct (LM _ _ I) as (p & w & Q1 & Q2 & Q3). destruct G as (_ & _ & G1 & G2). exists p, w.
    assert (ME : matrix_path e = Ok p) by (unfold matrix_path in *; rewrite G1, G2; exact Q1). split; [exact ME|]. split; [exact Q2|].
    unfold local_matrix in *. rewrite ME. rewrite Q1 in Q3. exact Q3.
  Qed.
  (** Every filter that the remote index answers finds an answer in the local inventory: the same
      one if it is the only one.  (Which of several: C32_subset_answers_refuted.) *)
  Theorem C90_found items out strict fom d d' fl gi go : make i items out strict fom false d = (Ok tt, d') ->
    In fl items -> request (fl_input fl) (fl_output fl) gi go ->
    (forall n e, In (n, e) i0 -> answers e gi go (filter_method fl) \/ no_answer e gi go (filter_method fl)) ->
    (exists n e, In (n, e) i0 /\ answers e gi go (filter_method fl)) ->
    exists idx e e0 w, local_index out d' = Ok idx /\ snd (find idx (fl_input fl) (fl_output fl) (filter_method fl)) = Ok (Some e) /\
      In (e_name e, e0) i0 /\ used_entry fuel e0 e /\ answers e0 gi go (filter_method fl) /\ local_matrix out e d' = Ok w.
  Proof using V M N L U PP.
    intros H I R DEC (n1 & e1 & I1 & A1). destruct (made items out strict fom d d' H) as (i' & res & res0 & S & UR & IC & P0 & K & LI & LM).
    destruct (subset_spec py_str key_order fuel items i0 i [] i' res i0_proper U (conj (NoDup_nil _) (Forall_nil _)) fom S) as (_ & G2 & _ & G4 & _).
    destruct (G4 fl gi go I R) as [(e2 & F2 & J2)|[_ NA]]; [|exfalso; rewrite Forall_forall in NA; exact (answers_or_not py_str key_order fuel e1 gi go _ A1 (NA _ I1))].
    apply first_some in F2. destruct F2 as (pre & n2 & post & E2 & A2 & _). rewrite <- K in J2.
    assert (I2 : In (n2, e2) i0) by (rewrite E2; apply in_or_app; right; left; reflexivity).
    assert (Q2 : n2 = e_name e2) by (destruct i0_proper as [_ F]; rewrite Forall_forall in F; destruct (F _ I2) as (Q & _); symmetry; exact Q). subst n2.
    rewrite akeys_map in J2. apply in_map_iff in J2. destruct J2 as ([n3 e3] & E3 & I3). cbn in E3. subst n3.
    assert (e3 = e2).
    { pose proof (IC _ I3) as J3. destruct i0_proper as [N0 _]. pose proof (In_alookup _ _ _ N0 I2). pose proof (In_alookup _ _ _ N0 J3). congruence. } subst e3.
    destruct (find_used py_str key_order fuel res0 res0 (fl_input fl) (fl_output fl) (filter_method fl) (used_index_refl fuel res0)) as [F _].
    destruct R as [R1 R2]. rewrite R1, R2 in F. cbn [bind] in F.
    assert (X : exists e, first py_str key_order fuel res0 gi go (filter_method fl) = Ok (Some e)).
    { clear - I3 A2 DEC IC. induction res0 as [|[n e] l IH]; [destruct I3|]. cbn [first].
      destruct (DEC n e (IC _ (or_introl eq_refl))) as [A|B].
      - apply answer_yes in A. rewrite A. cbn. eauto.
      - pose proof B as B'. apply answer_no in B. rewrite B. cbn [bind]. destruct I3 as [I3|I3].
        + injection I3 as -> ->. exfalso. exact (answers_or_not py_str key_order fuel e2 gi go _ A2 B').
        + apply IH; [intros x J; apply IC; right; exact J|exact I3]. }
    destruct X as (e0 & X). rewrite X in F. apply first_some in X. destruct X as (pre' & n' & post' & E' & A' & _).
    destruct (snd (find res0 (fl_input fl) (fl_output fl) (filter_method fl))) as [[e|]|x|] eqn:FE; cbn in F; try discriminate F.
    assert (I' : In (n', e0) res0) by (rewrite E'; apply in_or_app; right; left; reflexivity).
    assert (n' = e_name e).
    { destruct P0 as [_ F0]. rewrite Forall_forall in F0. destruct (F0 _ I') as (Q & _). cbn in Q. destruct F as (_ & _ & F & _). congruence. } subst n'.
    destruct (LM _ _ I') as (p & w & W1 & W2 & W3). exists res0, e, e0, w. split; [exact LI|]. split; [exact FE|]. split; [apply IC; exact I'|]. split; [exact F|]. split; [exact A'|].
    destruct F as (_ & _ & G1 & G3). unfold local_matrix in *. replace (matrix_path e) with (matrix_path e0) by (unfold matrix_path; rewrite G1, G3; reflexivity). exact W3.
  Qed.
End Subset.

(** If the call raises, at whichever file, the directory has no new index; a dry run writes nothing;
    a strict call does not touch a directory with files. *)
Theorem C90_failure {rest weights} (remote : string -> result weights) py_str key_order fuel (i : index rest) items out strict fom dry d :
  (fst (subset_remote_db remote py_str key_order fuel i items out strict fom dry d) <> Ok tt ->
   alookup (join_path out "index.json") (snd (subset_remote_db remote py_str key_order fuel i items out strict fom dry d)) = alookup (join_path out "index.json") d) /\
  snd (subset_remote_db remote py_str key_order fuel i items out strict fom true d) = d /\
  (occupied out d = true -> subset_remote_db remote py_str key_order fuel i items out true fom false d = (Raise (UserError 0), d)).
Proof.
  assert (D : forall (l : index rest) ok d, snd (copy_all remote l out ok true d) = d).
  { clear. induction l as [|[n e] l IH]; intros ok d; [reflexivity|]. cbn [copy_all].
    assert (E : snd (copy_matrix_file remote e out ok true d) = d).
    { unfold copy_matrix_file. destruct (matrix_path e) as [p|x|]; try reflexivity. cbn [bind]. destruct (remote p) as [w|x|]; try reflexivity. cbn [bind]. destruct (_ && _ && _); reflexivity. }
    destruct (copy_matrix_file remote e out ok true d) as [[t|x|] d']; cbn in E; subst; auto. }
  split; [|split].
  - unfold subset_remote_db. destruct (_ && _ && _); [reflexivity|]. destruct (snd (subset py_str key_order fuel i items fom)) as [res|x|]; try reflexivity.
    pose proof (copy_all_elsewhere remote res out (negb strict) dry (join_path out "index.json") d) as C.
    destruct (copy_all remote res out (negb strict) dry d) as [[[]|x|] d']; cbn [fst snd] in *.
    + destruct dry; intros H; exfalso; apply H; reflexivity.
    + intros _. apply C. intros n e p _. apply not_index.
    + intros _. apply C. intros n e p _. apply not_index.
  - unfold subset_remote_db. cbn [negb andb]. destruct (snd (subset py_str key_order fuel i items fom)) as [res|x|]; try reflexivity.
    pose proof (D res (negb strict) d) as C. destruct (copy_all remote res out (negb strict) true d) as [[[]|x|] d']; cbn in *; assumption.
  - intros O. unfold subset_remote_db. rewrite O. reflexivity.
Qed.

(** A strict call replaces no file, wherever it stops; one that is not strict replaces the files of the
    matrices it copies. *)
Lemma prefix_split p s : String.prefix p s = true <-> exists t, s = (p ++ t)%string.
Proof.
  revert s; induction p as [|c p IH]; intros s; [split; [intros _; exists s; reflexivity|destruct s; reflexivity]|].
  destruct s as [|d s]; [split; [discriminate|intros [t H]; discriminate H]|].
  cbn [String.prefix]. destruct (ascii_dec c d) as [->|N].
  - rewrite IH. split; intros [t H]; exists t; cbn in *; [rewrite H; reflexivity|injection H as H; exact H].
  - split; [discriminate|]. intros [t H]. cbn in H. injection H as H _. congruence.
Qed.
Definition directory (out : string) : Prop := out <> "" /\ ends_with_slash out = false.
Lemma join_in out q : directory out -> starts_with_slash q = false -> join_path out q = (out ++ "/" ++ q)%string.
Proof. intros [A B] S. unfold join_path. rewrite S, B. destruct out; [contradiction|reflexivity]. Qed.
Lemma occupied_spec {rest weights} out (d : fs rest weights) : directory out ->
  (occupied out d = true <-> exists q c, In ((out ++ "/" ++ q)%string, c) d).
Proof.
  intros O. unfold occupied. rewrite existsb_exists. unfold inside. rewrite (join_in out "" O eq_refl). split.
  - intros ([p c] & I & P). apply prefix_split in P. cbn [fst] in P. destruct P as [t ->]. exists t, c.
    rewrite !sapp_assoc in I. exact I.
  - intros (q & c & I). eexists. split; [exact I|]. apply prefix_split. exists q. cbn [fst]. rewrite !sapp_assoc. reflexivity.
Qed.

Section Strict.
  Context {rest weights : Type}.
  Variable remote : string -> result weights.
  Variables (py_str : val -> string) (key_order : list string) (fuel : nat).
  Notation make := (subset_remote_db remote py_str key_order fuel).
  Implicit Types (d : fs rest weights) (e : entry rest) (i : index rest).

  Lemma copy_keeps e out dry d q c : alookup q d = Some c -> alookup q (snd (copy_matrix_file remote e out false dry d)) = Some c.
  Proof.
    intros H. unfold copy_matrix_file. destruct (matrix_path e) as [p|x|]; try exact H. cbn [bind]. destruct (remote p) as [w|x|]; try exact H. cbn [bind negb andb].
    unfold amem. destruct (alookup (join_path out p) d) as [c'|] eqn:E; destruct dry; cbn [negb andb snd]; try exact H.
    destruct (String.eqb_spec (join_path out p) q) as [<-|N]; [congruence|]. rewrite alookup_aset_neq by exact N. exact H.
  Qed.
  Lemma copy_all_keeps l out dry q c : forall d, alookup q d = Some c -> alookup q (snd (copy_all remote l out false dry d)) = Some c.
  Proof.
    induction l as [|[n e] l IH]; intros d H; [exact H|]. cbn [copy_all]. pose proof (copy_keeps e out dry d q c H) as K.
    destruct (copy_matrix_file remote e out false dry d) as [[t|x|] d']; cbn [snd] in *; auto.
  Qed.
  Theorem C90_strict i items out fom dry d q c : directory out -> alookup q d = Some c ->
    alookup q (snd (make i items out true fom dry d)) = Some c.
  Proof.
    intros O H. unfold subset_remote_db. destruct dry; cbn [negb andb].
    - destruct (snd (subset py_str key_order fuel i items fom)) as [res|x|]; try exact H.
      pose proof (copy_all_keeps res out true q c d H) as K. destruct (copy_all remote res out false true d) as [[[]|x|] d']; exact K.
    - destruct (occupied out d) eqn:OC; [exact H|]. destruct (snd (subset py_str key_order fuel i items fom)) as [res|x|]; try exact H.
      pose proof (copy_all_keeps res out false q c d H) as K. destruct (copy_all remote res out false false d) as [[[]|x|] d']; try exact K.
      cbn [snd] in *. rewrite alookup_aset_neq; [exact K|]. intros <-. rewrite (join_in out "index.json" O eq_refl) in H. apply alookup_In in H.
      assert (X : occupied out d = true) by (apply occupied_spec; [exact O|eauto]). congruence.
  Qed.
  (** A strict call refuses the directories that hold files, and only those.  It, or a call that is not
      strict, succeeds when every matrix can be fetched. *)
  Theorem C90_made i i' items res out strict fom d : directory out ->
    subset py_str key_order fuel i items fom = (i', Ok res) -> NoDup (map (fun p => e_name (snd p)) res) ->
    (forall n e, In (n, e) res -> plain_path (e_raw e) (e_name e) /\ forall p, matrix_path e = Ok p -> exists w, remote p = Ok w) ->
    (strict = true -> forall q c, ~ In ((out ++ "/" ++ q)%string, c) d) ->
    exists d', make i items out strict fom false d = (Ok tt, d').
  Proof.
    intros O S N P H. unfold subset_remote_db. rewrite S. cbn [snd negb andb].
    assert (OC : (strict && occupied out d)%bool = false).
    { destruct strict; [|reflexivity]. destruct (occupied out d) eqn:OC; [|reflexivity]. apply occupied_spec in OC; [|exact O]. destruct OC as (q & c & I). destruct (H eq_refl q c I). }
    rewrite OC.
    assert (X : forall l d, NoDup (map (fun p => e_name (snd p)) l) -> incl l res ->
      (strict = true -> forall n e p, In (n, e) l -> matrix_path e = Ok p -> alookup (join_path out p) d = None) ->
      fst (copy_all remote l out (negb strict) false d) = Ok tt).
    { clear d S OC N H. induction l as [|[n e] l IH]; intros d N IC A; [reflexivity|]. cbn [copy_all].
      destruct (P n e (IC _ (or_introl eq_refl))) as [PL RM]. destruct (path_of e PL) as (p & M & _). destruct (RM p M) as (w & R).
      assert (C : copy_matrix_file remote e out (negb strict) false d = (Ok (join_path out p), aset (join_path out p) (Weights w) d)).
      { unfold copy_matrix_file. rewrite M. cbn [bind]. rewrite R. cbn [bind]. destruct strict; cbn [negb andb]; [|reflexivity].
        unfold amem. rewrite (A eq_refl n e p (or_introl eq_refl) M). reflexivity. }
      rewrite C. cbn in N. inversion N as [|? ? N1 N2]; subst. apply IH; [exact N2|intros x I; apply IC; right; exact I|].
      intros ST n' e' p' I M'. rewrite alookup_aset_neq; [apply (A ST n' e' p'); [right; exact I|exact M']|].
      intros EQ. apply N1. destruct (P n' e' (IC _ (or_intror I))) as [PL' _].
      rewrite (path_distinct e e' out p p' PL PL' M M' EQ). change (e_name e') with ((fun p : string * entry rest => e_name (snd p)) (n', e')). apply in_map. exact I. }
    specialize (X res d N (incl_refl _)).
    destruct (copy_all remote res out (negb strict) false d) as [r d1]. cbn [fst] in X. rewrite X; [eauto|].
    intros ST n e p I M. destruct (P n e I) as [PL _]. destruct (path_of e PL) as (p' & M' & SL). rewrite M in M'. injection M' as <-.
    destruct (alookup (join_path out p) d) as [c|] eqn:E; [|reflexivity]. rewrite (join_in out p O SL) in E. apply alookup_In in E. destruct (H ST p c E).
  Qed.
End Strict.

(** ** C91: the methods of the filters *)
(** A filter whose method is the name of no entry is refused, although a lookup with this very
    method, being an alias, finds an entry. *)
Definition nn_inter : interpolation := mkInter (Some "mir") (Some "16") (Some (MName "nearest-neighbour")).
Definition nn_item : raw unit := mkRaw (Some (lat_lon (VInt 90))) (Some target) (Some nn_inter) tt.
Definition nn_index : index unit := match load [] (mkFile (Some 1) (Some [("a", nn_item)])) with Ok i => i | _ => [] end.
Theorem C91_alias_refuted :
  (exists e, snd (find (fun _ => "") COMPARE_KEYS 10 nn_index (lat_lon (VInt 90)) target (method_alias "nn")) = Ok (Some e) /\ e_name e = "a") /\
  snd (subset (fun _ => "") COMPARE_KEYS 10 nn_index [mkFilter (lat_lon (VInt 90)) target (Some "nn")] true) = Raise ValueError.
Proof. split; [eexists; split; vm_compute; reflexivity|vm_compute; reflexivity]. Qed.
(** For every other method the entry that goes into the subset is the one that a lookup gives. *)
Theorem C91_same_partial {rest} py_str key_order fuel (i : index rest) fl :
  filter_method fl <> "nn" -> filter_method fl <> "nearest-neighbor" ->
  snd (subset py_str key_order fuel i [fl] true) =
    match snd (find py_str key_order fuel i (fl_input fl) (fl_output fl) (method_alias (filter_method fl))) with
    | Ok (Some e) => Ok [(e_name e, e)]
    | Ok None => Raise ValueError
    | Raise x => Raise x
    | OutOfFuel => OutOfFuel
    end.
Proof.
  intros A B. destruct C71_alias as (_ & _ & O & _). rewrite (O _ A B). unfold subset. cbn [subset_loop].
  destruct (find py_str key_order fuel i (fl_input fl) (fl_output fl) (filter_method fl)) as [i' [[e|]|x|]]; reflexivity.
Qed.

(** ** Examples *)
Definition sys_file : file unit := mkFile (Some 1) (Some two_items).
Definition new_file : file unit := mkFile (Some 1) (Some [("n", nn_item)]).
Definition demo_fs : fs unit nat := [("sys", IndexFile sys_file); ("new/index.json", IndexFile new_file)].
Example C89_met : to_merge demo_fs "new" "sys" (Some 1) two_items (Some 1) [("n", nn_item)] /\ disjoint two_items [("n", nn_item)] /\
  fst (merge "new" "out" (Some "sys") false demo_fs) = Ok tt.
Proof.
  split; [|split].
  - split; [reflexivity|]. split; [reflexivity|]. split; [repeat constructor; cbn; intuition discriminate|repeat constructor; cbn; intuition].
  - intros n [<-|[<-|[]]] [E|[]]; discriminate E.
  - vm_compute. reflexivity.
Qed.
Example C89_overlap_met : to_merge (("new/index.json", IndexFile two_file) :: demo_fs) "new" "sys" (Some 1) two_items (Some 1) two_items /\ In "a" (akeys two_items).
Proof. split; [|left; reflexivity]. split; [reflexivity|]. split; [reflexivity|]. split; repeat constructor; cbn; intuition discriminate. Qed.
Definition demo_remote (p : string) : result nat := if String.eqb p "mir_16_linear/a.npz" then Ok 7%nat else Raise (UserError 1).
Example C90_met : exists d', subset_remote_db demo_remote (fun _ => "") COMPARE_KEYS 10 two_index [mkFilter (lat_lon (VInt 90)) target None] "out" true true false [] = (Ok tt, d') /\
  akeys d' = ["out/mir_16_linear/a.npz"; "out/index.json"] /\ (forall n e, In (n, e) two_index -> plain_path (e_raw e) n).
Proof.
  eexists. split; [vm_compute; reflexivity|]. split; [reflexivity|]. intros n e I. vm_compute in I. destruct I as [I|[I|[]]]; injection I as <- <-;
    (exists "mir_16_linear"; split; [reflexivity|]; split; [unfold free_of; cbn; intuition discriminate|reflexivity]).
Qed.
Example C90_strict_met : directory "out" /\ forall q c, ~ In (("out" ++ "/" ++ q)%string, c) ([("out2/x", Other)] : fs unit nat).
Proof. split; [split; [discriminate|reflexivity]|]. intros q c [E|[]]. discriminate E. Qed.

Print Assumptions C89_written.
Print Assumptions C89_success_partial.
Print Assumptions C89_overlap_refuted.
Print Assumptions C89_answers.
Print Assumptions C89_version_refuted.
Print Assumptions C89_quiet.
Print Assumptions C89_copy.
Print Assumptions C90_self_contained.
Print Assumptions C90_found.
Print Assumptions C90_failure.
Print Assumptions C90_strict.
Print Assumptions C90_made.
Print Assumptions C91_alias_refuted.
Print Assumptions C91_same_partial.
