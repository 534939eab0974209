(** C59, C88: the matrix builder (utils/builder.py). *)
From Coq Require Import Reals Psatz.
From Verif Require Import PyBase ListLemmas PyStr Float64 GridSpec GridVocab GridProofs GridProofs2 FloatReal GridMatchSpec GridReal Index IndexSpec IndexProofs IndexProofs2 Props_Index Builder BuilderSpec BuilderProofs.
From Verif Require Stream Mir MirSpec.
Set Default Proof Using "Type".
Local Open Scope string_scope.
Local Open Scope list_scope.
Local Open Scope Z_scope.

(** ** Paths *)
Lemma sapp_assoc a b c : ((a ++ b) ++ c = a ++ (b ++ c))%string.
Proof. induction a as [|x a IH]; cbn; [reflexivity|]. rewrite IH. reflexivity. Qed.
Lemma chars_app a b : chars (a ++ b)%string = chars a ++ chars b.
Proof. induction a as [|x a IH]; cbn; [reflexivity|]. unfold chars in *. rewrite IH. reflexivity. Qed.
Lemma ends_app a b : b <> "" -> ends_with_slash (a ++ b)%string = ends_with_slash b.
Proof.
  intros N. unfold ends_with_slash. rewrite chars_app, rev_app_distr. destruct b as [|x b]; [congruence|].
  destruct (rev (chars (String x b))) as [|y r] eqn:E; [|reflexivity].
  exfalso. apply (f_equal (@List.length ascii)) in E. rewrite rev_length in E. discriminate E.
Qed.
Lemma eqb_empty s : s <> "" -> String.eqb s "" = false.
Proof. intros H. apply String.eqb_neq. exact H. Qed.
Lemma sapp_nonempty_r a b : b <> "" -> (a ++ b)%string <> "".
Proof. destruct a; [auto|discriminate]. Qed.
Lemma starts_app a b : a <> "" -> starts_with_slash (a ++ b)%string = starts_with_slash a.
Proof. destruct a; [congruence|reflexivity]. Qed.
(** os.path.join of three components, in either order. *)
Lemma join_assoc a b c : b <> "" -> c <> "" -> join_path (join_path a b) c = join_path a (join_path b c).
Proof.
  intros NB NC. unfold join_path. destruct (starts_with_slash c) eqn:SC; [rewrite SC; reflexivity|].
  rewrite (eqb_empty b NB). cbn [orb].
  destruct (starts_with_slash b) eqn:SB.
  - rewrite (eqb_empty b NB). cbn [orb].
    destruct (ends_with_slash b); rewrite starts_app, SB by exact NB; reflexivity.
  - assert (NAB : forall a, String.eqb (a ++ b)%string "" = false) by (intros; apply eqb_empty, sapp_nonempty_r, NB).
    assert (EAB : forall a, ends_with_slash (a ++ b)%string = ends_with_slash b) by (intros; apply ends_app, NB).
    assert (NX : forall a, String.eqb (a ++ "/" ++ b)%string "" = false) by (intros; apply eqb_empty, sapp_nonempty_r; discriminate).
    assert (EX : forall a, ends_with_slash (a ++ "/" ++ b)%string = ends_with_slash b).
    { intros x. rewrite <- sapp_assoc. apply EAB. }
    destruct (String.eqb a "" || ends_with_slash a) eqn:EA.
    + rewrite NAB, EAB. cbn [orb]. destruct (ends_with_slash b); rewrite starts_app, SB by exact NB; rewrite ?sapp_assoc; reflexivity.
    + rewrite NX, EX. cbn [orb]. destruct (ends_with_slash b); rewrite starts_app, SB by exact NB; rewrite ?sapp_assoc; reflexivity.
Qed.

(** The file name of a matrix has the extension .npz. *)
Definition slash_free (s : string) : Prop := ~ In "/"%char (chars s).
Lemma name_of_clean s : slash_free s -> Mir.name_of s = s.
Proof.
  intros H. destruct s as [|c r]; [reflexivity|]. cbn [Mir.name_of].
  destruct (existsb (Ascii.eqb "/") (list_ascii_of_string (String c r))) eqn:E; [|reflexivity].
  apply existsb_exists in E. destruct E as (x & I & Q). apply Ascii.eqb_eq in Q. subst x. contradiction.
Qed.
Lemma name_of_tail a s : slash_free s -> Mir.name_of (a ++ "/" ++ s)%string = s.
Proof.
  intros H. induction a as [|c a IH].
  - change ("" ++ "/" ++ s)%string with (String "/" s). cbn [Mir.name_of].
    replace (existsb (Ascii.eqb "/") (list_ascii_of_string (String "/" s))) with true by reflexivity. apply name_of_clean, H.
  - change (String c a ++ "/" ++ s)%string with (String c (a ++ "/" ++ s)). cbn [Mir.name_of].
    replace (existsb (Ascii.eqb "/") (list_ascii_of_string (String c (a ++ "/" ++ s)))) with true; [exact IH|].
    symmetry. apply existsb_exists. exists "/"%char. split; [|apply Ascii.eqb_refl]. right.
    change (In "/"%char (chars (a ++ "/" ++ s)%string)). rewrite chars_app. apply in_or_app. right. left. reflexivity.
Qed.
Lemma last_dot_npz s : Mir.last_dot (s ++ ".npz")%string = Some ".npz".
Proof. induction s as [|c s IH]; [reflexivity|]. change (String c s ++ ".npz")%string with (String c (s ++ ".npz")). cbn [Mir.last_dot]. rewrite IH. reflexivity. Qed.
Lemma suffix_npz d key : key <> "" -> slash_free key ->
  Mir.suffix (join_path d (key ++ ".npz")) = ".npz".
Proof.
  intros NK SF. assert (SN : slash_free (key ++ ".npz")%string).
  { unfold slash_free. rewrite chars_app. intros I. apply in_app_or in I. destruct I as [I|I]; [contradiction|]. cbn in I. intuition discriminate. }
  assert (NM : Mir.name_of (join_path d (key ++ ".npz")) = (key ++ ".npz")%string).
  { unfold join_path. destruct (starts_with_slash (key ++ ".npz")); [apply name_of_clean, SN|].
    destruct (String.eqb d "") eqn:ED; cbn [orb].
    - apply String.eqb_eq in ED. subst d. apply name_of_clean, SN.
    - destruct (ends_with_slash d) eqn:EE; [|apply name_of_tail, SN].
      unfold ends_with_slash in EE. destruct (rev (chars d)) as [|x l] eqn:ER; [discriminate|]. apply Ascii.eqb_eq in EE. subst x.
      assert (Q : d = (of_chars (rev l) ++ "/")%string).
      { rewrite <- (string_of_list_ascii_of_string d). change (list_ascii_of_string d) with (chars d). rewrite <- (rev_involutive (chars d)), ER. cbn [rev].
        clear. unfold of_chars. induction (rev l) as [|y m IH]; cbn; [reflexivity|]. rewrite IH. reflexivity. }
      rewrite Q, sapp_assoc. apply name_of_tail, SN. }
  unfold Mir.suffix. rewrite NM. destruct key as [|c k]; [congruence|].
  change (String c k ++ ".npz")%string with (String c (k ++ ".npz")). cbv beta iota. rewrite last_dot_npz. reflexivity.
Qed.

Section B.
  Variable sha_inter : binter -> string.
  Variable sha_key : mgrid -> mgrid -> binter -> string.
  Variable memory_size : Mir.csrz -> Z.
  Notation build := (make_matrix sha_inter sha_key memory_size).
  Notation build' := (make_matrix_repaired sha_inter sha_key memory_size).

  (** ** C59: as it is, the builder never adds anything. *)
  Theorem C59_refuted out gi go e s : fst (build out gi go e s) <> Ok tt /\ snd (build out gi go e s) = s.
  Proof.
    unfold make_matrix, make_matrix_with.
    match goal with |- fst (match ?r with _ => _ end) <> _ /\ _ => destruct r as [[[[i [inter uid]] dir] c]|x|] end.
    - cbn [Mir.mir_cached_matrix_to_file]. destruct s. split; [discriminate|reflexivity].
    - split; [discriminate|reflexivity].
    - split; [discriminate|reflexivity].
  Qed.
  Definition well_formed (i : binter) (en ve m : string) : Prop :=
    i_engine (bi i) = Some en /\ i_version (bi i) = Some ve /\
    (i_method (bi i) = Some (MName m) \/ i_method (bi i) = Some (MObject (Some m))).
  Lemma method_ok i en ve m : well_formed i en ve m -> interpolation_method_name (just_inter (bi i)) = Ok m.
  Proof. intros (_ & _ & [M|M]); unfold interpolation_method_name; cbn [r_inter just_inter]; rewrite M; reflexivity. Qed.
  Lemma stored_ok i en ve m : well_formed i en ve m -> exists x u, stored_inter sha_inter i = Ok (x, u) /\
    interpolation_method_name (just_inter x) = Ok m /\ matrix_dir_name (just_inter x) = Ok (en ++ "_" ++ ve ++ "_" ++ m)%string.
  Proof.
    intros W. pose proof W as (E & V & M). unfold stored_inter, make_interpolation_uid. rewrite (method_ok _ _ _ _ W). cbn [bind].
    match goal with |- context [if ?b then _ else _] => match b with negb _ => destruct b end end.
    - eexists. eexists. split; [reflexivity|]. split; [exact (method_ok _ _ _ _ W)|].
      unfold matrix_dir_name. cbn [just_inter r_inter]. rewrite E, V. fold (just_inter (bi i)). rewrite (method_ok _ _ _ _ W). reflexivity.
    - eexists. eexists. split; [reflexivity|]. rewrite E, V. split; reflexivity.
  Qed.
  Theorem C59_raises_refuted out gi go e s i en ve m c : b_inter e = Some i -> well_formed i en ve m -> b_cache_file e = Some c ->
    fst (build out gi go e s) = Raise AttributeError.
  Proof.
    intros I W C. destruct (stored_ok _ _ _ _ W) as (x & u & S & _ & D). unfold make_matrix, make_matrix_with.
    rewrite I, C. cbn [bind]. rewrite S. cbn [bind fst]. rewrite D. reflexivity.
  Qed.

  (** ** With the file name as a Path: what is written. *)
  Definition old_entries (s : bstate) (m : list (string * raw brest)) : Prop :=
    match b_index s with
    | Some f => f_version f = Some 1 /\ f_matrix f = Some m
    | None => m = []
    end.
  Definition method_of (e : bentry) (m : string) : Prop :=
    exists i, b_inter e = Some i /\ (i_method (bi i) = Some (MName m) \/ i_method (bi i) = Some (MObject (Some m))).
  Theorem C59_built_partial out gi go e s s' : build' out gi go e s = (Ok tt, s') ->
    exists i c b z m r dir name di do,
      let key := sha_key (b_input e) (b_output e) i in
      b_inter e = Some i /\ b_cache_file e = Some c /\
      (* the matrix decoded from the cache file ... *)
      alookup c (b_files s) = Some (Mir.Raw b) /\ Mir.mir_cached_matrix_to_array b = Ok z /\
      (* ... is where the entry says *)
      (forall en : entry brest, e_raw en = r -> e_name en = key ->
         exists p, matrix_path en = Ok p /\ alookup (join_path out p) (b_files s') = Some (Mir.Npz z) /\
           forall q, q <> join_path out p -> alookup q (b_files s') = alookup q (b_files s)) /\
      matrix_dir_name r = Ok dir /\
      (* the index: the old entries and the new one *)
      old_entries s m /\ b_index s' = Some (mkFile (Some 1) (Some (aset key r m))) /\
      method_of e name /\ interpolation_method_name r = Ok name /\
      convert (with_global gi (b_input e)) = Ok di /\ r_input r = Some di /\
      convert (with_global go (b_output e)) = Ok do /\ r_output r = Some do /\
      br_memory (r_rest r) = memory_size z /\
      exists x, r_inter r = Some x /\ stored_inter sha_inter i = Ok (x, br_uid (r_rest r)).
  Proof.
    intros H. unfold make_matrix_repaired, make_matrix_with in H.
    destruct (b_inter e) as [i|] eqn:BI; [|discriminate H]. cbn [bind] in H.
    destruct (stored_inter sha_inter i) as [[x u]|y|] eqn:S; try discriminate H. cbn [bind fst] in H.
    destruct (matrix_dir_name (just_inter x)) as [dir|y|] eqn:D; try discriminate H. cbn [bind] in H.
    destruct (b_cache_file e) as [c|]; [|discriminate H]. cbn [bind] in H.
    set (key := sha_key (b_input e) (b_output e) i) in *. set (npz := join_path (join_path out dir) (key ++ ".npz")) in *.
    cbn [Mir.mir_cached_matrix_to_file] in H. destruct (String.eqb (Mir.suffix npz) ".npz"); [|discriminate H]. cbn [negb] in H.
    destruct (alookup c (b_files s)) as [[b|z]|] eqn:A; try discriminate H.
    destruct (Mir.mir_cached_matrix_to_array b) as [z|y|] eqn:Z; try discriminate H.
    destruct (open_index (b_index s)) as [f|y|] eqn:O; try discriminate H. cbn [bind] in H.
    rewrite alookup_aset_eq in H. cbn [bind] in H.
    destruct (convert (with_global gi (b_input e))) as [di|y|] eqn:CI; try discriminate H. cbn [bind] in H.
    destruct (convert (with_global go (b_output e))) as [do|y|] eqn:CO; try discriminate H. cbn [bind] in H.
    destruct (b_nnz e) as [n|]; [|discriminate H]. cbn [bind] in H.
    destruct (f_matrix f) as [m|] eqn:M; [|discriminate H]. cbn [bind] in H. inversion H; subst s'; clear H. cbn [b_files b_index].
    assert (NM : exists name, interpolation_method_name (just_inter (bi i)) = Ok name /\ interpolation_method_name (just_inter x) = Ok name).
    { unfold stored_inter in S. destruct (interpolation_method_name (just_inter (bi i))) as [name|y|] eqn:N; try discriminate S. cbn [bind] in S.
      destruct (make_interpolation_uid sha_inter i) as [uid|y|]; try discriminate S. cbn [bind] in S.
      exists name. split; [reflexivity|]. destruct (negb (String.eqb uid name)); inversion S; subst; [exact N|reflexivity]. }
    destruct NM as (name & N1 & N2).
    assert (ND : dir <> "").
    { unfold matrix_dir_name in D. cbn [just_inter r_inter] in D. destruct (i_engine x), (i_version x); try discriminate D.
      destruct (interpolation_method_name _) in D; try discriminate D. cbn [bind] in D. inversion D. apply sapp_nonempty_r. discriminate. }
    assert (FV : f_version f = Some 1 /\ old_entries s m).
    { unfold open_index in O. unfold old_entries. destruct (b_index s) as [f0|].
      - destruct (f_version f0) as [v|] eqn:V; [|discriminate O]. destruct (Z.eqb_spec v VERSION) as [->|]; [|discriminate O].
        inversion O; subst. auto.
      - inversion O; subst. inversion M. auto. }
    destruct FV as [FV OE]. rewrite FV.
    exists i, c, b, z, m, (mkRaw (Some di) (Some do) (Some x) (mkRest u n (memory_size z))), dir, name, di, do.
    cbv zeta. split; [reflexivity|]. split; [reflexivity|]. split; [exact A|]. split; [exact Z|]. split.
    { intros en R E. exists (join_path dir (key ++ ".npz")). unfold matrix_path. rewrite R, E. fold key.
      assert (DX : matrix_dir_name (mkRaw (Some di) (Some do) (Some x) (mkRest u n (memory_size z))) = Ok dir) by exact D.
      rewrite DX. split; [reflexivity|]. rewrite <- join_assoc; [|exact ND|apply sapp_nonempty_r; discriminate].
      split; [apply alookup_aset_eq|]. intros q Q. apply alookup_aset_neq. intros E'. apply Q. symmetry. exact E'. }
    split; [exact D|]. split; [exact OE|]. split; [reflexivity|]. split.
    { exists i. split; [exact BI|]. unfold interpolation_method_name in N1. cbn [just_inter r_inter] in N1.
      destruct (i_method (bi i)) as [[t|[t|]|]|]; inversion N1; auto. }
    split; [exact N2|]. do 5 (split; [first [exact CI|exact CO|reflexivity]|]). exists x. split; [reflexivity|exact S].
  Qed.

  (** The options global_input and global_output never overrule what MIR recorded: for a grid that
      has the key, asking makes no difference. *)
  Theorem C59_recorded_global out gi go e s :
    (g_global (b_input e) <> None -> build' out gi go e s = build' out None go e s) /\
    (g_global (b_output e) <> None -> build' out gi go e s = build' out gi None e s).
  Proof.
    assert (W : forall b g, g_global g <> None -> with_global b g = g).
    { intros [b|] g N; unfold with_global; [|reflexivity]. destruct (g_global g); [reflexivity|contradiction]. }
    split; intros N; unfold make_matrix_repaired, make_matrix_with; rewrite (W _ _ N), (W None _ N); reflexivity.
  Qed.

  (** It does succeed: a decodable cache file, grids of a known type, an index of version 1 or none. *)
  Theorem C59_succeeds_partial out gi go e s i en ve m c b z n old di do : b_inter e = Some i -> well_formed i en ve m ->
    sha_key (b_input e) (b_output e) i <> "" -> slash_free (sha_key (b_input e) (b_output e) i) ->
    b_cache_file e = Some c -> b_nnz e = Some n -> alookup c (b_files s) = Some (Mir.Raw b) ->
    Mir.mir_cached_matrix_to_array b = Ok z -> old_entries s old ->
    convert (with_global gi (b_input e)) = Ok di -> convert (with_global go (b_output e)) = Ok do ->
    fst (build' out gi go e s) = Ok tt.
  Proof.
    intros I W K SF C N A Z O CI CO. destruct (stored_ok _ _ _ _ W) as (x & u & S & _ & D). unfold make_matrix_repaired, make_matrix_with.
    rewrite I, C. cbn [bind]. rewrite S. cbn [bind fst]. rewrite D. cbn [bind Mir.mir_cached_matrix_to_file].
    rewrite suffix_npz by auto. rewrite String.eqb_refl. cbn [negb]. rewrite A, Z.
    assert (F : exists f, open_index (b_index s) = Ok f /\ f_matrix f = Some old).
    { unfold old_entries in O. unfold open_index. destruct (b_index s) as [f|].
      - destruct O as [V M]. rewrite V. exists f. split; [reflexivity|exact M].
      - subst. eexists. split; reflexivity. }
    destruct F as (f & -> & M). cbn [bind]. rewrite alookup_aset_eq. cbn [bind]. rewrite CI, CO, N, M. reflexivity.
  Qed.

  (** ** And it is found by the natural specification of its grids. *)
  Section Find.
    Variables (py_str : val -> string) (key_order : list string) (fuel : nat).
    Hypothesis HK : incl key_order COMPARE_KEYS.
    Hypothesis HF : (12 <= fuel)%nat.

    Lemma natural_loads g d : natural g d -> exists dg a b, convert g = Ok dg /\ from_dict dg = Ok a /\ from_dict d = Ok b /\ compares py_str key_order fuel a b true.
    Proof using HK HF. intros N. exact (matched py_str key_order fuel HK g d HF N). Qed.

    Lemma aset_split {A} k (v : A) l : exists pre post, aset k v l = pre ++ (k, v) :: post /\
      forall q, In q (pre ++ post) -> In q l /\ (NoDup (akeys l) -> fst q <> k).
    Proof.
      induction l as [|[k' v'] l IH]; cbn.
      - exists [], []. split; [reflexivity|]. intros q [].
      - destruct (String.eqb_spec k k') as [->|D].
        + exists [], l. split; [reflexivity|]. intros q I. split; [right; exact I|]. intros N E. inversion N as [|? ? N1 N2].
          apply N1. rewrite <- E, akeys_map. apply (in_map fst). exact I.
        + destruct IH as (pre & post & E & P). exists ((k', v') :: pre), post. rewrite E. split; [reflexivity|].
          intros q [<-|I]; [split; [left; reflexivity|intros _; cbn; congruence]|]. destruct (P q I) as [P1 P2]. split; [right; exact P1|].
          intros N. inversion N; subst. auto.
    Qed.
    Lemma loaded_app (l1 l2 : list (string * raw brest)) : loaded (l1 ++ l2) = loaded l1 ++ loaded l2.
    Proof. unfold loaded. apply flat_map_app. Qed.
    Lemma loaded_from (l : list (string * raw brest)) n en : In (n, en) (loaded l) -> exists r, In (n, r) l /\ reads n r en.
    Proof.
      intros I. unfold loaded in I. apply in_flat_map in I. destruct I as ((k & r) & I & J). cbn [fst snd] in J.
      destruct (load_entry k r) as [x|y|] eqn:E; [|destruct J..]. destruct J as [J|[]]. inversion J; subst. exists r. split; [exact I|]. apply load_entry_reads. exact E.
    Qed.

    (** [i] is the new index after any lookups. *)
    Theorem C59_found_partial out gi go e s s' old di do m :
      build' out gi go e s = (Ok tt, s') -> old_entries s old -> NoDup (akeys old) ->
      natural (with_global gi (b_input e)) di -> natural (with_global go (b_output e)) do -> method_of e m ->
      exists f i0 key en, b_index s' = Some f /\ load [] f = Ok i0 /\
        (exists i, b_inter e = Some i /\ key = sha_key (b_input e) (b_output e) i) /\
        In (key, en) i0 /\ e_name en = key /\
        (forall n x, In (n, x) i0 -> n = key /\ x = en \/ exists r, In (n, r) old /\ reads n r x) /\
        (* the request has an answer ... *)
        (forall i, used_index fuel i0 i -> snd (find py_str key_order fuel i di do m) <> Ok None) /\
        (* ... which is the new entry unless another one answers *)
        (forall i a b, used_index fuel i0 i -> request di do a b ->
           (forall n x, In (n, x) i0 -> n <> key -> does_not_answer py_str key_order fuel x a b m) ->
           exists x, snd (find py_str key_order fuel i di do m) = Ok (Some x) /\ e_name x = key).
    Proof using HK HF.
      intros B OE ND N1 N2 M. destruct (C59_built_partial _ _ _ _ _ _ B) as (i & c & b & z & m0 & r & dir & name & d1 & d2 & X).
      cbv zeta in X. destruct X as (I & C & A & Z & P & D & OE' & BI & MO & MN & C1 & R1 & C2 & R2 & _).
      set (key := sha_key (b_input e) (b_output e) i) in *.
      assert (m0 = old) as ->.
      { unfold old_entries in *. destruct (b_index s) as [f|]; [destruct OE, OE'; congruence|congruence]. }
      assert (name = m) as ->.
      { destruct M as (i1 & I1 & M1), MO as (i2 & I2 & M2). assert (i1 = i2) by congruence. subst i2. destruct M1, M2; congruence. }
      destruct (natural_loads _ _ N1) as (d1' & a1 & b1 & E1 & F1 & G1 & K1). assert (d1' = d1) by congruence. subst d1'.
      destruct (natural_loads _ _ N2) as (d2' & a2 & b2 & E2 & F2 & G2 & K2). assert (d2' = d2) by congruence. subst d2'.
      set (en := mkEntry a1 a2 key r).
      assert (LE : load_entry key r = Ok en) by (unfold load_entry; rewrite R1, R2, F1; cbn [bind]; rewrite F2; reflexivity).
      assert (AN : answers py_str key_order fuel en b1 b2 m) by (split; [exact MN|split; assumption]).
      destruct (aset_split key r old) as (pre & post & AS & AP).
      assert (L0 : loaded (aset key r old) = loaded pre ++ (key, en) :: loaded post).
      { rewrite AS, loaded_app. f_equal. cbn [loaded flat_map fst snd]. rewrite LE. reflexivity. }
      assert (NK : NoDup (akeys (aset key r old))) by (apply NoDup_aset, ND).
      exists (mkFile (Some 1) (Some (aset key r old))), (loaded (aset key r old)), key, en.
      split; [exact BI|]. split; [apply load_loaded; [reflexivity|reflexivity|exact NK]|].
      split; [exists i; auto|]. split; [rewrite L0; apply in_or_app; right; left; reflexivity|]. split; [reflexivity|]. split; [|split].
      - intros n x H. rewrite L0 in H. apply in_app_or in H.
        assert (Y : forall l, incl l (pre ++ post) -> In (n, x) (loaded l) -> exists r0, In (n, r0) old /\ reads n r0 x).
        { intros l IL J. apply loaded_from in J. destruct J as (r0 & J & Q). exists r0. split; [|exact Q]. apply (AP (n, r0)). apply IL, J. }
        destruct H as [H|[H|H]].
        + right. apply (Y pre); [apply incl_appl, incl_refl|exact H].
        + left. inversion H. auto.
        + right. apply (Y post); [apply incl_appr, incl_refl|exact H].
      - intros idx U H. apply (C30_nothing py_str key_order fuel (loaded (aset key r old)) idx di do m b1 b2 U (conj G1 G2)) in H.
        rewrite Forall_forall in H. specialize (H (key, en)). rewrite L0 in H. specialize (H ltac:(apply in_or_app; right; left; reflexivity)).
        destruct H as (t & T & [Q|[Q|[_ Q]]]); destruct AN as (A1 & A2 & A3); cbn [snd] in *.
        + congruence.
        + unfold compares in *. congruence.
        + unfold compares in *. congruence.
      - intros idx a a' U [Ra Ra'] H. assert (a = b1) by congruence. assert (a' = b2) by congruence. subst a a'.
        destruct (C30_complete py_str key_order fuel (loaded (aset key r old)) idx di do m b1 b2 (loaded pre) key en (loaded post) U (conj G1 G2) L0 AN) as (x & Fx & Ux).
        + apply Forall_forall. intros [n x] J. cbn [snd]. apply (H n x); [rewrite L0; apply in_or_app; left; exact J|].
          apply loaded_from in J. destruct J as (r0 & J & _). exact (proj2 (AP (n, r0) (in_or_app _ _ _ (or_introl J))) ND).
        + exists x. split; [exact Fx|]. destruct Ux as (_ & _ & Q & _). exact Q.
    Qed.

    (** ** C88: a request by the name of the method is answered with other options than the default ones. *)
    Theorem C88_refuted out gi go e1 e2 i1 i2 s s1 s2 di do m u :
      b_index s = None -> b_inter e1 = Some i1 -> b_inter e2 = Some i2 -> method_of e1 m -> method_of e2 m ->
      b_input e1 = b_input e2 -> b_output e1 = b_output e2 ->
      sha_key (b_input e1) (b_output e1) i1 <> sha_key (b_input e2) (b_output e2) i2 ->
      option_map snd (match stored_inter sha_inter i1 with Ok p => Some p | _ => None end) = Some (Some u) ->
      option_map snd (match stored_inter sha_inter i2 with Ok p => Some p | _ => None end) = Some None ->
      build' out gi go e1 s = (Ok tt, s1) -> build' out gi go e2 s1 = (Ok tt, s2) ->
      natural (with_global gi (b_input e1)) di -> natural (with_global go (b_output e1)) do ->
      exists f i0 x y, b_index s2 = Some f /\ load [] f = Ok i0 /\
        (forall i, used_index fuel i0 i -> exists x', snd (find py_str key_order fuel i di do m) = Ok (Some x') /\ used_entry fuel x x') /\
        br_uid (r_rest (e_raw x)) = Some u /\
        In (e_name y, y) i0 /\ br_uid (r_rest (e_raw y)) = None /\
        (forall a b, request di do a b -> answers py_str key_order fuel y a b m).
    Proof using HK HF.
      intros S0 I1 I2 M1 M2 GI GO KD U1 U2 B1 B2 N1 N2.
      destruct (C59_built_partial _ _ _ _ _ _ B1) as (j1 & c1 & t1 & z1 & m1 & r1 & dir1 & n1 & d1 & o1 & X).
      cbv zeta in X. destruct X as (J1 & _ & _ & _ & _ & _ & OE1 & BI1 & MO1 & MN1 & C1 & R1 & Co1 & Ro1 & _ & x1 & _ & V1).
      destruct (C59_built_partial _ _ _ _ _ _ B2) as (j2 & c2 & t2 & z2 & m2 & r2 & dir2 & n2 & d2 & o2 & X).
      cbv zeta in X. destruct X as (J2 & _ & _ & _ & _ & _ & OE2 & BI2 & MO2 & MN2 & C2 & R2 & Co2 & Ro2 & _ & x2 & _ & V2).
      assert (j1 = i1) by congruence. assert (j2 = i2) by congruence. subst j1 j2.
      rewrite V1 in U1. rewrite V2 in U2. cbn in U1, U2. injection U1 as U1'. injection U2 as U2'.
      set (k1 := sha_key (b_input e1) (b_output e1) i1) in *. set (k2 := sha_key (b_input e2) (b_output e2) i2) in *.
      unfold old_entries in OE1, OE2. rewrite S0 in OE1. rewrite BI1 in OE2. subst m1. destruct OE2 as [_ OE2]. cbn [f_matrix aset] in OE2.
      inversion OE2; subst m2. clear OE2.
      assert (NM : forall e n, method_of e n -> method_of e m -> n = m).
      { intros e n (a & A & Q) (b & B & P). assert (a = b) by congruence. subst b. destruct Q, P; congruence. }
      rewrite (NM _ _ MO1 M1) in MN1. rewrite (NM _ _ MO2 M2) in MN2.
      rewrite <- GI in C2. rewrite <- GO in Co2. assert (d2 = d1) by congruence. assert (o2 = o1) by congruence. subst d2 o2.
      destruct (natural_loads _ _ N1) as (d' & a1 & b1 & E1 & F1 & G1 & K1). assert (d' = d1) by congruence. subst d'.
      destruct (natural_loads _ _ N2) as (d' & a2 & b2 & E2 & F2 & G2 & K2). assert (d' = o1) by congruence. subst d'.
      set (x := mkEntry a1 a2 k1 r1). set (y := mkEntry a1 a2 k2 r2).
      assert (LX : load_entry k1 r1 = Ok x) by (unfold load_entry; rewrite R1, Ro1, F1; cbn [bind]; rewrite F2; reflexivity).
      assert (LY : load_entry k2 r2 = Ok y) by (unfold load_entry; rewrite R2, Ro2, F1; cbn [bind]; rewrite F2; reflexivity).
      assert (AS : aset k2 r2 [(k1, r1)] = [(k1, r1); (k2, r2)]).
      { cbn. destruct (String.eqb_spec k2 k1); [congruence|reflexivity]. }
      rewrite AS in BI2.
      assert (NK : NoDup (akeys [(k1, r1); (k2, r2)])) by (cbn; repeat (constructor; [cbn; intuition congruence|]); constructor).
      assert (L0 : loaded [(k1, r1); (k2, r2)] = [(k1, x); (k2, y)]) by (cbn [loaded flat_map fst snd]; rewrite LX, LY; reflexivity).
      exists (mkFile (Some 1) (Some [(k1, r1); (k2, r2)])), [(k1, x); (k2, y)], x, y.
      split; [exact BI2|]. split; [rewrite <- L0; apply load_loaded; [reflexivity|reflexivity|exact NK]|]. split; [|split; [exact U1'|split; [right; left; reflexivity|split; [exact U2'|]]]].
      - intros i U. apply (C30_complete py_str key_order fuel [(k1, x); (k2, y)] i di do m b1 b2 [] k1 x [(k2, y)] U (conj G1 G2) eq_refl); [|constructor].
        split; [exact MN1|split; assumption].
      - intros a b [Ra Rb]. assert (a = b1) by congruence. assert (b = b2) by congruence. subst. split; [exact MN2|split; assumption].
    Qed.
  End Find.

  (** Entries made with other options carry a "_uid", entries made with the default ones do not. *)
  Definition default_options (i : binter) (m : string) : Prop :=
    (i_method (bi i) = Some (MName m) /\ bi_others i = []) \/
    (m = "grid-box-average" /\ i_method (bi i) = Some (MObject (Some m)) /\ bi_default i = true).
  Theorem C88_uid_partial i en ve m x u : well_formed i en ve m -> stored_inter sha_inter i = Ok (x, u) -> sha_inter i <> m ->
    (m = "grid-box-average" -> i_method (bi i) = Some (MName m) -> bi_others i = []) ->
    (u = None <-> default_options i m).
  Proof.
    intros W S NS Q. pose proof W as (E & V & M). unfold stored_inter, make_interpolation_uid in S. rewrite (method_ok _ _ _ _ W) in S. cbn [bind] in S.
    unfold is_gridbox_default, is_object, just_three in S. rewrite E, V in S. unfold default_options.
    destruct M as [M|M]; rewrite M in *.
    - destruct (String.eqb_spec m "grid-box-average") as [->|NG]; cbn [andb] in S.
      + rewrite String.eqb_refl in S. cbn [negb] in S. inversion S. split; [intros _; left; auto|auto].
      + destruct (bi_others i) as [|k l].
        * rewrite String.eqb_refl in S. cbn [negb] in S. inversion S. split; [intros _; left; auto|auto].
        * destruct (String.eqb_spec (sha_inter i) m); [contradiction|]. cbn [negb] in S. inversion S. split; [discriminate|].
          intros [[_ A]|(A & _)]; [discriminate A|contradiction].
    - destruct (String.eqb_spec m "grid-box-average") as [->|NG]; cbn [andb] in S.
      + destruct (bi_default i).
        * rewrite String.eqb_refl in S. cbn [negb] in S. inversion S. split; [intros _; right; auto|auto].
        * destruct (String.eqb_spec (sha_inter i) "grid-box-average"); [contradiction|]. cbn [negb] in S. inversion S. split; [discriminate|].
          intros [[A _]|(_ & _ & A)]; discriminate A.
      + destruct (String.eqb_spec (sha_inter i) m); [contradiction|]. cbn [negb] in S. inversion S. split; [discriminate|].
        intros [[A _]|(A & _)]; [discriminate A|contradiction].
  Qed.
  (** The exception: options given beside the name of that method are not seen. *)
  Theorem C88_gridbox_refuted i en ve k l : well_formed i en ve "grid-box-average" -> i_method (bi i) = Some (MName "grid-box-average") ->
    bi_others i = k :: l -> exists x, stored_inter sha_inter i = Ok (x, None) /\ ~ default_options i "grid-box-average".
  Proof.
    intros W M O. unfold stored_inter, make_interpolation_uid. rewrite (method_ok _ _ _ _ W). cbn [bind]. unfold is_gridbox_default. rewrite M.
    cbn [andb String.eqb Ascii.eqb Bool.eqb negb]. eexists. split; [reflexivity|]. intros [[_ A]|(_ & A & _)]; congruence.
  Qed.
End B.

(** ** The shape of octahedral grids, and where the names and areas go wrong *)
Theorem C59_octahedral_partial n gl a b c d : (2 <= n)%nat ->
  convert (mkGrid (KRGG (octahedral_rows n) (Z.of_nat n) a b c d) gl) =
  Ok (add_global (mkGrid KOther gl) [("grid", VStr ("O" ++ show_Z (Z.of_nat n)));
       ("shape", VList [VInt (4 * Z.of_nat n * (Z.of_nat n + 9))]); ("area", VList [a; b; c; d])]).
Proof.
  intros H. unfold convert. cbn [g_kind]. rewrite rows_sum. destruct (rows_start n H) as (r & ->). reflexivity.
Qed.
(** O1 is stored as N1. *)
Theorem C59_o1_refuted a b c d gl : exists e, convert (mkGrid (KRGG (octahedral_rows 1) 1 a b c d) gl) = Ok e /\
  alookup "grid" e = Some (VStr "N1").
Proof. eexists. split; [reflexivity|]. destruct gl; reflexivity. Qed.

Section Refuted.
  Variable py_str : val -> string.
  Definition looked_up (g : mgrid) (d : dict) : result bool :=
    dg <- convert g ;; a <- from_dict dg ;; b <- from_dict d ;; snd (eq py_str COMPARE_KEYS 20 a b).
  (** A global grid without the flag, its bounding box rounded as MIR does: not found by its name. *)
  Definition n32 := KRGG (20 :: 27 :: repeat 0 62) 32 (fl 878638 10000) (VInt 0) (fl (-878638) 10000) (fl 357188 1000).
  Theorem C59_undeclared_refuted : looked_up (mkGrid n32 None) [("grid", VStr "N32")] = Ok false /\
    looked_up (mkGrid n32 (Some (VInt 1))) [("grid", VStr "N32")] = Ok true.
  Proof. split; vm_compute; reflexivity. Qed.
  (** A global grid with increments outside the table, its latitudes multiples of them. *)
  Theorem C59_increments_refuted :
    looked_up (mkGrid (KLL (fl 11 10) (fl 11 10) (VInt 163) (VInt 328) (fl 891 10) (VInt 0) (fl (-891) 10) (fl 3597 10)) (Some (VInt 1)))
      [("grid", VList [fl 11 10; fl 11 10])] = Ok false.
  Proof. vm_compute. reflexivity. Qed.
End Refuted.

(** ** The hypotheses are met: O32 to 10/10, declared global by the caller *)
Definition o32 := mkGrid (KRGG (octahedral_rows 32) 32 (fl 878638 10000) (VInt 0) (fl (-878638) 10000) (fl 3575 10)) None.
Definition ten := mkGrid (KLL (VInt 10) (VInt 10) (VInt 19) (VInt 36) (VInt 90) (VInt 0) (VInt (-90)) (VInt 350)) None.
Definition plain_linear := mkBinter (mkInter (Some "mir") (Some "16") (Some (MName "linear"))) false [].
Definition other_linear := mkBinter (mkInter (Some "mir") (Some "16") (Some (MObject (Some "linear")))) false [].
Definition ex_matrix := Mir.mkCsrz 2 3 [0; 1; 3] [2; 0; 1] [4607182418800017408; 0; 18446744073709551615].
Definition ex_file := MirSpec.matrix_file (MirSpec.mkHeader 3 1 4 8 8) ex_matrix.
Definition ex_entry i := mkBentry o32 ten (Some i) (Some "cache.mat") (Some 3).
Definition ex_start := mkB [("cache.mat", Mir.Raw ex_file)] None.
Definition ex_sha (i : binter) : string := if is_object i then "aa" else "bb".
Definition ex_key (_ _ : mgrid) (i : binter) : string := if is_object i then "k1" else "k2".
Definition ex_build i s := make_matrix_repaired ex_sha ex_key (fun _ => 0) "out" (Some true) (Some true) (ex_entry i) s.

Example C59_natural_met : natural (with_global (Some true) o32) [("grid", VStr "o32")] /\
  natural (with_global (Some true) ten) [("grid", VList [VInt 10; VInt 10])] /\ method_of (ex_entry plain_linear) "linear".
Proof.
  split; [|split].
  - destruct (small_number (fl 878638 10000)) as (n & Nn & _); [vm_compute; reflexivity|].
    destruct (small_number (fl (-878638) 10000)) as (s & Ns & _); [vm_compute; reflexivity|].
    destruct (small_number (fl 3575 10)) as (e & Ne & Be); [vm_compute; reflexivity|].
    apply (nat_gg_global _ _ _ _ _ _ _ _ n 0%R s e).
    + split; [lia|]. exists "o"%char. split; [reflexivity|]. left. split; [right; left; reflexivity|]. split; [reflexivity|lia].
    + exact Nn.
    + split; [apply (number_int 0); lia|]. rewrite Rabs_R0. lra.
    + exact Ns.
    + split; [exact Ne|lra].
    + left. exists (VInt 1). split; [reflexivity|constructor; lia].
    + exists 0. lra.
  - assert (B10 : (Rabs 10 <= 360)%R) by (rewrite Rabs_pos_eq; lra).
    apply (nat_ll_global _ _ _ _ _ _ _ _ _ 10%R 90%R 0%R (-90)%R 350%R (VInt 90) (VInt 0) (VInt (-90)) (VInt 350) 90%R (-90)%R);
      try (split; [exact I|cbn; lia]); try (apply (number_int _); lia); try exact B10.
    + split; [apply (number_int 0); lia|]. rewrite Rabs_R0. lra.
    + split; [apply (number_int 350); lia|]. rewrite Rabs_pos_eq; lra.
    + left. exists (VInt 1). split; [reflexivity|constructor; lia].
    + exists 0. lra.
    + left. exists 10000. split; [|vm_compute; auto]. vm_compute. tauto.
    + replace (90 - 90)%R with 0%R by ring. rewrite Rabs_R0. lra.
    + replace (-90 - -90)%R with 0%R by ring. rewrite Rabs_R0. lra.
  - exists plain_linear. split; [reflexivity|left; reflexivity].
Qed.
Example C59_build_met : fst (ex_build plain_linear ex_start) = Ok tt.
Proof. vm_compute. reflexivity. Qed.
Example C88_hyp_met : fst (ex_build other_linear ex_start) = Ok tt /\
  fst (ex_build plain_linear (snd (ex_build other_linear ex_start))) = Ok tt /\
  stored_inter ex_sha other_linear = Ok (bi other_linear, Some "aa") /\ stored_inter ex_sha plain_linear = Ok (bi plain_linear, None).
Proof. repeat split; vm_compute; reflexivity. Qed.

Print Assumptions C59_refuted.
Print Assumptions C59_raises_refuted.
Print Assumptions C59_built_partial.
Print Assumptions C59_succeeds_partial.
Print Assumptions C59_found_partial.
Print Assumptions C59_octahedral_partial.
Print Assumptions C59_o1_refuted.
Print Assumptions C59_undeclared_refuted.
Print Assumptions C59_increments_refuted.
Print Assumptions C88_refuted.
Print Assumptions C88_uid_partial.
Print Assumptions C88_gridbox_refuted.
Print Assumptions C59_recorded_global.
