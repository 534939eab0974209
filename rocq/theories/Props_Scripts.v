(** C143: merge_index.py and subset_remote_db.py as commands. *)
From Verif Require Import PyBase ListLemmas PyStr Float64 GridSpec Index Inventory Scripts.
From Verif Require Import Props_Index Props_Inventory.
Local Open Scope string_scope.
Local Open Scope list_scope.
Local Open Scope Z_scope.
Set Default Proof Using "Type".

Section Any.
  Context {rest weights : Type}.
  Variable served : string -> result (answer rest weights).
  Notation disk := (disk rest weights).
  Notation merge_main := (@merge_main rest weights served).
  Implicit Types (d : disk) (a : merge_args).

  Definition index_at (p : string) (d : disk) : option (content rest weights) := alookup (join_path p "index.json") (files d).
  (** There is a directory or file of this name. *)
  Definition there (p : string) (d : disk) : Prop := In p (dirs d) \/ exists c, alookup p (files d) = Some c.
  (** The place of the result can be used: it is a directory, or nothing yet. *)
  Definition usable (p : string) (d : disk) : Prop := p <> "" /\ (In p (dirs d) \/ alookup p (files d) = None).

  Lemma mem_dirs p l : existsb (String.eqb p) l = true <-> In p l.
  Proof. rewrite existsb_exists. split; [intros (x & I & E); apply String.eqb_eq in E; subst; exact I|intros I; exists p; split; [exact I|apply String.eqb_refl]]. Qed.
  Lemma exists_there p d : exists_ p d = true <-> there p d.
  Proof.
    unfold exists_, there, amem. rewrite orb_true_iff, mem_dirs. destruct (alookup p (files d)); split; intros [H|H]; auto; try discriminate; try (destruct H as [c H]; discriminate H). right. eauto.
  Qed.
  Lemma makedirs_files p d : files (snd (makedirs p d)) = files d.
  Proof. unfold makedirs. destruct (existsb _ _); [reflexivity|]. destruct (amem _ _); reflexivity. Qed.
  Lemma makedirs_dirs p d x : In x (dirs d) -> In x (dirs (snd (makedirs p d))).
  Proof. unfold makedirs. destruct (existsb _ _); [auto|]. destruct (amem _ _); cbn; auto. Qed.
  Lemma makedirs_only p d x : In x (dirs (snd (makedirs p d))) -> In x (dirs d) \/ x = p.
  Proof. clear served. unfold makedirs. destruct (existsb _ _); [auto|]. destruct (amem _ _); cbn; [auto|]. intros [E|I]; auto. Qed.
  Lemma makedirs_ok p d : usable p d -> fst (makedirs p d) = Ok tt.
  Proof.
    intros [_ U]. unfold makedirs. destruct (existsb _ _) eqn:E; [reflexivity|]. unfold amem. destruct (alookup p (files d)) eqn:F; [|reflexivity].
    exfalso. destruct U as [U|U]; [|congruence]. apply mem_dirs in U. congruence.
  Qed.

  (** Arguments that make no sense are refused before anything is touched, in both modes, with or
      without the module. *)
  Theorem C143_refused m a d : (~ there (ma_input a) d \/ ma_output a = "") -> merge_main m a d = (Raise ValueError, d).
  Proof.
    intros H. unfold Scripts.merge_main. destruct (exists_ (ma_input a) d) eqn:E; [|reflexivity]. cbn [negb].
    destruct H as [H|H]; [apply exists_there in E; contradiction|]. rewrite H. reflexivity.
  Qed.

  (** Local mode: the result is the index of the input directory; no other file changes and no
      directory but the output is made; nothing is asked of a server. *)
  Theorem C143_local m a d v ml : ma_mode a = Local -> ma_dry a = false -> there (ma_input a) d -> usable (ma_output a) d ->
    index_at (ma_input a) d = Some (IndexFile (mkFile v (Some ml))) ->
    exists d', merge_main m a d = (Ok tt, d') /\ index_at (ma_output a) d' = Some (IndexFile (mkFile v (Some ml))) /\
      (forall p, p <> join_path (ma_output a) "index.json" -> alookup p (files d') = alookup p (files d)) /\
      (forall x, In x (dirs d') <-> In x (dirs d) \/ x = ma_output a).
  Proof.
    intros M D T U I. apply exists_there in T. pose proof U as [NE _]. unfold Scripts.merge_main. rewrite T. cbn [negb].
    destruct (String.eqb_spec (ma_output a) ""); [contradiction|]. pose proof (makedirs_ok _ _ U) as OK. pose proof (makedirs_files (ma_output a) d) as FE.
    pose proof (makedirs_only (ma_output a) d) as DO. pose proof (makedirs_dirs (ma_output a) d) as DD.
    assert (MK : In (ma_output a) (dirs (snd (makedirs (ma_output a) d)))).
    { unfold makedirs in *. destruct (existsb _ _) eqn:E; [apply mem_dirs; exact E|]. destruct (amem _ _); [discriminate OK|left; reflexivity]. }
    destruct (makedirs (ma_output a) d) as [r d1]. cbn [fst snd] in *. subst r. rewrite M, D, FE. unfold index_at in *. rewrite (C89_copy (files d) (ma_input a) (join_path (ma_output a) "index.json") v ml I).
    eexists. split; [reflexivity|]. cbn [files dirs with_files]. split; [apply alookup_aset_eq|]. split.
    - intros p N. apply alookup_aset_neq. auto.
    - intros x. split; [apply DO|intros [X| ->]; [apply DD; exact X|exact MK]].
  Qed.

  (** System mode never works with the package as it is, whatever the server has: it stops when
      the module is looked for, with no file changed. *)
  Theorem C143_system_refuted a d : ma_mode a = System -> exists e, fst (merge_main no_module a d) = Raise e /\
    files (snd (merge_main no_module a d)) = files d /\
    (there (ma_input a) d -> usable (ma_output a) d -> e = ModuleNotFoundError).
  Proof.
    intros M. unfold Scripts.merge_main. pose proof (makedirs_files (ma_output a) d) as FE.
    destruct (exists_ (ma_input a) d) eqn:E; cbn [negb].
    - destruct (String.eqb_spec (ma_output a) "") as [->|NE]; [exists ValueError; split; [reflexivity|]; split; [reflexivity|]; intros _ [X _]; contradiction|].
      pose proof (makedirs_ok (ma_output a) d) as OK. assert (R : fst (makedirs (ma_output a) d) = Ok tt \/ fst (makedirs (ma_output a) d) = Raise FileExistsError).
      { unfold makedirs. destruct (existsb _ _); [auto|]. destruct (amem _ _); auto. }
      destruct (makedirs (ma_output a) d) as [r d1]. cbn [fst snd] in *. destruct R as [-> | ->].
      + rewrite M. exists ModuleNotFoundError. auto.
      + exists FileExistsError. split; [reflexivity|]. split; [exact FE|]. intros _ X. specialize (OK X). discriminate OK.
    - exists ValueError. split; [reflexivity|]. split; [reflexivity|]. intros X. apply exists_there in X. congruence.
  Qed.

  (** The files that system mode downloads. *)
  Definition remote_of (out : string) : string := join_path out "index.json.remote".

  (** With the module repaired.  The result has every entry of both indexes, the new ones first,
      under the version of the system index; the input is as before unless it is in the output
      directory; success is reported exactly if no name is in both. *)
  Theorem C143_system_partial url name a d vs ms vl ml :
    ma_mode a = System -> ma_dry a = false -> there (ma_input a) d -> usable (ma_output a) d ->
    served (join_path url name) = Ok (Gzipped (IndexFile (mkFile vs (Some ms)))) ->
    index_at (ma_input a) d = Some (IndexFile (mkFile vl (Some ml))) -> NoDup (akeys ms) -> NoDup (akeys ml) ->
    join_path (ma_input a) "index.json" <> remote_of (ma_output a) -> join_path (ma_input a) "index.json" <> (remote_of (ma_output a) ++ ".gz")%string ->
    exists r d' m, merge_main (Some (url, name)) a d = (r, d') /\
      index_at (ma_output a) d' = Some (IndexFile (mkFile vs (Some m))) /\
      (forall n, alookup n m = match alookup n ml with Some x => Some x | None => alookup n ms end) /\
      (forall p, p <> join_path (ma_output a) "index.json" -> p <> remote_of (ma_output a) -> p <> (remote_of (ma_output a) ++ ".gz")%string ->
         alookup p (files d') = alookup p (files d)) /\
      (r = Ok tt <-> disjoint ms ml).
  Proof.
    intros M D T U S I N1 N2 X1 X2. apply exists_there in T. pose proof U as [NE _]. unfold Scripts.merge_main. rewrite T. cbn [negb].
    destruct (String.eqb_spec (ma_output a) ""); [contradiction|]. pose proof (makedirs_ok _ _ U) as OK. pose proof (makedirs_files (ma_output a) d) as FE.
    destruct (makedirs (ma_output a) d) as [r d1]. cbn [fst snd] in *. subst r. rewrite M, D. unfold download_index_file. rewrite S. cbn [files with_files dirs]. rewrite FE.
    fold (remote_of (ma_output a)). set (R := remote_of (ma_output a)) in *. set (f2 := aset R (IndexFile (mkFile vs (Some ms))) (aset (R ++ ".gz") Other (files d))).
    assert (TM : to_merge f2 (ma_input a) R vs ms vl ml).
    { split; [apply alookup_aset_eq|]. split; [|auto]. unfold f2. rewrite alookup_aset_neq by auto. rewrite alookup_aset_neq by auto. exact I. }
    pose proof (C89_written f2 (ma_input a) (join_path (ma_output a) "index.json") R vs ms vl ml TM) as (m & W1 & W2 & W3).
    pose proof (C89_success_partial f2 (ma_input a) (join_path (ma_output a) "index.json") R vs ms vl ml TM) as W4.
    destruct (merge (ma_input a) (join_path (ma_output a) "index.json") (Some R) false f2) as [r f3]. cbn [fst snd] in *.
    exists r, (mkDisk f3 (dirs d1)), m. split; [reflexivity|]. split; [exact W1|]. split; [exact W2|]. split; [|exact W4].
    intros p P1 P2 P3. cbn [files]. rewrite (W3 p P1). unfold f2. rewrite alookup_aset_neq by auto. apply alookup_aset_neq. auto.
  Qed.

  (** A failed download never leads to a merged index: if the server refuses, or sends something
      that is no gzip file, the index of the output directory stays as it was. *)
  Theorem C143_download a d url name : ma_mode a = System ->
    (forall c, served (join_path url name) <> Ok (Gzipped c)) ->
    fst (merge_main (Some (url, name)) a d) <> Ok tt /\ index_at (ma_output a) (snd (merge_main (Some (url, name)) a d)) = index_at (ma_output a) d.
  Proof.
    intros M S. unfold Scripts.merge_main. destruct (exists_ (ma_input a) d); cbn [negb]; [|split; [discriminate|reflexivity]].
    destruct (String.eqb (ma_output a) ""); [split; [discriminate|reflexivity]|]. pose proof (makedirs_files (ma_output a) d) as FE.
    destruct (makedirs (ma_output a) d) as [[[]|e|] d1]; cbn [fst snd] in *; unfold index_at in *; try (rewrite FE; split; [discriminate|reflexivity]).
    rewrite M. unfold download_index_file. destruct (served (join_path url name)) as [[c|]|e|] eqn:E; cbn [fst snd files with_files]; try (rewrite FE; split; [discriminate|reflexivity]).
    - destruct (S c eq_refl).
    - split; [discriminate|]. rewrite FE. apply alookup_aset_neq. intros Q. apply (f_equal last_char) in Q.
      rewrite last_char_app in Q by discriminate. rewrite last_char_join in Q by discriminate. discriminate Q.
  Qed.

  (** A dry run changes no index.json, and in local mode no file. *)
  Theorem C143_dry m a d : ma_dry a = true ->
    (ma_mode a = Local -> files (snd (merge_main m a d)) = files d) /\ index_at (ma_output a) (snd (merge_main m a d)) = index_at (ma_output a) d.
  Proof.
    intros D. unfold Scripts.merge_main. destruct (exists_ (ma_input a) d); cbn [negb]; [|split; reflexivity].
    destruct (String.eqb (ma_output a) ""); [split; reflexivity|]. pose proof (makedirs_files (ma_output a) d) as FE.
    destruct (makedirs (ma_output a) d) as [[[]|e|] d1]; cbn [fst snd] in *; unfold index_at; try (rewrite FE; split; reflexivity).
    rewrite D. destruct (ma_mode a).
    - pose proof (C89_quiet (files d1) (ma_input a) (join_path (ma_output a) "index.json") None) as [Q _].
      destruct (merge (ma_input a) (join_path (ma_output a) "index.json") None true (files d1)) as [r f]. cbn [fst snd files with_files] in *. subst f. rewrite FE. split; reflexivity.
    - split; [discriminate|]. unfold download_index_file. destruct m as [[url name]|]; [|cbn; rewrite FE; reflexivity].
      set (R := join_path (ma_output a) "index.json.remote").
      assert (K : forall s, last_char s <> Some "n"%char -> forall c f, alookup (join_path (ma_output a) "index.json") (aset s c f) = alookup (join_path (ma_output a) "index.json") (f : fs rest weights)).
      { intros s L c f. apply alookup_aset_neq. intros Q. apply L. rewrite Q. rewrite last_char_join by discriminate. reflexivity. }
      assert (LG : last_char (R ++ ".gz") <> Some "n"%char) by (rewrite last_char_app by discriminate; cbn; discriminate).
      assert (LR : last_char R <> Some "n"%char) by (unfold R; rewrite last_char_join by discriminate; cbn; discriminate).
      destruct (served (join_path url name)) as [[c|]|e|]; cbn [fst snd files with_files]; try (rewrite FE; reflexivity).
      + pose proof (C89_quiet (aset R c (aset (R ++ ".gz") Other (files d1))) (ma_input a) (join_path (ma_output a) "index.json") (Some R)) as [Q _].
        destruct (merge (ma_input a) (join_path (ma_output a) "index.json") (Some R) true (aset R c (aset (R ++ ".gz") Other (files d1)))) as [r f]. cbn [fst snd files with_files] in *. subst f.
        rewrite (K R LR), (K (R ++ ".gz")%string LG), FE. reflexivity.
      + rewrite (K (R ++ ".gz")%string LG), FE. reflexivity.
  Qed.
End Any.

Section Subset.
  Context {rest weights : Type}.
  Variables (remote : string -> result weights) (idx : result (index rest)) (conf : string -> result (list sfilter)).
  Variables (py_str : val -> string) (key_order : list string) (fuel : nat).
  Notation disk := (disk rest weights).
  Notation subset_main m := (@subset_main rest weights m remote idx conf py_str key_order fuel).
  Implicit Types (d : disk) (a : subset_args).

  (** The subset script never gets past its imports with the package as it is. *)
  Theorem C143_subset_refuted a d : subset_main no_module a d = (Raise ModuleNotFoundError, d).
  Proof. reflexivity. Qed.

  (** With the module repaired: without a configuration file or output directory it exits with
      nothing changed; a dry run changes neither files nor directories; if it fails, however, the
      output directory has no new index; with --strict a directory with files is left alone. *)
  Theorem C143_subset_exit m a d : ~ there (sa_conf a) d \/ sa_out a = "" -> subset_main (Some m) a d = (Raise SystemExit1, d).
  Proof.
    intros H. unfold Scripts.subset_main. destruct (exists_ (sa_conf a) d) eqn:E; [|reflexivity]. cbn [negb].
    destruct H as [H|H]; [apply exists_there in E; contradiction|]. rewrite H. reflexivity.
  Qed.
  Theorem C143_subset_dry m a d : sa_dry a = true -> snd (subset_main (Some m) a d) = d.
  Proof.
    intros D. unfold Scripts.subset_main. rewrite D. cbn [negb andb]. destruct (exists_ (sa_conf a) d); [|reflexivity]. cbn [negb].
    destruct (String.eqb (sa_out a) ""); [reflexivity|]. destruct (conf (sa_conf a)) as [items|e|]; try reflexivity. cbn [bind]. destruct idx as [i|e|]; try reflexivity. cbn [bind].
    pose proof (C90_failure remote py_str key_order fuel i items (sa_out a) (sa_strict a) (negb (sa_missing a)) true (files d)) as (_ & Q & _).
    destruct (subset_remote_db remote py_str key_order fuel i items (sa_out a) (sa_strict a) (negb (sa_missing a)) true (files d)) as [r f]. cbn [snd] in *. subst f. destruct d; reflexivity.
  Qed.
  Theorem C143_subset_failed m a d : fst (subset_main (Some m) a d) <> Ok tt ->
    index_at (sa_out a) (snd (subset_main (Some m) a d)) = index_at (sa_out a) d.
  Proof.
    unfold Scripts.subset_main, index_at. destruct (exists_ (sa_conf a) d); [|reflexivity]. cbn [negb]. destruct (String.eqb (sa_out a) ""); [reflexivity|].
    assert (FE : files (snd (if sa_dry a then (Ok tt, d) else makedirs (sa_out a) d)) = files d) by (destruct (sa_dry a); [reflexivity|apply makedirs_files]).
    destruct (if sa_dry a then (Ok tt, d) else makedirs (sa_out a) d) as [[[]|e|] d1]; cbn [fst snd] in *; try (rewrite FE; reflexivity).
    destruct (_ && _ && _); [rewrite <- FE; reflexivity|]. destruct (items <- conf (sa_conf a) ;; i <- idx ;; Ok (items, i)) as [[items i]|e|]; cbn [fst snd]; try (rewrite FE; reflexivity).
    pose proof (C90_failure remote py_str key_order fuel i items (sa_out a) (sa_strict a) (negb (sa_missing a)) (sa_dry a) (files d1)) as (Q & _).
    destruct (subset_remote_db remote py_str key_order fuel i items (sa_out a) (sa_strict a) (negb (sa_missing a)) (sa_dry a) (files d1)) as [r f]. cbn [fst snd files with_files] in *.
    intros H. rewrite (Q H), FE. reflexivity.
  Qed.
  Theorem C143_subset_strict m a d q c : sa_strict a = true -> directory (sa_out a) -> alookup q (files d) = Some c ->
    alookup q (files (snd (subset_main (Some m) a d))) = Some c.
  Proof.
    intros S O H. unfold Scripts.subset_main. destruct (exists_ (sa_conf a) d); [|exact H]. cbn [negb]. destruct (String.eqb (sa_out a) ""); [exact H|].
    assert (FE : files (snd (if sa_dry a then (Ok tt, d) else makedirs (sa_out a) d)) = files d) by (destruct (sa_dry a); [reflexivity|apply makedirs_files]).
    destruct (if sa_dry a then (Ok tt, d) else makedirs (sa_out a) d) as [[[]|e|] d1]; cbn [fst snd] in *; try (rewrite FE; exact H).
    destruct (_ && _ && _); [cbn; rewrite FE; exact H|]. destruct (items <- conf (sa_conf a) ;; i <- idx ;; Ok (items, i)) as [[items i]|e|]; cbn [fst snd]; try (rewrite FE; exact H).
    rewrite <- FE in H. pose proof (C90_strict remote py_str key_order fuel i items (sa_out a) (negb (sa_missing a)) (sa_dry a) (files d1) q c O H) as Q. rewrite S.
    destruct (subset_remote_db remote py_str key_order fuel i items (sa_out a) true (negb (sa_missing a)) (sa_dry a) (files d1)) as [r f]. exact Q.
  Qed.
  (** What it makes is what [subset_remote_db] makes of the filters and flags given, to which C90
      applies, and the output directory. *)
  Theorem C143_subset_made m a d items i : there (sa_conf a) d -> usable (sa_out a) d -> sa_dry a = false ->
    conf (sa_conf a) = Ok items -> idx = Ok i ->
    exists d', subset_main (Some m) a d = (fst (subset_remote_db remote py_str key_order fuel i items (sa_out a) (sa_strict a) (negb (sa_missing a)) false (files d)), d') /\
      files d' = snd (subset_remote_db remote py_str key_order fuel i items (sa_out a) (sa_strict a) (negb (sa_missing a)) false (files d)) /\
      (forall x, In x (dirs d') <-> In x (dirs d) \/ x = sa_out a).
  Proof.
    intros T U D C I. apply exists_there in T. pose proof U as [NE _]. unfold Scripts.subset_main. rewrite T, D, C, I. cbn [negb andb bind].
    destruct (String.eqb_spec (sa_out a) ""); [contradiction|]. pose proof (makedirs_ok _ _ U) as OK. pose proof (makedirs_files (sa_out a) d) as FE.
    pose proof (makedirs_only (sa_out a) d) as DO. pose proof (makedirs_dirs (sa_out a) d) as DD.
    assert (MK : In (sa_out a) (dirs (snd (makedirs (sa_out a) d)))).
    { unfold makedirs in *. destruct (existsb _ _) eqn:E; [apply mem_dirs; exact E|]. destruct (amem _ _); [discriminate OK|left; reflexivity]. }
    assert (DQ : forall x, In x (dirs (snd (makedirs (sa_out a) d))) <-> In x (dirs d) \/ x = sa_out a).
    { intros x. split; [apply DO|intros [X| ->]; [apply DD; exact X|exact MK]]. }
    destruct (makedirs (sa_out a) d) as [r d1]. cbn [fst snd] in *. subst r. rewrite FE.
    destruct (sa_strict a && occupied (sa_out a) (files d))%bool eqn:O.
    - unfold subset_remote_db. cbn [negb andb]. rewrite O. cbn [fst snd]. eexists. split; [reflexivity|]. split; [exact FE|exact DQ].
    - destruct (subset_remote_db remote py_str key_order fuel i items (sa_out a) (sa_strict a) (negb (sa_missing a)) false (files d)) as [r f]. cbn [fst snd].
      eexists. split; [reflexivity|]. split; [reflexivity|exact DQ].
  Qed.
End Subset.

(** ** False as worded: witnesses *)
Definition s_module : option (string * string) := Some ("https://server/db/1/", "index.json.gz").
Definition s_served (p : string) : result (answer unit nat) :=
  if String.eqb p "https://server/db/1/index.json.gz" then Ok (Gzipped (IndexFile sys_file)) else Raise RuntimeError.
Definition s_disk : disk unit nat := mkDisk [("new/index.json", IndexFile (mkFile (Some 1) (Some [("n", nn_item)])))] ["new"].
(** A dry run makes the output directory, and in system mode (with the module) leaves two files there. *)
Theorem C143_dry_refuted : exists d1 d2,
  merge_main s_served no_module (mkMergeArgs Local "new" "out" true) s_disk = (Ok tt, d1) /\ In "out" (dirs d1) /\ ~ In "out" (dirs s_disk) /\
  merge_main s_served s_module (mkMergeArgs System "new" "out" true) s_disk = (Ok tt, d2) /\
  alookup "out/index.json.remote" (files d2) = Some (IndexFile sys_file) /\ alookup "out/index.json.remote.gz" (files d2) = Some Other.
Proof. do 2 eexists. split; [reflexivity|]. split; [left; reflexivity|]. split; [cbn; intros [H|[]]; discriminate H|]. split; [reflexivity|]. split; reflexivity. Qed.
(** System mode in place (with the module) works once; the same command again fails, with the
    same index left. *)
Theorem C143_again_refuted : exists d1 d2,
  merge_main s_served s_module (mkMergeArgs System "new" "new" false) s_disk = (Ok tt, d1) /\
  merge_main s_served s_module (mkMergeArgs System "new" "new" false) d1 = (Raise AssertionError, d2) /\ 
  forall n, alookup n (two_items ++ [("n", nn_item)]) = match index_at "new" d2 with Some (IndexFile (mkFile _ (Some m))) => alookup n m | _ => None end.
Proof. do 2 eexists. split; [reflexivity|]. split; [reflexivity|]. intros n. cbn. reflexivity. Qed.

(** ** Hypotheses are met *)
Example C143_met : there "new" s_disk /\ usable "out" s_disk /\ usable "new" s_disk /\
  index_at "new" s_disk = Some (IndexFile (mkFile (Some 1) (Some [("n", nn_item)]))) /\
  s_served (join_path "https://server/db/1/" "index.json.gz") = Ok (Gzipped (IndexFile (mkFile (Some 1) (Some two_items)))) /\
  NoDup (akeys two_items) /\ disjoint two_items [("n", nn_item)] /\
  join_path "new" "index.json" <> remote_of "out" /\ join_path "new" "index.json" <> (remote_of "out" ++ ".gz")%string /\
  exists d', merge_main s_served no_module (mkMergeArgs Local "new" "out" false) s_disk = (Ok tt, d') /\
    index_at "out" d' = Some (IndexFile (mkFile (Some 1) (Some [("n", nn_item)]))).
Proof.
  split; [left; left; reflexivity|]. split; [split; [discriminate|right; reflexivity]|]. split; [split; [discriminate|left; left; reflexivity]|].
  split; [reflexivity|]. split; [reflexivity|]. split; [apply C89_met|]. split; [apply C89_met|]. split; [discriminate|]. split; [discriminate|].
  eexists. split; reflexivity.
Qed.
Example C143_download_met : forall c, (fun _ => Ok Plain : result (answer unit nat)) (join_path "https://server/db/1/" "index.json.gz") <> Ok (Gzipped c).
Proof. discriminate. Qed.

Print Assumptions C143_refused.
Print Assumptions C143_local.
Print Assumptions C143_system_refuted.
Print Assumptions C143_system_partial.
Print Assumptions C143_download.
Print Assumptions C143_dry.
Print Assumptions C143_subset_refuted.
Print Assumptions C143_subset_exit.
Print Assumptions C143_subset_dry.
Print Assumptions C143_subset_failed.
Print Assumptions C143_subset_strict.
Print Assumptions C143_subset_made.
Print Assumptions C143_dry_refuted.
Print Assumptions C143_again_refuted.
