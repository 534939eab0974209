(** Properties C119 and C120: importing the package; saves that were interrupted. *)
From Coq Require Import Permutation Sorted.
From Verif Require Import PyBase ListLemmas PyStr Config ConfigSpec ConfigProofs ConfigProofs2 Startup StartupSpec StartupProofs.
Local Open Scope string_scope.
Local Open Scope list_scope.
Local Open Scope Z_scope.

(** ** Directories, exactly *)
Lemma from_slash_app name l : ~ In "/"%char name -> (l = [] \/ exists r, l = "/"%char :: r) -> from_slash (name ++ l) = l.
Proof.
  induction name as [|c name IH]; intros N C; cbn.
  - destruct C as [->|(r & ->)]; reflexivity.
  - destruct (Ascii.eqb_spec c "/") as [->|D]; [exfalso; apply N; left; reflexivity|]. apply IH; [intros I; apply N; right; exact I|exact C].
Qed.
Lemma no_slashes_app k l : no_slashes (repeat "/"%char k ++ l) = no_slashes l.
Proof. induction k as [|k IH]; [reflexivity|exact IH]. Qed.
Lemma in_directory_iff p d : in_directory p d <-> d = dirname p.
Proof.
  split; [|intros ->; apply dirname_in]. intros (name & N & [(k & -> & NE & NS)|(k & -> & ->)]).
  - unfold dirname. rewrite !chars_app, chars_of_chars, !rev_app_distr, rev_repeat, <- app_assoc.
    rewrite from_slash_app.
    + rewrite no_slashes_app. destruct (rev (chars d)) as [|c r] eqn:E.
      * exfalso. apply NE. rewrite <- (of_chars_chars d), <- (rev_involutive (chars d)), E. reflexivity.
      * cbn [no_slashes]. destruct (Ascii.eqb_spec c "/") as [->|D].
        -- exfalso. apply (NS (of_chars (rev r))). rewrite <- (of_chars_chars d), <- (rev_involutive (chars d)), E. cbn. rewrite of_chars_app. reflexivity.
        -- rewrite <- E, rev_involutive, of_chars_chars. reflexivity.
    + intros I. apply in_rev in I. apply in_split in I. destruct I as (a & b & E). apply (N (of_chars a) (of_chars b)).
      rewrite <- (of_chars_chars name), E, of_chars_app. reflexivity.
    + right. cbn. eauto.
  - unfold dirname. rewrite chars_app, chars_of_chars, rev_app_distr, rev_repeat, from_slash_app.
    + rewrite <- (app_nil_r (repeat _ k)) at 2. rewrite no_slashes_app. cbn [no_slashes]. rewrite rev_repeat. reflexivity.
    + intros I. apply in_rev in I. apply in_split in I. destruct I as (a & b & E). apply (N (of_chars a) (of_chars b)).
      rewrite <- (of_chars_chars name), E, of_chars_app. reflexivity.
    + destruct k as [|k]; [left; reflexivity|right; cbn; eauto].
Qed.

Section Any.
  Context {Obj : Type}.
  Variable obj_yaml : Obj -> bool.
  Variable home : string.
  Variable writable : string -> bool.
  Variable version : string.
  Variable can_make : string -> bool.
  Notation value := (value Obj).
  Notation world := (world Obj).
  Notation stated := (@stated Obj home).
  Notation its_file := (@its_file Obj home).
  Notation import := (import Obj obj_yaml home writable version can_make).
  Notation init_file := (init_file Obj obj_yaml home writable version can_make).
  Notation config_path := (config_path Obj home).
  Notation w_files := (w_files Obj).
  Notation w_dirs := (w_dirs Obj).
  Notation w_umask := (w_umask Obj).
  Notation Mapping := (Mapping Obj).
  Notation gives := (@gives Obj home).
  Notation an_option := (@an_option Obj home).
  Notation save_config := (save_config Obj obj_yaml home writable version).
  Notation written := (Startup.written Obj obj_yaml home version).
  Notation entries := (entries Obj home version).
  Notation defaults := (Config.defaults Obj home).
  Notation as_items := (as_items Obj).
  Notation texts := (texts Obj).
  Notation updated := (updated Obj).
  Notation is_text := (is_text Obj).
  Notation there := (there Obj).
  Implicit Types (w : world) (c : conf Obj) (kvs : list (ykey * value)) (vals : list (string * value)).

  (** The directory is there. *)
  Definition has_dir w d : Prop := d <> "" /\ (In d (w_dirs w) \/ exists x, alookup d (w_files w) = Some x).
  (** Nothing is there under this path. *)
  Definition nothing_at w p : Prop := ~ In p (w_dirs w) /\ alookup p (w_files w) = None.
  (** Readable by YAML after it was written. *)
  Definition lasting v : Prop := forall o : Obj, v = VObj o -> obj_yaml o = true.
  Definition has_defaults c : Prop := forall n v, alookup n (vals c) = Some v <-> In (n, v) stated.

  Lemma its_file_iff w p : its_file w p <-> p = config_path w.
  Proof.
    unfold StartupSpec.its_file, Startup.config_path. destruct (alookup "EARTHKIT_REGRID_CONFIG_FILE" (w_env Obj w)) as [s|].
    - destruct (String.eqb_spec s "") as [->|D]; split.
      + intros [[E N]|[_ ->]]; [congruence|reflexivity].
      + intros ->. right. split; [congruence|reflexivity].
      + intros [[E _]|[N _]]; [congruence|]. exfalso. exact (D (N s eq_refl)).
      + intros ->. left. auto.
    - split; [intros [[E _]|[_ ->]]; [discriminate E|reflexivity]|]. intros ->. right. split; [discriminate|reflexivity].
  Qed.
  Lemma path_nonempty w : config_path w <> "".
  Proof.
    unfold Startup.config_path. destruct (alookup _ _) as [s|]; [destruct (String.eqb_spec s "") as [->|D]; [|exact D]|]; destruct home; discriminate.
  Qed.
  Lemma there_iff w d : there d w = true <-> has_dir w d.
  Proof.
    unfold Startup.there, has_dir, amem. rewrite andb_true_iff, negb_true_iff, orb_true_iff. destruct (String.eqb_spec d "") as [E|D]; split.
    - intros [H _]; discriminate H.
    - intros [H _]; congruence.
    - intros [_ [H|H]]; (split; [exact D|]); [left|right].
      + apply existsb_exists in H. destruct H as (x & I & E). apply String.eqb_eq in E. subst x. exact I.
      + destruct (alookup d (w_files w)); [eauto|discriminate H].
    - intros [_ [I|(x & E)]]; (split; [reflexivity|]); [left; apply existsb_exists; exists d; split; [exact I|apply String.eqb_refl]|right; rewrite E; reflexivity].
  Qed.

  Notation make_dir := (make_dir Obj can_make).
  Lemma make_dir_files d w : w_files (make_dir d w) = w_files w /\ w_env Obj (make_dir d w) = w_env Obj w.
  Proof. unfold Startup.make_dir. destruct (there d w); [auto|]. destruct (_ && _); auto. Qed.
  Lemma config_path_env w w' : w_env Obj w' = w_env Obj w -> config_path w' = config_path w.
  Proof. intros E. unfold Startup.config_path. rewrite E. reflexivity. Qed.
  Lemma there_files p w w' : w_files w' = w_files w -> w_dirs w' = w_dirs w -> there p w' = there p w.
  Proof. intros E F. unfold Startup.there. rewrite E, F. reflexivity. Qed.
  Lemma make_dir_there d w p : there p w = true -> there p (make_dir d w) = true.
  Proof.
    unfold Startup.make_dir. destruct (there d w); [auto|]. destruct (_ && _); [|intros T; rewrite <- T; apply there_files; reflexivity].
    unfold Startup.there. cbn [Startup.w_dirs Startup.w_files existsb]. destruct (negb (String.eqb p "")); cbn; [|auto]. destruct (String.eqb p d); auto.
  Qed.
  Lemma make_dir_twice d w : there d (make_dir d w) = false -> there d (make_dir d (make_dir d w)) = false.
  Proof.
    intros H. unfold Startup.make_dir at 1. rewrite H. destruct (negb (String.eqb d "") && can_make d) eqn:C; [|rewrite <- H; apply there_files; reflexivity].
    exfalso. unfold Startup.make_dir in H. destruct (there d w) eqn:T; [congruence|]. rewrite C in H. apply andb_true_iff in C. destruct C as [C _].
    unfold Startup.there in H. cbn [Startup.w_dirs existsb] in H. rewrite C, String.eqb_refl in H. discriminate H.
  Qed.
  Lemma save_fields p kvs w : w_env Obj (fst (save_config p kvs w)) = w_env Obj w /\ w_dirs (fst (save_config p kvs w)) = w_dirs w /\ w_umask (fst (save_config p kvs w)) = w_umask w.
  Proof. unfold Startup.save_config. destruct (writable p); [destruct (forallb is_text kvs)|]; cbn; auto. Qed.
  Lemma save_others p kvs w q : q <> p -> alookup q (w_files (fst (save_config p kvs w))) = alookup q (w_files w).
  Proof.
    intros N. unfold Startup.save_config. destruct (writable p); [|reflexivity]. destruct (forallb is_text kvs); cbn; apply alookup_aset_neq; congruence.
  Qed.
  Lemma save_there p kvs w q : there q w = true -> there q (fst (save_config p kvs w)) = true.
  Proof.
    intros T. apply there_iff in T. apply there_iff. destruct T as [N T]. split; [exact N|]. destruct (save_fields p kvs w) as (_ & -> & _). destruct T as [T|(x & T)]; [left; exact T|right].
    destruct (string_dec q p) as [->|D]; [|rewrite save_others by exact D; eauto]. unfold Startup.save_config. destruct (writable p); [|cbn; eauto].
    destruct (forallb is_text kvs); cbn; rewrite alookup_aset_eq; eauto.
  Qed.
  Notation migrate := (migrate Obj obj_yaml home writable version).
  Lemma migrate_fields p w : w_env Obj (fst (migrate p w)) = w_env Obj w /\ w_dirs (fst (migrate p w)) = w_dirs w /\ w_umask (fst (migrate p w)) = w_umask w /\
    (forall q, q <> p -> alookup q (w_files (fst (migrate p w))) = alookup q (w_files w)) /\ (forall q, there q w = true -> there q (fst (migrate p w)) = true).
  Proof.
    unfold Startup.migrate. destruct (alookup (old_file home) (w_files w)) as [[kvs| |]|]; try (cbn; auto 6; fail).
    pose proof (save_fields p (updated kvs (as_items defaults)) w) as F. pose proof (save_others p (updated kvs (as_items defaults)) w) as O. pose proof (save_there p (updated kvs (as_items defaults)) w) as T.
    destruct (save_config p (updated kvs (as_items defaults)) w) as [w' [u|e|]]; cbn [fst] in *; destruct F as (F1 & F2 & F3); auto 6.
  Qed.
  Definition safe vals : Prop := forall n v, In (n, v) vals -> lasting v.
  Lemma safe_iff vals : safe vals <-> forallb (fun p => yaml_safe Obj obj_yaml (snd p)) vals = true.
  Proof.
    unfold safe, lasting. rewrite forallb_forall. split.
    - intros H [n v] I. cbn. destruct v as [| | | |o]; try reflexivity. exact (H n _ I o eq_refl).
    - intros H n v I o ->. exact (H _ I).
  Qed.
  Lemma entries_in vals n v : In (n, v) (entries vals) -> In (n, v) vals \/ (n, v) = ("version", VStr version).
  Proof.
    rewrite entries_app. intros I. apply in_app_or in I. destruct I as [I|[I|[]]]; [left|right; auto]. apply filter_In in I. apply (Permutation_in _ (sorted_perm vals)), I.
  Qed.
  Lemma entries_safe vals : safe vals -> safe (entries vals).
  Proof. intros S n v I o ->. apply entries_in in I. destruct I as [I|I]; [|discriminate I]. exact (S _ _ I o eq_refl). Qed.
  Lemma written_all vals : safe vals -> written (List.length (entries vals)) vals = Mapping (as_items (entries vals)).
  Proof.
    intros S. unfold Startup.written. rewrite firstn_all. pose proof (proj1 (safe_iff _) (entries_safe vals S)) as E. destruct (entries vals) as [|x l] eqn:F; [|rewrite E; reflexivity].
    rewrite entries_app in F. destruct (filter _ _); discriminate F.
  Qed.
  Lemma written_some k vals : safe vals -> (0 < k)%nat -> written k vals = Mapping (as_items (firstn k (entries vals))).
  Proof.
    intros S L. unfold Startup.written. assert (E : forallb (fun p => yaml_safe Obj obj_yaml (snd p)) (firstn k (entries vals)) = true).
    { apply safe_iff. intros n v I. apply (entries_safe vals S n v). rewrite <- (firstn_skipn k). apply in_or_app. left. exact I. }
    destruct (firstn k (entries vals)) as [|x l] eqn:F; [|rewrite E; reflexivity]. exfalso. rewrite entries_app in F. destruct k as [|k]; [lia|]. destruct (filter _ _); discriminate F.
  Qed.
  Lemma stated_safe : safe stated.
  Proof. intros n v I o ->. cbn in I. repeat (destruct I as [I|I]; [discriminate I|]). destruct I. Qed.
  Lemma updated_safe kvs : (forall k v, In (k, v) kvs -> lasting v) -> forallb is_text kvs = true -> safe (texts (updated kvs (as_items defaults))).
  Proof.
    intros S T. destruct (updated_text kvs (as_items defaults) T (items_text _)) as [_ ->]. rewrite texts_items. assert (A : forall l vs, safe l -> safe vs -> safe (update_all Obj l vs)).
    { clear. induction l as [|[k v] l IH]; intros vs S1 S2; [exact S2|]. cbn. apply IH; [intros n u I; apply (S1 n u); right; exact I|].
      intros n u I. assert (J : (n, u) = (k, v) \/ In (n, u) vs \/ u = v).
      { clear -I. induction vs as [|[a b] vs IHv]; cbn in I; [destruct I as [I|[]]; auto|]. destruct (String.eqb k a); destruct I as [I|I]; cbn; auto.
        - right. right. congruence.
        - destruct (IHv I) as [H|[H|H]]; auto. }
      destruct J as [J|[J|J]]; [injection J as -> ->; apply (S1 k v); left; reflexivity|exact (S2 _ _ J)|subst u; apply (S1 k v); left; reflexivity]. }
    apply A; [|exact stated_safe]. intros n v I. apply text_in in I. exact (S _ _ I).
  Qed.

  (** The state of the file when it is read: as it was; or, if there was none, none, or the one just made. *)
  Lemma init_file_env w : w_env Obj (init_file w) = w_env Obj w.
  Proof.
    unfold Startup.init_file. destruct (make_dir_files (dirname (config_path w)) w) as [_ E]. set (w1 := make_dir _ w) in *.
    destruct (there (dirname (config_path w)) w1); [|exact E]. destruct (there (config_path w) w1); [exact E|]. pose proof (migrate_fields (config_path w) w1) as M.
    destruct (migrate (config_path w) w1) as [w2 []]; cbn [fst] in M; destruct M as (M1 & M2 & _); [congruence|]. destruct (save_fields (config_path w) (as_items defaults) w2) as (S1 & _). congruence.
  Qed.
  Lemma init_file_present w x : alookup (config_path w) (w_files w) = Some x -> w_files (init_file w) = w_files w.
  Proof.
    intros H. unfold Startup.init_file. destruct (make_dir_files (dirname (config_path w)) w) as [E _]. set (w1 := make_dir _ w) in *.
    destruct (there (dirname (config_path w)) w1); [|exact E]. replace (there (config_path w) w1) with true; [exact E|]. symmetry. apply there_iff. split; [apply path_nonempty|]. right. rewrite E. eauto.
  Qed.
  Lemma init_file_others w q : q <> config_path w -> alookup q (w_files (init_file w)) = alookup q (w_files w).
  Proof.
    intros N. unfold Startup.init_file. destruct (make_dir_files (dirname (config_path w)) w) as [E _]. set (w1 := make_dir _ w) in *.
    destruct (there (dirname (config_path w)) w1); [|congruence]. destruct (there (config_path w) w1); [congruence|]. pose proof (migrate_fields (config_path w) w1) as M.
    destruct (migrate (config_path w) w1) as [w2 []]; cbn [fst] in M; destruct M as (_ & _ & _ & M & _); [rewrite M, E by exact N; reflexivity|].
    rewrite save_others, M, E by exact N. reflexivity.
  Qed.
  (** What a first start writes. *)
  Inductive new_content w : content Obj -> Prop :=
  | new_defaults : (forall kvs, alookup (old_file home) (w_files w) = Some (Mapping kvs) -> forallb is_text kvs = false) -> new_content w (Mapping [(Text "version", VStr version)])
  | new_migrated kvs : alookup (old_file home) (w_files w) = Some (Mapping kvs) -> forallb is_text kvs = true ->
      new_content w (written (List.length (entries (texts (updated kvs (as_items defaults))))) (texts (updated kvs (as_items defaults)))).
  Lemma defaults_written : written (List.length (entries defaults)) defaults = Mapping [(Text "version", VStr version)].
  Proof.
    rewrite written_all by exact stated_safe. rewrite entries_app.
    assert (E : filter (to_save Obj home) (sorted_items Obj defaults) = []).
    { destruct (filter (to_save Obj home) (sorted_items Obj defaults)) as [|[n v] l] eqn:E; [reflexivity|]. exfalso.
      assert (I : In (n, v) (filter (to_save Obj home) (sorted_items Obj defaults))) by (rewrite E; left; reflexivity). apply filter_In in I. destruct I as [I T].
      apply (Permutation_in _ (sorted_perm defaults)) in I. apply to_save_changed in T. destruct T as (d & I' & N). apply N. left. rewrite defaults_stated in I.
      apply (lookup_in stated n v (stated_nodup home)) in I. apply (lookup_in stated n d (stated_nodup home)) in I'. congruence. }
    rewrite E. reflexivity.
  Qed.
  Lemma init_file_absent w : alookup (config_path w) (w_files w) = None ->
    let w1 := make_dir (dirname (config_path w)) w in
    (there (dirname (config_path w)) w1 = true /\ there (config_path w) w1 = false /\ writable (config_path w) = true /\
       exists x, alookup (config_path w) (w_files (init_file w)) = Some x /\ new_content w x) \/
    ((there (dirname (config_path w)) w1 = false \/ there (config_path w) w1 = true \/ writable (config_path w) = false) /\ init_file w = w1).
  Proof.
    intros H w1. unfold Startup.init_file. destruct (make_dir_files (dirname (config_path w)) w) as [E _]. fold w1 in E |- *.
    destruct (there (dirname (config_path w)) w1) eqn:T1; [|right; auto]. destruct (there (config_path w) w1) eqn:T2; [right; auto|].
    destruct (writable (config_path w)) eqn:WR.
    - left. split; [reflexivity|]. split; [reflexivity|]. split; [reflexivity|]. unfold Startup.migrate. rewrite E.
      assert (DF : forall w2, alookup (config_path w) (w_files (fst (save_config (config_path w) (as_items defaults) w2))) = Some (Mapping [(Text "version", VStr version)])).
      { intros w2. unfold Startup.save_config. rewrite WR, items_text, texts_items. cbn [fst Startup.w_files with_file]. rewrite alookup_aset_eq, defaults_written. reflexivity. }
      destruct (alookup (old_file home) (w_files w)) as [[kvs| |]|] eqn:O; try (eexists; split; [apply DF|]; apply new_defaults; intros kvs' E'; congruence).
      destruct (forallb is_text kvs) eqn:TX.
      + destruct (updated_text kvs (as_items defaults) TX (items_text _)) as [UT _]. unfold Startup.save_config at 1. rewrite WR, UT. cbn [Startup.w_files with_file]. eexists. split; [apply alookup_aset_eq|]. eapply new_migrated; eauto.
      + apply not_texts in TX. destruct TX as (n & v & I). destruct (updated_has kvs (as_items defaults) n v I) as (u & J). pose proof (some_other _ _ _ J) as UF.
        unfold Startup.save_config at 1. rewrite WR, UF. eexists. split; [apply DF|]. apply new_defaults. intros kvs' E'. rewrite O in E'. injection E' as <-. exact (some_other _ _ _ I).
    - right. split; [auto|]. assert (SF : forall kvs w2, save_config (config_path w) kvs w2 = (w2, Raise FileNotFoundError)) by (intros kvs w2; unfold Startup.save_config; rewrite WR; reflexivity).
      unfold Startup.migrate. destruct (alookup (old_file home) (w_files w1)) as [[kvs| |]|]; rewrite ?SF; reflexivity.
  Qed.

  (** ** What importing gives, from the state of the file *)
  Definition outcome (x : option (content Obj)) p (r : result (conf Obj)) : Prop :=
    match x with
    | Some (Startup.Mapping _ kvs) => if forallb is_text kvs then r = Ok (mkConf (texts (updated kvs (as_items defaults))) (Some p)) else r = Raise TypeError
    | _ => r = Ok (mkConf defaults (Some p))
    end.
  Lemma import_outcome w : outcome (alookup (config_path w) (w_files (init_file w))) (config_path w) (snd (import w)).
  Proof.
    unfold Startup.import, outcome, Startup.init_values. destruct (alookup (config_path w) (w_files (init_file w))) as [[kvs| |]|]; try (rewrite items_text; cbn [snd]; rewrite texts_items; reflexivity).
    destruct (forallb is_text kvs) eqn:T.
    - destruct (updated_text kvs (as_items defaults) T (items_text _)) as [-> _]. reflexivity.
    - apply not_texts in T. destruct T as (n & v & I). destruct (updated_has kvs (as_items defaults) n v I) as (u & J). rewrite (some_other _ _ _ J). reflexivity.
  Qed.
  Lemma written_outcome k vs p r : outcome (Some (written k vs)) p r -> exists c, r = Ok c.
  Proof.
    unfold Startup.written. destruct (firstn k (entries vs)) as [|x l]; [cbn; eauto|]. destruct (forallb _ (x :: l)); [|cbn; eauto].
    unfold outcome. fold (as_items (x :: l)). rewrite items_text. eauto.
  Qed.
  (** Whether the file is written again after it was read. *)
  Definition outdated (x : option (content Obj)) : Prop :=
    exists kvs v, x = Some (Mapping kvs) /\ forallb is_text kvs = true /\ alookup "version" (texts (updated kvs (as_items defaults))) = Some (VStr v) /\ String.ltb v version = true.
  Lemma import_world w :
    (fst (import w) = init_file w /\ (writable (config_path w) = false \/ ~ outdated (alookup (config_path w) (w_files (init_file w))))) \/
    (exists kvs, outdated (alookup (config_path w) (w_files (init_file w))) /\ alookup (config_path w) (w_files (init_file w)) = Some (Mapping kvs) /\ forallb is_text kvs = true /\ writable (config_path w) = true /\
      let vs := texts (updated kvs (as_items defaults)) in fst (import w) = with_file Obj (config_path w) (written (List.length (entries vs)) vs) (init_file w)).
  Proof.
    unfold Startup.import, Startup.init_values, outdated. destruct (alookup (config_path w) (w_files (init_file w))) as [[kvs| |]|] eqn:E;
      try (left; rewrite items_text; cbn [fst]; split; [reflexivity|right; intros (k0 & v0 & H & _); discriminate H]).
    destruct (forallb is_text kvs) eqn:T.
    - destruct (updated_text kvs (as_items defaults) T (items_text _)) as [UT _]. rewrite UT. cbn [fst].
      destruct (alookup "version" (texts (updated kvs (as_items defaults)))) as [u|] eqn:V; [destruct u as [| | |v|]|];
        try (left; split; [reflexivity|right; intros (k0 & v0 & H & _ & H' & _); injection H as <-; congruence]).
      destruct (String.ltb v version) eqn:L; [|left; split; [reflexivity|right; intros (k0 & v0 & H & _ & H' & H''); injection H as <-; congruence]].
      unfold Startup.save_config. rewrite UT. destruct (writable (config_path w)) eqn:WR.
      + right. exists kvs. split; [exists kvs, v; auto|]. cbn. auto.
      + left. cbn. auto.
    - left. apply not_texts in T as T'. destruct T' as (n & v & I). destruct (updated_has kvs (as_items defaults) n v I) as (u & J). rewrite (some_other _ _ _ J). cbn. split; [reflexivity|].
      right. intros (k0 & v0 & H & T0 & _). injection H as <-. congruence.
  Qed.

  (** ** C119 *)
  (** The file is there: its values, and the defaults for the rest; other files are not touched. *)
  Theorem C119_existing w p kvs : its_file w p -> alookup p (w_files w) = Some (Mapping kvs) -> distinct kvs -> of_texts kvs ->
    exists c, snd (import w) = Ok c /\ path c = Some p /\ forall n v, alookup n (vals c) = Some v <-> gives kvs n v.
  Proof.
    intros F E D T. apply its_file_iff in F. subst p. apply of_texts_iff in T. pose proof (import_outcome w) as O. rewrite (init_file_present w _ E), E in O. cbn in O. rewrite T in O.
    eexists. split; [exact O|]. split; [reflexivity|]. intros n v. apply read_gives; assumption.
  Qed.
  Theorem C119_unreadable w p x : its_file w p -> alookup p (w_files w) = Some x -> x = NoMapping Obj \/ x = Broken Obj ->
    exists c, snd (import w) = Ok c /\ path c = Some p /\ has_defaults c /\ w_files (fst (import w)) = w_files w.
  Proof.
    intros F E X. apply its_file_iff in F. subst p. pose proof (import_outcome w) as O. pose proof (init_file_present w _ E) as I. rewrite I, E in O.
    exists (mkConf defaults (Some (config_path w))). split; [destruct X as [-> | ->]; exact O|]. split; [reflexivity|]. split.
    - intros n v. apply (lookup_in stated n v (stated_nodup home)).
    - destruct (import_world w) as [[-> _]|(kvs & _ & K & _)]; [exact I|]. rewrite I, E in K. injection K as ->. destruct X; discriminate.
  Qed.
  (** Importing fails just if the file has a key that is no text. *)
  Theorem C119_fails_partial w e : snd (import w) = Raise e <->
    e = TypeError /\ exists p kvs k v, its_file w p /\ alookup p (w_files w) = Some (Mapping kvs) /\ In (Other k, v) kvs.
  Proof.
    pose proof (import_outcome w) as O. split.
    - intros H. destruct (alookup (config_path w) (w_files w)) as [x|] eqn:E.
      + rewrite (init_file_present w x E), E in O. destruct x as [kvs| |]; cbn in O; try (rewrite O in H; discriminate H). destruct (forallb is_text kvs) eqn:T; [rewrite O in H; discriminate H|].
        rewrite O in H. injection H as <-. split; [reflexivity|]. apply not_texts in T. destruct T as (k & v & I). exists (config_path w), kvs, k, v. split; [apply its_file_iff; reflexivity|auto].
      + exfalso. destruct (init_file_absent w E) as [(_ & _ & _ & x & EX & NC)|[_ EI]].
        * rewrite EX in O. inversion NC as [N X|kvs OL T X]; subst x; [cbn in O; rewrite O in H; discriminate H|].
          apply written_outcome in O. destruct O as (c & O). rewrite O in H. discriminate H.
        * destruct (make_dir_files (dirname (config_path w)) w) as [M _]. rewrite EI, M, E in O. cbn in O. rewrite O in H. discriminate H.
    - intros (-> & p & kvs & k & v & F & E & I). apply its_file_iff in F. subst p. rewrite (init_file_present w _ E), E in O. cbn in O. rewrite (some_other _ _ _ I) in O. exact O.
  Qed.
  (** Only the configuration file is written; and it stays as it is if its version is not older. *)
  Theorem C119_others w p q : its_file w p -> q <> p -> alookup q (w_files (fst (import w))) = alookup q (w_files w).
  Proof.
    intros F N. apply its_file_iff in F. subst p. destruct (import_world w) as [[-> _]|(kvs & _ & _ & _ & _ & ->)]; [apply init_file_others, N|].
    cbn. rewrite alookup_aset_neq by congruence. apply init_file_others, N.
  Qed.
  Theorem C119_kept w p kvs : its_file w p -> alookup p (w_files w) = Some (Mapping kvs) -> distinct kvs ->
    (forall v, In (Text "version", VStr v) kvs -> String.compare v version <> Lt) -> w_files (fst (import w)) = w_files w.
  Proof.
    intros F E D V. apply its_file_iff in F. subst p. pose proof (init_file_present w _ E) as I. destruct (import_world w) as [[-> _]|(kvs' & (k0 & v & K0 & T0 & L & LT) & K & _)]; [exact I|].
    exfalso. rewrite I, E in K, K0. injection K as <-. injection K0 as <-. apply read_gives with (v := VStr v) in L; [|exact D|exact T0].
    destruct L as [L|[_ L]]; [apply (V v L), ltb_lt, LT|]. cbn in L. repeat (destruct L as [L|L]; [discriminate L|]). destruct L.
  Qed.
  Lemma makeable w d : has_dir w d \/ (d <> "" /\ can_make d = true) -> there d (make_dir d w) = true.
  Proof.
    intros H. unfold Startup.make_dir. destruct (there d w) eqn:T; [exact T|]. destruct H as [H|[N C]]; [apply there_iff in H; congruence|].
    destruct (String.eqb_spec d "") as [->|_]; [congruence|]. rewrite C. cbn [negb andb]. apply there_iff. split; [exact N|]. left. left. reflexivity.
  Qed.
  Lemma nothing_there w p d : nothing_at w p -> p <> "" -> p <> d -> there p (make_dir d w) = false.
  Proof.
    intros [N1 N2] NE ND. destruct (there p (make_dir d w)) eqn:T; [|reflexivity]. exfalso. apply there_iff in T. destruct T as [_ T]. destruct (make_dir_files d w) as [E _]. rewrite E in T.
    destruct T as [T|(x & T)]; [|congruence]. apply N1. unfold Startup.make_dir in T. destruct (there d w); [exact T|]. destruct (_ && _); [|exact T]. destruct T as [T|T]; [congruence|exact T].
  Qed.

  (** The first start: a file without settings, the defaults. *)
  Theorem C119_first w p d : its_file w p -> in_directory p d -> p <> d -> nothing_at w p -> has_dir w d \/ (d <> "" /\ can_make d = true) -> writable p = true ->
    (forall kvs, alookup (home ++ "/.earthkit_regrid/settings.yaml")%string (w_files w) = Some (Mapping kvs) -> exists k v, In (Other k, v) kvs) ->
    exists c, snd (import w) = Ok c /\ path c = Some p /\ (forall n v, n <> "version" -> alookup n (vals c) = Some v <-> In (n, v) stated) /\
      alookup p (w_files (fst (import w))) = Some (Mapping [(Text "version", VStr version)]).
  Proof.
    intros F D ND NA HD WR OLD. apply its_file_iff in F. subst p. apply in_directory_iff in D. subst d. pose proof (import_outcome w) as O.
    pose proof (makeable w _ HD) as T1. pose proof (nothing_there w _ _ NA (path_nonempty w) ND) as T2.
    destruct (init_file_absent w (proj2 NA)) as [(_ & _ & _ & x & EX & NC)|[[H|[H|H]] _]]; try congruence.
    inversion NC as [N X|kvs OL T X]; [|destruct (OLD kvs OL) as (k & v & I); rewrite (some_other _ _ _ I) in T; discriminate T]. rewrite <- X in EX. rewrite EX in O. cbn [outcome] in O.
    eexists. split; [exact O|]. split; [reflexivity|]. split.
    - intros n v NV. cbn [vals]. change (alookup n (texts (updated [(Text "version", VStr version)] (as_items defaults))) = Some v <-> In (n, v) stated).
      rewrite read_gives; [|constructor; [intros []|constructor]|reflexivity]. unfold StartupSpec.gives. split; [intros [[H|[]]|[_ H]]; [injection H; congruence|exact H]|].
      intros H. right. split; [|exact H]. intros u [E|[]]. injection E; congruence.
    - destruct (import_world w) as [[-> _]|(kvs & (k0 & v & K0 & _ & L & LT) & _)]; [exact EX|]. exfalso. rewrite EX in K0. injection K0 as <-. cbn in L. injection L as <-.
      apply ltb_lt in LT. rewrite cmp_refl in LT. discriminate LT.
  Qed.
  Lemma as_items_in l k v : In (Text k, v) (as_items l) <-> In (k, v) l.
  Proof. rewrite <- text_in, texts_items. tauto. Qed.
  Lemma as_items_distinct l : NoDup (akeys l) -> distinct (as_items l).
  Proof.
    unfold distinct. induction l as [|[k v] l IH]; cbn; intros H; [constructor|]. inversion H as [|? ? H1 H2]; subst. constructor; [|apply IH, H2].
    intros I. apply in_map_iff in I. destruct I as ([k' u] & E & I). cbn in E. subst k'. apply as_items_in in I. apply H1. rewrite akeys_map. apply in_map_iff. exists (k, u). auto.
  Qed.
  Lemma updated_nodup kvs : distinct kvs -> forallb is_text kvs = true -> NoDup (akeys (texts (updated kvs (as_items defaults)))).
  Proof.
    intros D T. destruct (updated_text kvs (as_items defaults) T (items_text _)) as [_ ->]. rewrite texts_items.
    assert (A : forall l vs, NoDup (akeys vs) -> NoDup (akeys (update_all Obj l vs))) by (clear; induction l as [|[k v] l IH]; intros vs N; [exact N|]; cbn; apply IH, NoDup_aset, N).
    apply A, (stated_nodup home).
  Qed.
  (** A file written from values and read again. *)
  Lemma written_read vals n : NoDup (akeys vals) -> n <> "version" ->
    (forall v, In (n, v) vals -> an_option n -> exists v', alookup n (texts (updated (as_items (entries vals)) (as_items defaults))) = Some v' /\ alike v v') /\
    (~ an_option n -> alookup n (texts (updated (as_items (entries vals)) (as_items defaults))) = None).
  Proof.
    intros N NV. assert (R : forall v, alookup n (texts (updated (as_items (entries vals)) (as_items defaults))) = Some v <-> gives (as_items (entries vals)) n v).
    { intros v. apply read_gives; [apply as_items_distinct, entries_nodup, N|apply items_text]. }
    assert (EI : forall v, In (n, v) (entries vals) <-> In (n, v) vals /\ changed_to home n v).
    { intros v. rewrite entries_app, in_app_iff, filter_In. rewrite to_save_changed. split.
      - intros [[I C]|[I|[]]]; [|congruence]. split; [apply (Permutation_in _ (sorted_perm vals)), I|exact C].
      - intros [I C]. left. split; [apply (Permutation_in _ (Permutation_sym (sorted_perm vals))), I|exact C]. }
    split.
    - intros v I (d & ID). destruct (to_save Obj home (n, v)) eqn:TS.
      + exists v. split; [|left; reflexivity]. apply R. left. apply as_items_in, EI. split; [exact I|apply to_save_changed, TS].
      + assert (NC : ~ changed_to home n v) by (intros C; apply to_save_changed in C; congruence). exists d. split.
        * apply R. right. split; [|exact ID]. intros u J. apply as_items_in, EI in J. destruct J as [J C]. apply (lookup_in vals n u N) in J. apply (lookup_in vals n v N) in I. congruence.
        * assert (A : alike v d \/ ~ alike v d).
          { unfold alike. destruct v as [|b|z|s|o], d as [|b'|z'|s'|o']; try (left; left; reflexivity); try (right; intros [H|(b0 & H1 & H2)]; congruence).
            - destruct (Bool.bool_dec b b') as [->|X]; [left; left; reflexivity|right; intros [H|(b0 & H1 & H2)]; congruence].
            - destruct (Z.eq_dec z (Z.b2z b')) as [->|X]; [left; right; exists b'; auto|right; intros [H|(b0 & H1 & H2)]; congruence].
            - destruct (Z.eq_dec z z') as [->|X]; [left; left; reflexivity|right; intros [H|(b0 & H1 & H2)]; congruence].
            - destruct (string_dec s s') as [->|X]; [left; left; reflexivity|right; intros [H|(b0 & H1 & H2)]; congruence].
            - exfalso. clear -ID. cbn in ID. repeat (destruct ID as [ID|ID]; [discriminate ID|]). destruct ID. }
          destruct A as [A|A]; [exact A|]. exfalso. apply NC. exists d. auto.
    - intros NO. destruct (alookup n (texts (updated (as_items (entries vals)) (as_items defaults)))) as [v|]; [|reflexivity]. exfalso. pose proof (proj1 (R v) eq_refl) as E.
      destruct E as [E|[_ E]]; [|apply NO; exists v; exact E]. apply as_items_in, EI in E. destruct E as [_ (d & C & _)]. apply NO. exists d. exact C.
  Qed.
  Lemma version_not_option : ~ an_option "version".
  Proof. intros (d & I). cbn in I. repeat (destruct I as [I|I]; [discriminate I|]). destruct I. Qed.
  (** Settings of older versions are taken over, as far as they are options. *)
  Theorem C119_migrated w p d kvs : its_file w p -> in_directory p d -> p <> d -> nothing_at w p -> has_dir w d \/ (d <> "" /\ can_make d = true) -> writable p = true ->
    alookup (home ++ "/.earthkit_regrid/settings.yaml")%string (w_files w) = Some (Mapping kvs) -> distinct kvs -> of_texts kvs -> (forall k v, In (k, v) kvs -> lasting v) ->
    exists c, snd (import w) = Ok c /\ path c = Some p /\
      (forall n v, an_option n -> gives kvs n v -> exists v', alookup n (vals c) = Some v' /\ alike v v') /\
      (forall n, n <> "version" -> ~ an_option n -> alookup n (vals c) = None) /\
      alookup "version" (vals c) = Some (VStr version).
  Proof.
    intros F D ND NA HD WR OLD DI TX LA. apply its_file_iff in F. subst p. apply in_directory_iff in D. subst d. pose proof (import_outcome w) as O. apply of_texts_iff in TX.
    pose proof (makeable w _ HD) as T1. pose proof (nothing_there w _ _ NA (path_nonempty w) ND) as T2.
    destruct (init_file_absent w (proj2 NA)) as [(_ & _ & _ & x & EX & NC)|[[H|[H|H]] _]]; try congruence.
    inversion NC as [N X|kvs' OL T X]; [rewrite (N kvs OLD) in TX; discriminate TX|]. unfold old_file in OL. rewrite OLD in OL. injection OL as <-. rewrite written_all in X by (apply updated_safe; assumption).
    rewrite <- X in EX. rewrite EX in O. cbn [outcome] in O. rewrite items_text in O. eexists. split; [exact O|]. split; [reflexivity|]. cbn [vals].
    pose proof (updated_nodup kvs DI TX) as NU. split; [|split].
    - intros n v AO G. apply (read_gives home kvs n v DI TX) in G. apply alookup_In in G. apply (proj1 (written_read _ n NU (fun E => version_not_option (eq_ind n _ AO _ E))) v G AO).
    - intros n NV NO. apply (proj2 (written_read _ n NU NV) NO).
    - apply read_gives; [apply as_items_distinct, entries_nodup, NU|apply items_text|]. left. apply as_items_in. rewrite entries_app. apply in_or_app. right. left. reflexivity.
  Qed.
  (** Without a place for the file: the defaults; nothing is written. *)
  Theorem C119_no_place w p d : its_file w p -> in_directory p d -> alookup p (w_files w) = None ->
    (~ has_dir w d /\ (d = "" \/ can_make d = false)) \/ writable p = false ->
    exists c, snd (import w) = Ok c /\ path c = Some p /\ has_defaults c /\ w_files (fst (import w)) = w_files w.
  Proof.
    intros F D NA H. apply its_file_iff in F. subst p. apply in_directory_iff in D. subst d. pose proof (import_outcome w) as O.
    destruct (init_file_absent w NA) as [(T1 & _ & WR & _)|[_ EI]].
    - exfalso. destruct H as [[NH CM]|H]; [|congruence]. unfold Startup.make_dir in T1. destruct (there (dirname (config_path w)) w) eqn:T; [apply NH, there_iff, T|].
      destruct CM as [CM|CM]; rewrite CM in T1; cbn in T1; rewrite ?andb_false_r in T1; [unfold Startup.there in T1; cbn in T1; discriminate T1|].
      rewrite (there_files (dirname (config_path w)) w) in T1 by reflexivity. congruence.
    - destruct (make_dir_files (dirname (config_path w)) w) as [M _]. rewrite EI, M, NA in O. cbn in O. eexists. split; [exact O|]. split; [reflexivity|]. split.
      + intros n v. apply (lookup_in stated n v (stated_nodup home)).
      + destruct (import_world w) as [[-> _]|(kvs & _ & K & _)]; [rewrite EI; exact M|]. rewrite EI, M, NA in K. discriminate K.
  Qed.
  (** Starting again gives the same values and writes nothing. *)
  Theorem C119_again w c : (forall q kvs, alookup q (w_files w) = Some (Mapping kvs) -> distinct kvs /\ forall k v, In (k, v) kvs -> lasting v) -> snd (import w) = Ok c ->
    exists c', snd (import (fst (import w))) = Ok c' /\ path c' = path c /\ w_files (fst (import (fst (import w)))) = w_files (fst (import w)) /\
      forall n v, an_option n -> alookup n (vals c) = Some v -> exists v', alookup n (vals c') = Some v' /\ alike v v'.
  Proof.
    intros PR H. pose proof (import_outcome w) as O. rewrite H in O. set (w' := fst (import w)).
    assert (EN : w_env Obj w' = w_env Obj w). { unfold w'. destruct (import_world w) as [[-> _]|(kvs & _ & _ & _ & _ & ->)]; apply init_file_env. }
    pose proof (config_path_env w w' EN) as CP.
    assert (SAME : forall l c1, alookup (config_path w) (w_files w') = Some (Mapping l) -> forallb is_text l = true -> (writable (config_path w) = false \/ ~ outdated (Some (Mapping l))) -> path c = Some (config_path w) ->
              (forall n v, an_option n -> alookup n (vals c) = Some v -> exists v', alookup n (texts (updated l (as_items defaults))) = Some v' /\ alike v v') ->
              c1 = mkConf (texts (updated l (as_items defaults))) (Some (config_path w)) ->
              exists c', snd (import w') = Ok c' /\ path c' = path c /\ w_files (fst (import w')) = w_files w' /\ forall n v, an_option n -> alookup n (vals c) = Some v -> exists v', alookup n (vals c') = Some v' /\ alike v v').
    { intros l c1 E T NO PC V ->. pose proof (import_outcome w') as O'. rewrite <- CP in E. pose proof (init_file_present w' _ E) as I'. rewrite I', E in O'. cbn in O'. rewrite T in O'.
      eexists. split; [exact O'|]. split; [rewrite CP; symmetry; exact PC|]. split; [|exact V]. destruct (import_world w') as [[-> _]|(kvs & OD & _ & _ & WR & _)]; [exact I'|].
      exfalso. rewrite I', E in OD. rewrite CP in WR. destruct NO as [NO|NO]; [congruence|exact (NO OD)]. }
    assert (REWRITTEN : forall vs, NoDup (akeys vs) -> safe vs -> alookup (config_path w) (w_files w') = Some (written (List.length (entries vs)) vs) -> path c = Some (config_path w) ->
              (forall n v, an_option n -> alookup n (vals c) = Some v -> exists v', alookup n (texts (updated (as_items (entries vs)) (as_items defaults))) = Some v' /\ alike v v') ->
              exists c', snd (import w') = Ok c' /\ path c' = path c /\ w_files (fst (import w')) = w_files w' /\ forall n v, an_option n -> alookup n (vals c) = Some v -> exists v', alookup n (vals c') = Some v' /\ alike v v').
    { intros vs N S E PC V. rewrite written_all in E by exact S. eapply SAME; [exact E|apply items_text| |exact PC|exact V|reflexivity]. right. intros (k0 & v0 & K0 & _ & L & LT). injection K0 as <-.
      assert (L' : alookup "version" (texts (updated (as_items (entries vs)) (as_items defaults))) = Some (VStr version)).
      { apply read_gives; [apply as_items_distinct, entries_nodup, N|apply items_text|]. left. apply as_items_in. rewrite entries_app. apply in_or_app. right. left. reflexivity. }
      rewrite L' in L. injection L as <-. apply ltb_lt in LT. rewrite cmp_refl in LT. discriminate LT. }
    destruct (import_world w) as [[EW NO]|(kvs & OD & K & T & WR & EW)].
    - (* not written again *)
      fold w' in EW. destruct (alookup (config_path w) (w_files (init_file w))) as [[kvs| |]|] eqn:E; cbn [outcome] in O.
      + destruct (forallb is_text kvs) eqn:T; [|discriminate O]. injection O as ->. eapply SAME; [rewrite EW; exact E|exact T|exact NO|reflexivity| |reflexivity].
        intros n v _ L. exists v. split; [exact L|left; reflexivity].
      + injection O as ->. pose proof (import_outcome w') as O'. assert (E' : alookup (config_path w') (w_files w') = Some (NoMapping Obj)) by (rewrite CP, EW; exact E).
        pose proof (init_file_present w' _ E') as I'. rewrite I', E' in O'. cbn in O'. eexists. split; [exact O'|]. split; [cbn; rewrite CP; reflexivity|]. split.
        * destruct (import_world w') as [[-> _]|(kvs & (? & ? & X & _) & _)]; [exact I'|]. rewrite I', E' in X. discriminate X.
        * intros n v _ L. exists v. split; [exact L|left; reflexivity].
      + injection O as ->. pose proof (import_outcome w') as O'. assert (E' : alookup (config_path w') (w_files w') = Some (Broken Obj)) by (rewrite CP, EW; exact E).
        pose proof (init_file_present w' _ E') as I'. rewrite I', E' in O'. cbn in O'. eexists. split; [exact O'|]. split; [cbn; rewrite CP; reflexivity|]. split.
        * destruct (import_world w') as [[-> _]|(kvs & (? & ? & X & _) & _)]; [exact I'|]. rewrite I', E' in X. discriminate X.
        * intros n v _ L. exists v. split; [exact L|left; reflexivity].
      + (* still no file *)
        injection O as ->. assert (A : alookup (config_path w) (w_files w) = None).
        { destruct (alookup (config_path w) (w_files w)) as [x|] eqn:A; [|reflexivity]. rewrite (init_file_present w x A), A in E. discriminate E. }
        destruct (make_dir_files (dirname (config_path w)) w) as [M1 M2].
        destruct (init_file_absent w A) as [(_ & _ & _ & x & EX & _)|[WHY EI]]; [congruence|]. rewrite EI in EW.
        assert (A' : alookup (config_path w') (w_files w') = None) by (rewrite CP, EW, M1; exact A).
        assert (EI' : init_file w' = make_dir (dirname (config_path w')) w').
        { destruct (init_file_absent w' A') as [(T1 & T2 & WR & _)|[_ X]]; [|exact X]. exfalso. rewrite CP in T1, T2, WR. destruct WHY as [W1|[W1|W1]]; [| |congruence].
          - rewrite EW, (make_dir_twice _ _ W1) in T1. discriminate T1.
          - rewrite EW in T2. rewrite (make_dir_there _ _ _ W1) in T2. discriminate T2. }
        destruct (make_dir_files (dirname (config_path w')) w') as [M1' _]. pose proof (import_outcome w') as O'. rewrite EI', M1', A' in O'. cbn in O'.
        eexists. split; [exact O'|]. split; [cbn; rewrite CP; reflexivity|]. split.
        * destruct (import_world w') as [[-> _]|(kvs & (? & ? & X & _) & _)]; [rewrite EI'; exact M1'|]. rewrite EI', M1', A' in X. discriminate X.
        * intros n v _ L. exists v. split; [exact L|left; reflexivity].
    - (* written again *)
      rewrite K in O. cbn in O. rewrite T in O. injection O as ->.
      assert (DL : distinct kvs /\ safe (texts (updated kvs (as_items defaults)))).
      { destruct (alookup (config_path w) (w_files w)) as [x|] eqn:A.
        - rewrite (init_file_present w x A), A in K. injection K as ->. destruct (PR _ _ A) as [P1 P2]. split; [exact P1|]. apply updated_safe; assumption.
        - exfalso. destruct (init_file_absent w A) as [(_ & _ & _ & x & EX & NC)|[_ EI]]; [|rewrite EI, (proj1 (make_dir_files _ w)), A in K; discriminate K].
          rewrite EX in OD. destruct OD as (k0 & v0 & K0 & T0 & L & LT). injection K0 as ->. inversion NC as [N X|kvs' OL T' X].
          + subst k0. cbn in L. injection L as <-. apply ltb_lt in LT. rewrite cmp_refl in LT. discriminate LT.
          + destruct (PR _ _ OL) as [P1 P2]. rewrite written_all in X by (apply updated_safe; assumption).
            change (Mapping (as_items (entries (texts (updated kvs' (as_items defaults))))) = Mapping k0) in X.
            assert (X' : as_items (entries (texts (updated kvs' (as_items defaults)))) = k0) by congruence. clear X. subst k0.
            assert (L' : alookup "version" (texts (updated (as_items (entries (texts (updated kvs' (as_items defaults))))) (as_items defaults))) = Some (VStr version)).
            { apply read_gives; [apply as_items_distinct, entries_nodup, updated_nodup; assumption|apply items_text|]. left. apply as_items_in. rewrite entries_app. apply in_or_app. right. left. reflexivity. }
            rewrite L' in L. injection L as <-. apply ltb_lt in LT. rewrite cmp_refl in LT. discriminate LT. }
      destruct DL as [DI SA]. pose proof (updated_nodup kvs DI T) as NU. eapply REWRITTEN; [exact NU|exact SA| |reflexivity|].
      + fold w' in EW. rewrite EW. cbn. apply alookup_aset_eq.
      + intros n v AO L. cbn [vals] in L. apply alookup_In in L. apply (proj1 (written_read _ n NU (fun E => version_not_option (eq_ind n _ AO _ E))) v L AO).
  Qed.
  (** The umask of the process: as before if the directory is there or can be made; otherwise it stays
      restricted. *)
  Lemma import_umask w : w_umask (fst (import w)) = w_umask (make_dir (dirname (config_path w)) w).
  Proof.
    assert (I : w_umask (init_file w) = w_umask (make_dir (dirname (config_path w)) w)).
    { unfold Startup.init_file. set (w1 := make_dir _ w). destruct (there (dirname (config_path w)) w1); [|reflexivity]. destruct (there (config_path w) w1); [reflexivity|].
      pose proof (migrate_fields (config_path w) w1) as M. destruct (migrate (config_path w) w1) as [w2 []]; cbn [fst] in M; destruct M as (_ & _ & M & _); [exact M|].
      destruct (save_fields (config_path w) (as_items defaults) w2) as (_ & _ & S). congruence. }
    destruct (import_world w) as [[-> _]|(kvs & _ & _ & _ & _ & ->)]; exact I.
  Qed.
  Theorem C119_umask_partial w p d : its_file w p -> in_directory p d -> has_dir w d \/ (d <> "" /\ can_make d = true) -> w_umask (fst (import w)) = w_umask w.
  Proof.
    intros F D H. apply its_file_iff in F. subst p. apply in_directory_iff in D. subst d. rewrite import_umask. unfold Startup.make_dir.
    destruct (there (dirname (config_path w)) w) eqn:T; [reflexivity|]. destruct H as [H|[N C]]; [apply there_iff in H; congruence|].
    destruct (String.eqb_spec (dirname (config_path w)) "") as [E|_]; [congruence|]. rewrite C. reflexivity.
  Qed.
  Theorem C119_umask_refuted w p d : its_file w p -> in_directory p d -> ~ has_dir w d -> d = "" \/ can_make d = false -> w_umask (fst (import w)) = 7 * 8 + 7.
  Proof.
    intros F D H C. apply its_file_iff in F. subst p. apply in_directory_iff in D. subst d. rewrite import_umask. unfold Startup.make_dir.
    destruct (there (dirname (config_path w)) w) eqn:T; [exfalso; apply H, there_iff, T|]. destruct C as [C|C]; rewrite C; [reflexivity|]. rewrite andb_false_r. reflexivity.
  Qed.

  (** The state in which the programs of Config.v begin. *)
  Theorem C119_continues w p kvs ObsSt (files : list (string * list (string * value))) env (o : ObsSt) : its_file w p -> alookup p (w_files w) = Some (Mapping kvs) -> of_texts kvs -> (forall k v, In (k, v) kvs -> lasting v) ->
    alookup p files = Some (texts kvs) -> snd (import w) = Ok (base (Config.start Obj obj_yaml home writable version ObsSt p files env o)).
  Proof.
    intros F E T L FL. apply its_file_iff in F. subst p. apply of_texts_iff in T. pose proof (import_outcome w) as O. rewrite (init_file_present w _ E), E in O. cbn [outcome] in O. rewrite T in O.
    rewrite O. unfold Config.start. rewrite FL. unfold load. assert (S : forallb (fun p => yaml_safe Obj obj_yaml (snd p)) (texts kvs) = true) by (apply safe_iff; intros n v I; apply text_in in I; exact (L _ _ I)).
    rewrite S. cbn [base]. f_equal. f_equal. destruct (updated_text kvs (as_items defaults) T (items_text _)) as [_ ->]. rewrite texts_items. reflexivity.
  Qed.
  Lemma filter_perm {X} (f : X -> bool) l l' : Permutation l l' -> Permutation (filter f l) (filter f l').
  Proof. induction 1 as [|x l l' _ IH|x y l|l l' l'' _ IH1 _ IH2]; cbn; [constructor|destruct (f x); [constructor|]; assumption|destruct (f x), (f y); try apply Permutation_refl; apply perm_swap|exact (Permutation_trans IH1 IH2)]. Qed.
  (** ... and the files that they find: the same entries in the configuration file, the others as they were. *)
  Theorem C119_continues_files w p kvs ObsSt (files : list (string * list (string * value))) env (o : ObsSt) : its_file w p -> alookup p (w_files w) = Some (Mapping kvs) -> of_texts kvs -> (forall k v, In (k, v) kvs -> lasting v) ->
    alookup p files = Some (texts kvs) -> let found := Config.files (Config.start Obj obj_yaml home writable version ObsSt p files env o) in
    (exists kvs' l, alookup p (w_files (fst (import w))) = Some (Mapping kvs') /\ of_texts kvs' /\ alookup p found = Some l /\ Permutation l (texts kvs')) /\
    (forall q, q <> p -> alookup q found = alookup q files).
  Proof.
    intros F E T L FL. apply its_file_iff in F. subst p. pose proof T as T0. apply of_texts_iff in T. cbv zeta.
    assert (S : forallb (fun p => yaml_safe Obj obj_yaml (snd p)) (texts kvs) = true) by (apply safe_iff; intros n v I; apply text_in in I; exact (L _ _ I)).
    destruct (updated_text kvs (as_items defaults) T (items_text _)) as [_ U]. rewrite texts_items in U.
    unfold Config.start. rewrite FL. unfold load. rewrite S, <- U. set (vs := texts (updated kvs (as_items defaults))) in *. cbn [Config.files].
    pose proof (import_world w) as I. rewrite (init_file_present w _ E), E in I. unfold outdated in I. fold vs in I. split.
    - destruct I as [[-> N]|(k' & O & K & T' & WR & ->)].
      + rewrite (init_file_present w _ E), E. exists kvs, (texts kvs). repeat split; try assumption; [|apply Permutation_refl].
        destruct (alookup "version" vs) as [[| | |v|]|] eqn:V; try exact FL. destruct (String.ltb v version) eqn:LT; [|exact FL]. unfold save_to.
        destruct N as [->|N]; [exact FL|]. exfalso. apply N. exists kvs, v. auto.
      + injection K as <-. destruct O as (k0 & v & K & _ & V & LT). injection K as <-. fold vs in V |- *. rewrite V, LT. unfold save_to. rewrite WR, alookup_aset_eq.
        cbn [w_files with_file Startup.w_files]. rewrite alookup_aset_eq, written_all by (apply updated_safe; assumption). eexists. eexists. split; [reflexivity|]. split; [apply of_texts_iff, items_text|]. split; [reflexivity|].
        rewrite texts_items. unfold dumped. apply Permutation_app_tail, filter_perm, Permutation_sym, sorted_perm.
    - intros q Q. destruct (alookup "version" vs) as [[| | |v|]|]; try reflexivity. destruct (String.ltb v version); [|reflexivity]. unfold save_to. destruct (writable (config_path w)); [|reflexivity].
      rewrite alookup_aset_neq by congruence. reflexivity.
  Qed.

  (** ** C120 *)
  Notation killed_saving := (killed_saving Obj obj_yaml home writable version).
  (** A process that was killed while it saved the values: the next one has those options that were
      written, which are the first ones in the alphabet, and the defaults of the others. *)
  Theorem C120_killed_partial k vals w p : its_file w p -> writable p = true -> NoDup (akeys vals) -> safe vals ->
    exists c, snd (import (killed_saving k vals w)) = Ok c /\
    forall n d, In (n, d) stated ->
      (forall v l, In (n, v) vals -> changed_to home n v -> before home vals n l -> alookup n (Config.vals c) = Some (if (List.length l <? k)%nat then v else d)) /\
      ((forall v, In (n, v) vals -> ~ changed_to home n v) -> alookup n (Config.vals c) = Some d).
  Proof.
    intros F WR N S. apply its_file_iff in F. subst p. set (w' := killed_saving k vals w).
    assert (CP : config_path w' = config_path w) by (apply config_path_env; unfold w', Startup.killed_saving; rewrite WR; reflexivity).
    assert (E : alookup (config_path w') (w_files w') = Some (written k vals)) by (rewrite CP; unfold w', Startup.killed_saving; rewrite WR; cbn; apply alookup_aset_eq).
    pose proof (import_outcome w') as O. rewrite (init_file_present w' _ E), E in O.
    destruct k as [|k].
    - cbn in O. eexists. split; [exact O|]. intros n d ID. cbn [Config.vals]. apply (lookup_in stated n d (stated_nodup home)) in ID. split; [|intros _; exact ID].
      intros v l _ _ _. replace (List.length l <? 0)%nat with false by (symmetry; apply Nat.ltb_ge; lia). exact ID.
    - rewrite written_some in O by (try exact S; lia). cbn [outcome] in O. rewrite items_text in O. eexists. split; [exact O|]. intros n d ID. cbn [Config.vals].
      assert (NF : NoDup (akeys (firstn (Datatypes.S k) (entries vals)))).
      { pose proof (entries_nodup home version vals N) as NE. rewrite akeys_map in NE |- *. rewrite <- (firstn_skipn (Datatypes.S k) (entries vals)), map_app in NE.
        clear -NE. induction (map fst (firstn (Datatypes.S k) (entries vals))) as [|x l IH]; [constructor|]. cbn in NE. inversion NE as [|? ? H1 H2]; subst. constructor; [|apply IH, H2]. intros I. apply H1, in_or_app. left. exact I. }
      assert (NV : n <> "version") by (intros ->; apply version_not_option; exists d; exact ID).
      destruct (unfinished home version vals n (Datatypes.S k) N NV) as [U1 U2].
      destruct (updated_text (as_items (firstn (Datatypes.S k) (entries vals))) (as_items defaults) (items_text _) (items_text _)) as [_ ->]. rewrite !texts_items, alookup_update by exact NF.
      apply (lookup_in stated n d (stated_nodup home)) in ID. rewrite defaults_stated, ID. split.
      + intros v l I C B. rewrite (U1 v l I C B). destruct (List.length l <? Datatypes.S k)%nat; reflexivity.
      + intros NC. rewrite (U2 NC). reflexivity.
  Qed.
  (** Killed before the first entry was written: every setting is lost, and the file stays so. *)
  Theorem C120_lost_refuted vals w p : its_file w p -> writable p = true -> let w' := killed_saving 0 vals w in
    exists c, snd (import w') = Ok c /\ (forall n v, alookup n (Config.vals c) = Some v <-> In (n, v) stated) /\ w_files (fst (import w')) = w_files w'.
  Proof.
    intros F WR w'. assert (F' : its_file w' p) by (apply its_file_iff in F; apply its_file_iff; rewrite F; symmetry; apply config_path_env; unfold w', Startup.killed_saving; rewrite <- F, WR; reflexivity).
    assert (E : alookup p (w_files w') = Some (NoMapping Obj)).
    { apply its_file_iff in F. unfold w', Startup.killed_saving. rewrite <- F, WR. cbn. apply alookup_aset_eq. }
    destruct (C119_unreadable w' p _ F' E (or_introl eq_refl)) as (c & C1 & _ & C2 & C3). exists c. auto.
  Qed.
End Any.

(** ** Cases that meet the hypotheses *)
Definition no_obj (o : Empty_set) : bool := match o with end.
Definition conf_p := "/h/.config/earthkit/regrid/config.yaml".
Definition conf_d := "/h/.config/earthkit/regrid".
Definition anywhere (p : string) : bool := true.
Definition nowhere (p : string) : bool := false.
Notation start_in := (import Empty_set no_obj "/h" anywhere "0.5").
Definition old_kvs : list (ykey * value Empty_set) := [(Text "cache-policy", VStr "off"); (Text "check-out-of-date-urls", VInt 0); (Text "number", VInt 3); (Text "version", VStr "0.3")].
Definition fresh_home : world Empty_set := mkWorld Empty_set [] ["/h"] [] 18.
Definition old_home : world Empty_set := mkWorld Empty_set [] ["/h"] [("/h/.earthkit_regrid/settings.yaml", Mapping Empty_set old_kvs)] 18.
Example C119_first_met : its_file "/h" fresh_home conf_p /\ in_directory conf_p conf_d /\ nothing_at fresh_home conf_p /\ anywhere conf_d = true.
Proof.
  split; [right; split; [discriminate|reflexivity]|]. split; [apply in_directory_iff; reflexivity|]. split; [|reflexivity]. split; [cbn; intros [H|[]]; discriminate H|reflexivity].
Qed.
Example C119_migrated_met : alookup "/h/.earthkit_regrid/settings.yaml" (w_files Empty_set old_home) = Some (Mapping Empty_set old_kvs) /\ distinct old_kvs /\ of_texts old_kvs /\
  snd (start_in anywhere old_home) = Ok (mkConf (aset "version" (VStr "0.5") (aset "cache-policy" (VStr "off") (Config.defaults Empty_set "/h"))) (Some conf_p)).
Proof.
  split; [reflexivity|]. split; [cbn; repeat (apply NoDup_cons; [cbn; intuition discriminate|]); apply NoDup_nil|]. split; [|vm_compute; reflexivity].
  intros k v I. cbn in I. repeat (destruct I as [I|I]; [injection I as <- _; eauto|]). destruct I.
Qed.
(** A file of an older version that is in its place: it is written again. *)
Definition outdated_home : world Empty_set := mkWorld Empty_set [] ["/h"; conf_d] [(conf_p, Mapping Empty_set old_kvs)] 18.
Example C119_continues_met : its_file "/h" outdated_home conf_p /\ of_texts old_kvs /\ (forall k v, In (k, v) old_kvs -> lasting no_obj v) /\
  Config.files (Config.start Empty_set no_obj "/h" anywhere "0.5" unit conf_p [(conf_p, texts Empty_set old_kvs)] [] tt) = [(conf_p, [("cache-policy", VStr "off"); ("version", VStr "0.5")])].
Proof.
  split; [right; split; [discriminate|reflexivity]|]. split; [intros k v I; cbn in I; repeat (destruct I as [I|I]; [injection I as <- _; eauto|]); destruct I|].
  split; [intros k v _ o; destruct o|vm_compute; reflexivity].
Qed.
(** A file with a number among its keys. *)
Theorem C119_fails_refuted : snd (start_in anywhere (mkWorld Empty_set [] ["/h"; conf_d] [(conf_p, Mapping Empty_set [(Other 0, VInt 1)])] 18)) = Raise TypeError.
Proof. vm_compute. reflexivity. Qed.
(** A file named without a directory, as in EARTHKIT_REGRID_CONFIG_FILE=c.yaml. *)
Example C119_umask_met : its_file "/h" (mkWorld Empty_set [("EARTHKIT_REGRID_CONFIG_FILE", "c.yaml")] ["/h"] [] 18) "c.yaml" /\ in_directory "c.yaml" "" /\
  w_umask Empty_set (fst (start_in anywhere (mkWorld Empty_set [("EARTHKIT_REGRID_CONFIG_FILE", "c.yaml")] ["/h"] [] 18))) = 63.
Proof. split; [left; split; [reflexivity|discriminate]|]. split; [apply in_directory_iff; reflexivity|vm_compute; reflexivity]. Qed.
(** Two changed options, killed after the first was written. *)
Definition two_changed : list (string * value Empty_set) := aset "url-download-timeout" (VStr "1h") (aset "cache-policy" (VStr "off") (Config.defaults Empty_set "/h")).
Example C120_met : before "/h" two_changed "url-download-timeout" ["cache-policy"] /\ changed_to "/h" "url-download-timeout" (VStr "1h" : value Empty_set) /\ NoDup (akeys two_changed).
Proof.
  split; [|split].
  - split; [repeat constructor; intros []|]. intros m. split.
    + intros [<-|[]]. split; [reflexivity|]. exists (VStr "off"). split; [cbn; auto 20|]. exists (VStr "user"). split; [cbn; auto 20|]. intros [H|(b & H & _)]; discriminate H.
    + intros (L & v & I & (d & ID & N)). cbn in I, ID.
      repeat (destruct I as [I|I]; [injection I as <- <-; try (left; reflexivity); exfalso; try discriminate L; repeat (destruct ID as [ID|ID]; [try discriminate ID; injection ID as <-; apply N; left; reflexivity|]); destruct ID|]). destruct I.
  - exists (VStr "30s"). split; [cbn; auto 20|]. intros [H|(b & H & _)]; discriminate H.
  - cbn. repeat (apply NoDup_cons; [cbn; intuition discriminate|]). apply NoDup_nil.
Qed.

Print Assumptions C119_existing.
Print Assumptions C119_unreadable.
Print Assumptions C119_fails_partial.
Print Assumptions C119_others.
Print Assumptions C119_kept.
Print Assumptions C119_first.
Print Assumptions C119_migrated.
Print Assumptions C119_no_place.
Print Assumptions C119_again.
Print Assumptions C119_umask_partial.
Print Assumptions C119_umask_refuted.
Print Assumptions C119_continues.
Print Assumptions C119_continues_files.
Print Assumptions C120_killed_partial.
Print Assumptions C120_lost_refuted.
