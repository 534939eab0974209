(** C44, C53, C64, C84: what cache_file and download_and_cache do, one call at a time. *)
From Verif Require Import PyBase PyStr ListLemmas Disk DiskSpec DiskProofs DiskProofs2 Props_Disk Props_Disk2 Key KeySpec KeyProofs Props_Key CacheFile.
Set Default Proof Using "Type".
Local Open Scope string_scope.
Local Open Scope list_scope.
Local Open Scope Z_scope.

Section Props.
  Context {C : Type}.
  Variable weigh : C -> node.
  Variable sha : string -> string.
  Variable dir : string.
  Variables limit usage : option Z.
  Notation world := (@world C).
  Implicit Types w : world.
  Implicit Types d : disk json.
  Notation paths l := (map (@r_path json) l).
  Notation creator := (@creator C).
  Notation cache_file := (cache_file weigh sha dir limit usage).
  Notation path_of := (path_of sha dir).

  (** ** Vocabulary *)
  (** A name without slashes; the table and the directory as the cache leaves them. *)
  Definition fits (q : request) w : Prop := has_slash (key_name sha q) = false /\ tidy dir (w_disk w).
  (** What somebody else's work (a force or creation function) leaves of the file [p]. *)
  Definition spares (p : string) w w' : Prop := tidy dir (w_disk w') /\ there w' p = there w p /\ content w' p = content w p /\ count_occ string_dec (w_log w') p = count_occ string_dec (w_log w) p.
  (** The world after [p] has been looked up: only the table has changed, by an access to [p] or a new entry. *)
  Definition looked_up (t : Z) (p : string) (q : request) w w' : Prop :=
    files (w_disk w') = files (w_disk w) /\ w_text w' = w_text w /\ w_log w' = w_log w /\ tidy dir (w_disk w') /\
    (forall r, r_path r <> p -> In r (rows (w_disk w')) <-> In r (rows (w_disk w))) /\
    (forall r, In r (rows (w_disk w)) -> r_path r = p -> In (mkRow p (r_owner r) (r_args r) (r_created r) t (r_accesses r + 1) (r_parent r) (r_size r) (r_kind r) (r_data r)) (rows (w_disk w'))) /\
    (~ In p (paths (rows (w_disk w))) -> In (mkRow p (q_owner q) (q_args q) t t 1 None None None None) (rows (w_disk w'))).
  (** What force says. *)
  Definition says (f : force) (q : request) (p : string) w : world * result bool :=
    match f with
    | FFlag b => (w, Ok b)
    | FCall g => g (q_args q) p (match find (fun r => String.eqb (r_path r) p) (rows (w_disk w)) with Some r => r_data r | None => None end) w
    end.
  (** Creating [p] from the world [w]: the creation function writes p.tmp, which gets its final name. *)
  Definition creates (q : request) (p : string) (create : creator) w (out : world * result string) : Prop :=
    let '(w1, r) := create (p ++ ".tmp")%string (q_args q) (mkWorld (w_disk w) (w_text w) (w_log w ++ [p])) in
    match r with
    | Raise e => out = (w1, Raise e)
    | OutOfFuel => out = (w1, OutOfFuel)
    | Ok _ =>
        match content w1 (p ++ ".tmp") with
        | None => out = (w1, Raise FileNotFoundError)
        | Some c => tidy dir (w_disk w1) -> exists w', out = (w', Ok p) /\ w_log w' = w_log w1 /\ (there w' p = true -> content w' p = Some c) /\ there w' (p ++ ".tmp") = false /\ tidy dir (w_disk w')
        end
    end.

  (** The world when cache_file has looked up the file: see [C44_lookup]. *)
  Definition seen (a : around) (q : request) w : world := fst (register_file dir (a_time a) (path_of q) q w).

  (** ** Lemmas *)
  Lemma andthen_ok {A B} w (x : A) (k : A -> world -> world * result B) : andthen (w, Ok x) k = k x w.
  Proof using. reflexivity. Qed.
  Lemma andthen_raise {A B} w e (k : A -> world -> world * result B) : andthen (w, Raise e) k = (w, Raise e).
  Proof using. reflexivity. Qed.
  Lemma name_not_empty q : key_name sha q <> "".
  Proof using. unfold key_name. destruct (lower (q_owner q)); discriminate. Qed.
  Lemma path_inside q w : fits q w -> inside dir (path_of q).
  Proof using. intros [S _]. apply join_inside; [exact S|apply name_not_empty]. Qed.
  Lemma find_none_paths d p : find_row d p = None <-> ~ In p (paths (rows d)).
  Proof using.
    split; [apply find_row_None|]. intros N. unfold find_row. destruct (find _ _) as [r|] eqn:F; [|reflexivity]. apply find_some in F. destruct F as [I E]. apply String.eqb_eq in E. exfalso. apply N. rewrite <- E. apply in_map, I.
  Qed.
  Lemma register_ok t p q w : inside dir p -> tidy dir (w_disk w) -> exists w1, register_file dir t p q w = (w1, Ok tt) /\ looked_up t p q w w1.
  Proof using.
    intros I T. destruct (register_tidy dir t p (q_owner q) (q_args q) None (w_disk w) T I ltac:(discriminate)) as (d1 & E & T1 & F & R1 & R2).
    unfold register_file, manager. rewrite E. eexists. split; [reflexivity|]. unfold looked_up. cbn [w_disk w_text w_log]. repeat (split; [try assumption; reflexivity|]).
    destruct (find_row (w_disk w) p) as [r0|] eqn:FR.
    - specialize (R2 ltac:(discriminate)). rewrite R2. split; [|split].
      + intros r N. rewrite in_map_iff. split.
        * intros (x & X & J). destruct (String.eqb_spec (r_path x) p) as [K|K]; [subst r; cbn in N; contradiction|subst; exact J].
        * intros J. exists r. split; [|exact J]. destruct (String.eqb_spec (r_path r) p); [contradiction|reflexivity].
      + intros r J K. apply in_map_iff. exists r. split; [|exact J]. rewrite K, String.eqb_refl. unfold touch. rewrite K. reflexivity.
      + intros N. exfalso. apply N. apply find_some in FR. destruct FR as [J K]. apply String.eqb_eq in K. rewrite <- K. apply in_map, J.
    - rewrite (R1 eq_refl). apply find_none_paths in FR. split; [|split].
      + intros r N. rewrite in_app_iff. split; [intros [J|[<-|[]]]; [exact J|cbn in N; contradiction]|auto].
      + intros r J K. exfalso. apply FR. rewrite <- K. apply in_map, J.
      + intros _. apply in_or_app. right. left. reflexivity.
  Qed.
  Lemma looked_there t p q w w1 x : looked_up t p q w w1 -> there w1 x = there w x.
  Proof using. intros (F & _). unfold there, file_exists. rewrite F. reflexivity. Qed.
  Lemma looked_content t p q w w1 x : looked_up t p q w w1 -> content w1 x = content w x.
  Proof using. intros L. unfold content. rewrite (looked_there _ _ _ _ _ _ L). destruct L as (_ & -> & _). reflexivity. Qed.

  Lemma tmp_neq p : (p ++ ".tmp")%string <> p.
  Proof using. clear. intros H. apply (f_equal String.length) in H. rewrite slength_app in H. cbn in H. lia. Qed.
  Lemma there_write w p c x : there (write weigh p c w) x = if String.eqb x p then true else there w x.
  Proof using.
    unfold there, file_exists, write, amem. cbn [w_disk files]. destruct (String.eqb_spec x p) as [->|N]; [rewrite alookup_aset_eq; reflexivity|]. rewrite alookup_aset_neq by congruence. reflexivity.
  Qed.
  Lemma there_erase w p x : there (erase p w) x = if String.eqb x p then false else there w x.
  Proof using.
    unfold there, file_exists, erase, unlink, amem. cbn [w_disk files]. destruct (String.eqb_spec x p) as [->|N]; [rewrite alookup_aremove_eq; reflexivity|]. rewrite alookup_aremove_neq by congruence. reflexivity.
  Qed.
  Lemma there_In w x : there w x = true <-> In x (akeys (files (w_disk w))).
  Proof using. apply exists_spec. Qed.
  Hypothesis weights : forall c, 0 <= n_size (weigh c).
  Lemma write_tidy p c w : tidy dir (w_disk w) -> tidy dir (w_disk (write weigh p c w)).
  Proof using weights.
    intros T. split; cbn [write w_disk rows files]; try apply T; [apply aset_NoDup, T|]. intros x n I. apply aset_In in I. destruct I as [->|I]; [apply weights|exact (t_nodes _ _ T _ _ I)].
  Qed.
  Lemma erase_tidy p w : tidy dir (w_disk w) -> tidy dir (w_disk (erase p w)).
  Proof using.
    intros T. split; cbn [erase unlink w_disk rows files]; try apply T; [apply aremove_NoDup, T|]. intros x n I. apply aremove_In in I. exact (t_nodes _ _ T _ _ (proj1 I)).
  Qed.

  Lemma decache_any' e latest bytes d : tidy dir d -> exists d' r, decache dir e latest bytes d = Ok (d', r) /\ tidy dir d' /\ (forall x, In x (akeys (files d')) -> In x (akeys (files d))).
  Proof using.
    intros T. destruct (decache_any dir e latest bytes d T) as (d' & r & E & [->|TR]); exists d', r || exists d, r; (split; [exact E|]); [auto|].
    split; [exact (trimmed_tidy dir _ _ _ _ _ T TR)|]. destruct TR as [(ev & CU & _) _]. intros x. apply (cut_files_incl _ _ _ _ _ CU).
  Qed.
  Lemma check_ok e d : tidy dir d -> exists d', check_cache_size JNull dir e limit usage d = Ok d' /\ tidy dir d' /\ (forall x, In x (akeys (files d')) -> In x (akeys (files d))).
  Proof using.
    intros T. unfold check_cache_size.
    assert (STEP : forall bytes d0, tidy dir d0 -> exists d', (h <- housekeeping JNull dir e false d0 ;; r <- decache dir e (latest_date (now e) h) bytes h ;; Ok (fst r)) = Ok d' /\ tidy dir d' /\ (forall x, In x (akeys (files d')) -> In x (akeys (files d0)))).
    { intros bytes d0 T0. destruct (housekeeping_spec JNull dir e false d0 T0) as (h & E & TH & F & _). rewrite E. cbn [bind]. destruct (decache_any' e (latest_date (now e) h) bytes h TH) as (d' & r & E' & T' & S). rewrite E'. cbn [bind fst]. exists d'. rewrite <- F. auto. }
    assert (S1 : exists d1, match limit with Some m => if cache_size d >? m then h <- housekeeping JNull dir e false d ;; r <- decache dir e (latest_date (now e) h) (cache_size d - m) h ;; Ok (fst r) else Ok d | None => Ok d end = Ok d1 /\ tidy dir d1 /\ (forall x, In x (akeys (files d1)) -> In x (akeys (files d)))).
    { destruct limit as [m|]; [|exists d; auto]. destruct (cache_size d >? m); [apply STEP, T|exists d; auto]. }
    destruct S1 as (d1 & E1 & T1 & I1). rewrite E1. cbn [bind]. destruct usage as [u|]; [|exists d1; auto]. destruct (percent e >? u); [|exists d1; auto].
    destruct (STEP (delta (percent e) u (disk_total e)) d1 T1) as (d2 & E2 & T2 & I2). exists d2. auto.
  Qed.
  Lemma update_ok p data d : inside dir p -> tidy dir d -> In p (akeys (files d)) -> exists n d', alookup p (files d) = Some n /\ update_entry dir p data d = Ok d' /\ tidy dir d' /\ files d' = files d /\
    rows d' = map (fun r => if String.eqb (r_path r) p then set_data data (set_size (n_size n) (n_dir n) r) else r) (rows d).
  Proof using.
    intros I T F. destruct (alookup p (files d)) as [n|] eqn:L; [|apply alookup_None in L; contradiction]. exists n.
    destruct I as (name & -> & N1 & N2). change (dir ++ "/" ++ name)%string with (join dir name) in *.
    destruct (apply_spec JNull dir (OUpdate name data) d T (conj N1 N2)) as [(d' & E & T' & _)|[E (n' & j & Q & X)]]; [|inversion Q; subst; contradiction].
    exists d'. cbn [apply] in E. split; [reflexivity|]. split; [exact E|]. split; [exact T'|]. unfold update_entry in E.
    rewrite L in E. destruct (negb _); [discriminate E|]. inversion E; subst. split; reflexivity.
  Qed.

  Lemma create_creates a q p create w : inside dir p -> creates q p create w (create_file weigh dir limit usage a q p create w).
  Proof using weights.
    intros I. unfold creates, create_file, logged. destruct (create _ _ _) as [w1 r]. destruct r as [data|e|]; try reflexivity.
    rewrite andthen_ok. unfold rename. destruct (content w1 (p ++ ".tmp")) as [c|] eqn:CT; [|reflexivity]. intros T1. rewrite andthen_ok.
    set (w2 := write weigh p c (erase (p ++ ".tmp") w1)).
    assert (T2 : tidy dir (w_disk w2)) by (apply write_tidy, erase_tidy, T1).
    assert (H2 : In p (akeys (files (w_disk w2)))) by (apply there_In; unfold w2; rewrite there_write, String.eqb_refl; reflexivity).
    destruct (update_ok p data _ I T2 H2) as (n & d3 & _ & E3 & T3 & F3 & _). unfold manager at 1. rewrite E3, andthen_ok.
    destruct (check_ok (a_check a) d3 T3) as (d4 & E4 & T4 & I4). unfold manager_async, manager. cbn [w_disk]. rewrite E4. cbn [fst w_text w_log].
    eexists. split; [reflexivity|]. split; [reflexivity|]. split; [|split; [|exact T4]].
    - unfold content. intros ->. cbn [w_text]. apply alookup_aset_eq.
    - destruct (there _ _) eqn:H; [exfalso|reflexivity]. apply there_In in H. cbn [w_disk] in H. apply I4 in H. rewrite F3 in H. apply there_In in H. unfold w2 in H. rewrite there_write, there_erase, String.eqb_refl in H.
      destruct (String.eqb_spec (p ++ ".tmp") p) as [X|X]; [exact (tmp_neq _ X)|discriminate H].
  Qed.

  (** ** C44 *)
  Lemma seen_ok a q w : fits q w -> register_file dir (a_time a) (path_of q) q w = (seen a q w, Ok tt) /\ looked_up (a_time a) (path_of q) q w (seen a q w).
  Proof using.
    intros F. destruct (register_ok (a_time a) (path_of q) q w (path_inside q w F) (proj2 F)) as (w1 & E & L). unfold seen. rewrite E. split; [reflexivity|exact L].
  Qed.
  (** Looking up changes the table only, and there only the entry of the file. *)
  Theorem C44_lookup a q w : fits q w -> looked_up (a_time a) (path_of q) q w (seen a q w).
  Proof using. intros F. apply (seen_ok a q w F). Qed.
  Lemma decide_ok a q f w : fits q w -> there w (path_of q) = true -> decide q (path_of q) f (seen a q w) = says f q (path_of q) (seen a q w).
  Proof using. intros F H. unfold decide. rewrite (looked_there _ _ _ _ _ _ (C44_lookup a q w F)), H. reflexivity. Qed.
  (** The file is there and need not be renewed: nothing happens but the look-up (and what the
      force function does). *)
  Theorem C44_hit a q f create w w2 : fits q w -> there w (path_of q) = true ->
    says f q (path_of q) (seen a q w) = (w2, Ok false) -> spares (path_of q) (seen a q w) w2 ->
    cache_file a q f create w = (w2, Ok (path_of q)) /\ content w2 (path_of q) = content w (path_of q).
  Proof using.
    intros F H W (_ & H2 & C2 & _). destruct (seen_ok a q w F) as [E L]. split; [|rewrite C2; apply (looked_content _ _ _ _ _ _ L)]. unfold CacheFile.cache_file. fold (path_of q). rewrite E, andthen_ok.
    rewrite (decide_ok a q f w F H), W, andthen_ok. cbv beta iota. rewrite andthen_ok, H2, (looked_there _ _ _ _ _ _ L), H. reflexivity.
  Qed.
  (** The file is missing: it is created, whatever force says. *)
  Theorem C44_miss a q f create w : fits q w -> there w (path_of q) = false -> creates q (path_of q) create (seen a q w) (cache_file a q f create w).
  Proof using weights.
    intros F H. destruct (seen_ok a q w F) as [E L].
    unfold CacheFile.cache_file. fold (path_of q). rewrite E, andthen_ok. unfold decide. rewrite (looked_there _ _ _ _ _ _ L), H, andthen_ok. cbv beta iota. rewrite andthen_ok, (looked_there _ _ _ _ _ _ L), H.
    apply create_creates, (path_inside q w F).
  Qed.
  (** The force function raises: so does cache_file. *)
  Theorem C44_raise a q f create w w2 e : fits q w -> there w (path_of q) = true -> says f q (path_of q) (seen a q w) = (w2, Raise e) -> cache_file a q f create w = (w2, Raise e).
  Proof using.
    intros F H W. destruct (seen_ok a q w F) as [E L]. unfold CacheFile.cache_file. fold (path_of q). rewrite E, andthen_ok, (decide_ok a q f w F H), W. reflexivity.
  Qed.
  (** The file is there and must be renewed: its entry goes with everything below, and it is created anew - if it can be deleted. *)
  Theorem C44_forced a q f create w w2 : fits q w -> there w (path_of q) = true ->
    says f q (path_of q) (seen a q w) = (w2, Ok true) -> spares (path_of q) (seen a q w) w2 ->
      exists w3 w4, without (locked (a_delete a)) (w_disk w2) [path_of q] (w_disk w3) /\ w_text w3 = w_text w2 /\ w_log w3 = w_log w2 /\ looked_up (a_again a) (path_of q) q w3 w4 /\
        (locked (a_delete a) (path_of q) = false -> ~ In (path_of q) (paths (rows (w_disk w3))) /\ there w4 (path_of q) = false /\ creates q (path_of q) create w4 (cache_file a q f create w)) /\
        (locked (a_delete a) (path_of q) = true -> cache_file a q f create w = (w4, Ok (path_of q)) /\ content w4 (path_of q) = content w (path_of q)).
  Proof using weights.
    intros F H W (T2 & H2 & C2 & _). pose proof (path_inside q w F) as IN. destruct (seen_ok a q w F) as [E L].
    pose proof (looked_there _ _ _ _ _ (path_of q) L) as H1. rewrite H in H1.
    destruct (delete_entry_spec dir (a_delete a) (depth (w_disk w2)) (w_disk w2) (path_of q) (match alookup (path_of q) (files (w_disk w2)) with Some n => n_size n | None => 0 end) T2 IN) as (d3 & t & E3 & CU & _).
    { intros r I. apply depth_bound. exact I. } { unfold depth. lia. }
    set (w3 := mkWorld d3 (w_text w2) (w_log w2)). assert (T3 : tidy dir (w_disk w3)) by exact (cut_tidy dir _ _ _ _ CU T2).
    destruct (register_ok (a_again a) (path_of q) q w3 IN T3) as (w4 & E4 & L4). exists w3, w4.
    assert (RUN : cache_file a q f create w = if there w4 (path_of q) then (w4, Ok (path_of q)) else create_file weigh dir limit usage a q (path_of q) create w4).
    { unfold CacheFile.cache_file. fold (path_of q). rewrite E, andthen_ok, (decide_ok a q f w F H), W, andthen_ok.
      unfold manager, decache_file. rewrite E3. cbn [bind fst]. cbv beta iota. rewrite andthen_ok. fold w3. rewrite E4, andthen_ok. reflexivity. }
    pose proof (cut_without _ _ _ _ (t_rows _ _ T2) CU) as WO.
    split; [exact WO|]. split; [reflexivity|]. split; [reflexivity|]. split; [exact L4|]. split.
    - intros LK. assert (N : there w4 (path_of q) = false).
      { rewrite (looked_there _ _ _ _ _ _ L4). destruct (there w3 (path_of q)) eqn:X; [exfalso|reflexivity]. apply there_In in X. exact (c_removed _ _ _ _ CU (path_of q) (or_introl (or_introl eq_refl)) LK X). }
      split; [|split; [exact N|rewrite RUN, N; apply create_creates, IN]]. intros X. apply in_map_iff in X. destruct X as (r & X & J). exact (c_left _ _ _ _ CU r J (or_introl (eq_sym X))).
    - intros LK. assert (N : there w4 (path_of q) = true).
      { rewrite (looked_there _ _ _ _ _ _ L4). apply there_In. destruct (in_dec string_dec (path_of q) (akeys (files (w_disk w3)))) as [X|X]; [exact X|exfalso].
        destruct (c_deleted _ _ _ _ CU (path_of q)) as [Q _]; [apply there_In; congruence|exact X|congruence]. }
      rewrite RUN, N. split; [reflexivity|]. unfold content. rewrite N, H. destruct L4 as (_ & -> & _). cbn [w3 w_text].
      unfold content in C2. rewrite H2, H1 in C2. rewrite C2. destruct L as (_ & -> & _). reflexivity.
  Qed.

  (** A creation function that keeps the table in order and does not itself ask for [p]. *)
  Definition calm (p : string) (create : creator) : Prop := forall target args w, tidy dir (w_disk w) ->
    tidy dir (w_disk (fst (create target args w))) /\ count_occ string_dec (w_log (fst (create target args w))) p = count_occ string_dec (w_log w) p.
  Lemma creates_once q p create w out : tidy dir (w_disk w) -> calm p create -> creates q p create w out ->
    count_occ string_dec (w_log (fst out)) p = S (count_occ string_dec (w_log w) p).
  Proof using.
    clear weights. intros T Q H. unfold creates in H. specialize (Q (p ++ ".tmp")%string (q_args q) (mkWorld (w_disk w) (w_text w) (w_log w ++ [p])) T). destruct (create _ _ _) as [w1 r]. cbn [fst w_log] in Q. destruct Q as [T1 Q].
    rewrite count_occ_app in Q. cbn [count_occ] in Q. destruct (string_dec p p); [|contradiction].
    assert (X : w_log (fst out) = w_log w1). { destruct r as [data|e0|]; [|subst; reflexivity..]. destruct (content w1 (p ++ ".tmp")); [|subst; reflexivity]. destruct (H T1) as (w' & -> & L & _). exact L. }
    rewrite X, Q. apply Nat.add_1_r.
  Qed.
  (** The creation function is called once if the file is missing, or there but to be renewed (and can be deleted), and else not at all. *)
  Theorem C44_calls a q f create w w2 r : fits q w -> calm (path_of q) create ->
    says f q (path_of q) (seen a q w) = (w2, r) -> spares (path_of q) (seen a q w) w2 -> r <> OutOfFuel ->
    count_occ string_dec (w_log (fst (cache_file a q f create w))) (path_of q) =
      (count_occ string_dec (w_log w) (path_of q) +
       if negb (there w (path_of q)) then 1 else match r with Ok true => if locked (a_delete a) (path_of q) then 0 else 1 | _ => 0 end)%nat.
  Proof using weights.
    intros F Q W SP NF. pose proof (C44_lookup a q w F) as L. destruct (there w (path_of q)) eqn:H; cbn [negb].
    - assert (K1 : count_occ string_dec (w_log w2) (path_of q) = count_occ string_dec (w_log w) (path_of q)) by (destruct SP as (_ & _ & _ & ->); destruct L as (_ & _ & -> & _); reflexivity).
      destruct r as [[|]|e0|]; [|rewrite (proj1 (C44_hit a q f create w w2 F H W SP)); cbn [fst]; rewrite K1; symmetry; apply Nat.add_0_r|rewrite (C44_raise a q f create w w2 e0 F H W); cbn [fst]; rewrite K1; symmetry; apply Nat.add_0_r|contradiction].
      destruct (C44_forced a q f create w w2 F H W SP) as (w3 & w4 & _ & _ & L3 & L4 & A & B). destruct (locked (a_delete a) (path_of q)).
      + rewrite (proj1 (B eq_refl)). cbn [fst]. destruct L4 as (_ & _ & -> & _). rewrite L3, K1. symmetry; apply Nat.add_0_r.
      + destruct (A eq_refl) as (_ & _ & CR). assert (T4 : tidy dir (w_disk w4)) by (destruct L4 as (_ & _ & _ & T4 & _); exact T4). rewrite (creates_once _ _ _ _ _ T4 Q CR).
        destruct L4 as (_ & _ & -> & _). rewrite L3, K1. symmetry. apply Nat.add_1_r.
    - assert (T1 : tidy dir (w_disk (seen a q w))) by (destruct L as (_ & _ & _ & T1 & _); exact T1).
      rewrite (creates_once _ _ _ _ _ T1 Q (C44_miss a q f create w F H)). destruct L as (_ & _ & -> & _). symmetry. apply Nat.add_1_r.
  Qed.

  (** ** C84: the file is there when cache_file returns *)
  Lemma nothing_new_cut lk d ps d' e : (forall p, lk p = false) -> cut lk d ps d' -> nothing_new dir e d -> nothing_new dir e d'.
  Proof using.
    intros U CU [A B]. split.
    - intros p I IN. destruct (A p (cut_files_incl _ _ _ _ _ CU I) IN) as [X|[X|X]]; auto. right. left.
      apply in_map_iff in X. destruct X as (r & E & J). destruct (in_dec string_dec p (paths (rows d'))) as [K|K]; [exact K|exfalso].
      refine (c_removed _ _ _ _ CU p (or_intror (ex_intro _ r (conj J (conj E _)))) (U p) I). intros K'. apply K. rewrite <- E. apply in_map, K'.
    - intros r I E X. exact (B r (cut_incl _ _ _ _ CU _ I) E (cut_files_incl _ _ _ _ _ CU X)).
  Qed.
  Definition newest (d : disk json) (r : row json) : Prop := In r (rows d) /\ r_parent r = None /\ forall x, In x (rows d) -> r_created x <= r_created r.
  Lemma check_newest e d r d' : tidy dir d -> unlocked e -> nothing_new dir e d -> newest d r -> check_cache_size JNull dir e limit usage d = Ok d' ->
    In r (rows d') /\ (In (r_path r) (akeys (files d)) -> In (r_path r) (akeys (files d'))).
  Proof using.
    intros T U NN NW. unfold check_cache_size.
    assert (STEP : forall bytes d0 d1, tidy dir d0 -> nothing_new dir e d0 -> newest d0 r -> (h <- housekeeping JNull dir e false d0 ;; x <- decache dir e (latest_date (now e) h) bytes h ;; Ok (fst x)) = Ok d1 ->
      tidy dir d1 /\ nothing_new dir e d1 /\ newest d1 r /\ (In (r_path r) (akeys (files d0)) -> In (r_path r) (akeys (files d1)))).
    { intros bytes d0 d1 T0 N0 (W1 & W2 & W3) E. rewrite (housekeeping_nothing JNull dir e d0 N0) in E. cbn [bind] in E. destruct (decache dir e (latest_date (now e) d0) bytes d0) as [[d2 res]|e0|] eqn:DE; try discriminate E. cbn [bind fst] in E. inversion E; subst d2. clear E.
      destruct (newest_stays dir e (now e) bytes d0 d1 r res T0 W1 W2 W3 DE) as [K1 K2]. destruct (decache_any dir e (latest_date (now e) d0) bytes d0 T0) as (d2 & res2 & E2 & OR). rewrite DE in E2. inversion E2; subst d2 res2.
      destruct OR as [->|TR]; [split; [exact T0|split; [exact N0|split; [split; auto|auto]]]|]. split; [exact (trimmed_tidy dir _ _ _ _ _ T0 TR)|]. destruct TR as [(ev & CU & _) _].
      split; [exact (nothing_new_cut _ _ _ _ e U CU N0)|]. split; [|exact K2]. split; [exact K1|]. split; [exact W2|]. intros x I. apply W3, (cut_incl _ _ _ _ CU), I. }
    destruct limit as [m|].
    - destruct (cache_size d >? m).
      + destruct (h <- housekeeping JNull dir e false d ;; x <- decache dir e (latest_date (now e) h) (cache_size d - m) h ;; Ok (fst x)) as [d1|e0|] eqn:E1; cbn [bind]; try discriminate.
        destruct (STEP _ _ _ T NN NW E1) as (T1 & N1 & W1 & K1). destruct usage as [u|]; [|intros E; inversion E; subst; split; [apply W1|exact K1]].
        destruct (percent e >? u); [|intros E; inversion E; subst; split; [apply W1|exact K1]]. intros E. destruct (STEP _ _ _ T1 N1 W1 E) as (_ & _ & W2 & K2). split; [apply W2|auto].
      + cbn [bind]. destruct usage as [u|]; [|intros E; inversion E; subst; split; [apply NW|auto]].
        destruct (percent e >? u); [|intros E; inversion E; subst; split; [apply NW|auto]]. intros E. destruct (STEP _ _ _ T NN NW E) as (_ & _ & W2 & K2). split; [apply W2|auto].
    - cbn [bind]. destruct usage as [u|]; [|intros E; inversion E; subst; split; [apply NW|auto]].
      destruct (percent e >? u); [|intros E; inversion E; subst; split; [apply NW|auto]]. intros E. destruct (STEP _ _ _ T NN NW E) as (_ & _ & W2 & K2). split; [apply W2|auto].
  Qed.

  (** Nothing that is not in the table will be found when the cache is checked: every other file is
      registered, recent or the database, and no other entry in progress has got its file. *)
  Definition settled (e : env) (p : string) w : Prop :=
    (forall x, there w x = true -> inside dir x -> x = join dir CACHE_DB \/ In x (paths (rows (w_disk w))) \/ recent e x = true \/ x = (p ++ ".tmp")%string) /\
    (forall r, In r (rows (w_disk w)) -> r_size r = None -> r_path r <> p -> there w (r_path r) = false).
  Lemma create_file_there a q p create w w1 data c r : inside dir p ->
    create (p ++ ".tmp")%string (q_args q) (logged p w) = (w1, Ok data) -> tidy dir (w_disk w1) -> content w1 (p ++ ".tmp") = Some c ->
    r_path r = p -> In r (rows (w_disk w1)) ->
    (newest (w_disk w1) r /\ settled (a_check a) p w1 /\ unlocked (a_check a)) \/
    ((forall m, limit = Some m -> total_size (w_disk w1) + n_size (weigh c) <= m) /\ (forall u, usage = Some u -> percent (a_check a) <= u)) ->
    exists w', create_file weigh dir limit usage a q p create w = (w', Ok p) /\ content w' p = Some c /\
      exists r', find_row (w_disk w') p = Some r' /\ r_data r' = Some data /\ r_size r' = Some (n_size (weigh c)) /\ r_created r' = r_created r.
  Proof using weights.
    clear sha. intros IN CR T1 CT RP RI OR. unfold create_file. rewrite CR, andthen_ok. unfold rename. rewrite CT, andthen_ok.
    set (w2 := write weigh p c (erase (p ++ ".tmp") w1)).
    assert (T2 : tidy dir (w_disk w2)) by (apply write_tidy, erase_tidy, T1).
    assert (H2 : In p (akeys (files (w_disk w2)))) by (apply there_In; unfold w2; rewrite there_write, String.eqb_refl; reflexivity).
    destruct (update_ok p data _ IN T2 H2) as (n & d3 & LK & E3 & T3 & F3 & R3). unfold manager at 1. rewrite E3, andthen_ok.
    assert (n = weigh c) as ->. { unfold w2, write in LK. cbn [w_disk files] in LK. rewrite alookup_aset_eq in LK. inversion LK. reflexivity. }
    change (rows (w_disk w2)) with (rows (w_disk w1)) in R3.
    set (g := fun r0 : row json => if String.eqb (r_path r0) p then set_data data (set_size (n_size (weigh c)) (n_dir (weigh c)) r0) else r0) in R3.
    assert (GP : forall x, r_path (g x) = r_path x) by (intros x; unfold g; destruct (String.eqb _ _); reflexivity).
    assert (GC : forall x, r_created (g x) = r_created x) by (intros x; unfold g; destruct (String.eqb _ _); reflexivity).
    assert (GR : g r = set_data data (set_size (n_size (weigh c)) (n_dir (weigh c)) r)) by (unfold g; rewrite RP, String.eqb_refl; reflexivity).
    destruct (check_ok (a_check a) d3 T3) as (d4 & E4 & T4 & I4). unfold manager_async, manager. cbn [w_disk]. rewrite E4. cbn [fst w_text w_log].
    assert (KEEP : In (g r) (rows d4) /\ In p (akeys (files d4))).
    { destruct OR as [((NI & NP & NM) & (S1 & S2) & U)|[LM US]].
      - assert (NN : nothing_new dir (a_check a) d3).
        { split.
          - intros x X IX. rewrite F3 in X. apply there_In in X. unfold w2 in X. rewrite there_write, there_erase in X. assert (PX : In x (paths (rows (w_disk w1))) -> In x (paths (rows d3))).
            { intros Y. rewrite R3, map_map. erewrite map_ext; [exact Y|exact GP]. }
            destruct (String.eqb_spec x p) as [EX|N1]; [right; left; apply PX; rewrite EX, <- RP; apply in_map, RI|]. destruct (String.eqb_spec x (p ++ ".tmp")) as [EX|N2]; [discriminate X|].
            destruct (S1 x X IX) as [Y|[Y|[Y|Y]]]; [auto|auto|auto|contradiction].
          - intros x X SX Y. rewrite R3 in X. apply in_map_iff in X. destruct X as (x0 & <- & X). rewrite GP in Y. unfold g in SX. destruct (String.eqb_spec (r_path x0) p) as [K|K]; [discriminate SX|].
            rewrite F3 in Y. apply there_In in Y. unfold w2 in Y. rewrite there_write, there_erase in Y. destruct (String.eqb_spec (r_path x0) p); [contradiction|]. destruct (String.eqb (r_path x0) (p ++ ".tmp")); [discriminate Y|].
            rewrite (S2 x0 X SX K) in Y. discriminate Y. }
        assert (NW : newest d3 (g r)).
        { split; [rewrite R3; apply in_map, RI|]. split; [rewrite GR; exact NP|]. intros x X. rewrite R3 in X. apply in_map_iff in X. destruct X as (x0 & <- & X). rewrite !GC. apply NM, X. }
        destruct (check_newest (a_check a) d3 (g r) d4 T3 U NN NW E4) as [K1 K2]. split; [exact K1|]. rewrite GP, RP in K2. apply K2. rewrite F3. exact H2.
      - assert (TS : total_size d3 <= total_size (w_disk w1) + n_size (weigh c)).
        { unfold total_size. rewrite R3. pose proof (t_rows _ _ T1) as ND. pose proof (t_sizes _ _ T1) as SZ. pose proof (weights c) as WC. clear - ND SZ WC. induction (rows (w_disk w1)) as [|x l IH]; cbn [map zsum]; [lia|]. cbn in ND. inversion ND as [|? ? N1 N2]; subst.
          assert (SX : 0 <= match r_size x with Some s => s | None => 0 end) by (destruct (r_size x) eqn:SX; [apply (SZ x z (or_introl eq_refl) SX)|lia]).
          destruct (String.eqb_spec (r_path x) p) as [K|K].
          - unfold g at 1. rewrite K, String.eqb_refl. cbn [set_data set_size r_size]. assert (EQ : map g l = l).
            { assert (NL : ~ In p (map r_path l)) by (rewrite <- K; exact N1). clear - NL. induction l as [|y l IH]; [reflexivity|]. cbn in *. rewrite IH by tauto. f_equal. unfold g. destruct (String.eqb_spec (r_path y) p); [tauto|reflexivity]. }
            rewrite EQ. lia.
          - assert (GX : g x = x) by (unfold g; destruct (String.eqb_spec (r_path x) p); [contradiction|reflexivity]). rewrite GX. specialize (IH N2 (fun y s I => SZ y s (or_intror I))). lia. }
        assert (d4 = d3) as ->. { rewrite (C81_quiet JNull dir) in E4; [inversion E4; reflexivity|intros m M; specialize (LM m M); lia|exact US]. }
        split; [rewrite R3; apply in_map, RI|rewrite F3; exact H2]. }
    destruct KEEP as [K1 K2]. eexists. split; [reflexivity|]. split.
    - unfold content. assert (TH : there (mkWorld d4 (w_text w2) (w_log w2)) p = true) by (apply there_In; exact K2). rewrite TH. cbn [w_text]. apply alookup_aset_eq.
    - cbn [w_disk]. exists (g r). split; [|rewrite GR; repeat split; reflexivity]. unfold find_row. destruct (find _ _) as [x|] eqn:FX.
      + apply find_some in FX. destruct FX as [X1 X2]. apply String.eqb_eq in X2. f_equal. apply (row_unique d4); [apply T4|exact X1|exact K1|rewrite GP, RP; exact X2].
      + exfalso. pose proof (find_none _ _ FX _ K1) as X. cbn in X. rewrite GP, RP, String.eqb_refl in X. discriminate X.
  Qed.
  (** A file that was missing is there when cache_file returns, with what was written, and so is its
      entry - if the entry is the newest and nothing else is found, or the limits are kept. *)
  Theorem C84_exists_partial a q f create w w1 data c r : let p := path_of q in fits q w -> there w p = false ->
    create (p ++ ".tmp")%string (q_args q) (logged p (seen a q w)) = (w1, Ok data) -> tidy dir (w_disk w1) -> content w1 (p ++ ".tmp") = Some c ->
    r_path r = p -> In r (rows (w_disk w1)) ->
    (newest (w_disk w1) r /\ settled (a_check a) p w1 /\ unlocked (a_check a)) \/
    ((forall m, limit = Some m -> total_size (w_disk w1) + n_size (weigh c) <= m) /\ (forall u, usage = Some u -> percent (a_check a) <= u)) ->
    exists w', cache_file a q f create w = (w', Ok p) /\ content w' p = Some c /\
      exists r', find_row (w_disk w') p = Some r' /\ r_data r' = Some data /\ r_size r' = Some (n_size (weigh c)) /\ r_created r' = r_created r.
  Proof using weights.
    intros p F H CR T1 CT RP RI OR. destruct (seen_ok a q w F) as [E L]. pose proof (path_inside q w F) as IN.
    assert (RUN : cache_file a q f create w = create_file weigh dir limit usage a q p create (seen a q w)).
    { unfold CacheFile.cache_file. fold (path_of q). fold p in H. unfold p in *. rewrite E, andthen_ok. unfold decide. rewrite (looked_there _ _ _ _ _ _ L), H, andthen_ok. cbv beta iota. rewrite andthen_ok, (looked_there _ _ _ _ _ _ L), H. reflexivity. }
    rewrite RUN. eapply create_file_there; eassumption.
  Qed.

  (** ** C64: downloads *)
  (** What the remote says about the file, given what was recorded when it was downloaded. *)
  Definition remote_says (D : downloader) (p : string) w : world * result bool :=
    dl_out_of_date D p (match find (fun r => String.eqb (r_path r) p) (rows (w_disk w)) with Some r => r_data r | None => None end) w.
  Definition url_of (owner url : string) (parts : json) (D : downloader (C := C)) : request := mkRequest owner (JDict [("url", JStr url); ("parts", parts)]) JNull (dl_ext D).
  Notation download := (download_and_cache weigh sha dir limit usage).
  (** Without force, the file is downloaded if it is missing, or if the checks are on, the remote says it has changed and
      renewing is wanted (and the old file can be deleted); and else the remote is asked at most once. *)
  Theorem C64_refresh a D owner url parts check fetch update w w2 old : let q := url_of owner url parts D in let p := path_of q in
    fits q w -> dl_local D = None -> calm p (fun target _ => dl_download D target) ->
    remote_says D p (seen a q w) = (w2, Ok old) -> spares p (seen a q w) w2 ->
    count_occ string_dec (w_log (fst (download a D owner url parts None check fetch update w))) p =
      (count_occ string_dec (w_log w) p + if negb (there w p) || (check && old && (fetch || update) && negb (locked (a_delete a) p)) then 1 else 0)%nat.
  Proof using weights.
    intros q p F LO Q RS SP. unfold download_and_cache. rewrite LO. set (f := out_of_date D check fetch update).
    assert (SY : exists w3, says f q p (seen a q w) = (w3, Ok (check && old && (fetch || update))) /\ spares p (seen a q w) w3).
    { unfold says, f, out_of_date. destruct check; cbn [negb andb].
      - fold (remote_says D p (seen a q w)). rewrite RS, andthen_ok. exists w2. split; [destruct old; reflexivity|exact SP].
      - exists (seen a q w). split; [reflexivity|]. split; [|auto]. destruct (C44_lookup a q w F) as (_ & _ & _ & T & _). exact T. }
    destruct SY as (w3 & S1 & S2). assert (FST : forall x : world * result string, fst (andthen x (fun p0 w1 => (w1, Ok (Some p0)))) = fst x) by (intros [x [y|e|]]; reflexivity).
    rewrite FST. change (url_request owner url parts (dl_ext D)) with q. pose proof (C44_calls a q f (fun target _ => dl_download D target) w w3 _ F Q S1 S2 ltac:(discriminate)) as K. fold p in K. rewrite K. clear K.
    destruct (there w p); cbn [negb orb]; [|reflexivity]. destruct (check && old && (fetch || update)); cbn [andb]; [|reflexivity]. destruct (locked (a_delete a) p); reflexivity.
  Qed.
  (** With force, as force says; a local file is not handled at all. *)
  Theorem C64_local a D owner url parts given check fetch update w x : dl_local D = Some x -> download a D owner url parts given check fetch update w = (w, Ok None).
  Proof using. intros L. unfold download_and_cache. rewrite L. reflexivity. Qed.
  Theorem C64_given a D owner url parts f check fetch update w : dl_local D = None ->
    download a D owner url parts (Some f) check fetch update w =
    match cache_file a (url_of owner url parts D) f (fun target _ => dl_download D target) w with
    | (w', Ok p) => (w', Ok (Some p)) | (w', Raise e) => (w', Raise e) | (w', OutOfFuel) => (w', OutOfFuel)
    end.
  Proof using. intros L. unfold download_and_cache. rewrite L. unfold url_request. fold (url_of owner url parts D). destruct (cache_file _ _ _ _ _) as [w' [p|e|]]; reflexivity. Qed.

  (** ** C53: policy off *)
  Notation cache_file_off := (cache_file_off weigh sha dir).
  Notation off_path := (off_path sha dir).
  (** A call whose name is not taken creates its file once; nothing is recorded in the table. *)
  Theorem C53_fresh_partial q t random create w : let p := off_path q t random in there w p = false ->
    let '(w1, r) := create (p ++ ".tmp")%string (q_args q) (mkWorld (w_disk w) (w_text w) (w_log w ++ [p])) in
    match r with
    | Raise e => cache_file_off q t random create w = (w1, Raise e)
    | OutOfFuel => True
    | Ok _ => match content w1 (p ++ ".tmp") with
              | None => cache_file_off q t random create w = (w1, Raise FileNotFoundError)
              | Some c => exists w', cache_file_off q t random create w = (w', Ok p) /\ content w' p = Some c /\ rows (w_disk w') = rows (w_disk w1) /\ w_log w' = w_log w1 /\
                  (forall x, x <> p -> x <> (p ++ ".tmp")%string -> content w' x = content w1 x)
              end
    end.
  Proof using.
    clear weights. intros p H. unfold CacheFile.cache_file_off. fold p. rewrite H. unfold logged. destruct (create _ _ _) as [w1 r]. destruct r as [data|e|]; [|reflexivity|exact I]. rewrite andthen_ok. unfold rename.
    destruct (content w1 (p ++ ".tmp")) as [c|] eqn:CT; [|reflexivity]. rewrite andthen_ok. eexists. split; [reflexivity|]. split; [|split; [reflexivity|split; [reflexivity|]]].
    - unfold content. rewrite there_write, String.eqb_refl. cbn [write w_text]. apply alookup_aset_eq.
    - intros x N1 N2. unfold content. rewrite there_write, there_erase. destruct (String.eqb_spec x p); [contradiction|]. destruct (String.eqb_spec x (p ++ ".tmp")); [contradiction|]. cbn [write erase w_text]. rewrite alookup_aset_neq by congruence. reflexivity.
  Qed.
End Props.

(** ** Concrete calls *)
Definition weigh0 (n : Z) : node := mkNode (Z.abs n) false.
Definition no : string -> bool := fun _ => false.
Definition at_time (t : Z) : around := mkAround t (mkEnv t no no 0 100) t (mkEnv (t + 1) no no 0 100).
Definition sha0 (s : string) : string := "h".
Definition ask (owner : string) : request := mkRequest owner (JList [JStr "u"]) JNull ".x".
(** Creation functions: one that fails, one that writes [n]. *)
Definition fails : creator (C := Z) := fun _ _ w => (w, Raise FileNotFoundError).
Definition writes (n : Z) : creator (C := Z) := fun target _ w => (write weigh0 target n w, Ok (JNum "7")).
Definition call (a : around) (owner : string) (f : force) (create : creator) (w : world (C := Z)) := cache_file weigh0 sha0 "/c" (Some 100) None a (ask owner) f create w.
Definition start : world (C := Z) := mkWorld (mkDisk [] []) [] [].

Example C44_example : let w1 := fst (call (at_time 1) "a" (FFlag false) (writes 40) start) in
  content w1 "/c/a-h.x" = Some 40 /\ w_log w1 = ["/c/a-h.x"] /\ fits sha0 "/c" (ask "a") w1 /\
  content (fst (call (at_time 2) "a" (FFlag false) (writes 41) w1)) "/c/a-h.x" = Some 40 /\
  content (fst (call (at_time 2) "a" (FFlag true) (writes 41) w1)) "/c/a-h.x" = Some 41.
Proof.
  split; [vm_compute; reflexivity|]. split; [vm_compute; reflexivity|]. split; [|split; vm_compute; reflexivity]. split; [reflexivity|]. split.
  - vm_compute. repeat constructor. intros [].
  - vm_compute. repeat constructor. intros [].
  - intros r q I. vm_compute in I. destruct I as [<-|[]]. discriminate.
  - intros r s I. vm_compute in I. destruct I as [<-|[]]. cbn. intros E. inversion E. lia.
  - intros p n I. vm_compute in I. destruct I as [I|[]]. inversion I. cbn. lia.
  - intros r I. vm_compute in I. destruct I as [<-|[]]. exists "a-h.x". repeat split; discriminate.
Qed.
(** A renewal that is asked for does not take place if the old file cannot be deleted, and nobody is told. *)
Theorem C44_locked_refuted : let w1 := fst (call (at_time 1) "a" (FFlag false) (writes 40) start) in
  let stuck := mkAround 2 (mkEnv 2 no (fun _ => true) 0 100) 2 (mkEnv 3 no no 0 100) in
  exists w2, call stuck "a" (FFlag true) (writes 41) w1 = (w2, Ok "/c/a-h.x") /\ content w2 "/c/a-h.x" = Some 40 /\ w_log w2 = w_log w1.
Proof. eexists. split; [vm_compute; reflexivity|]. vm_compute. auto. Qed.
(** A creation that failed leaves an entry; when it is tried again it is not the newest, so that its
    file may be deleted at once to make room: cache_file returns the path of a file that is gone. *)
Theorem C84_retry_refuted :
  let w1 := fst (call (at_time 1) "a" (FFlag false) fails start) in
  let w2 := fst (call (at_time 10) "b" (FFlag false) (writes 60) w1) in
  exists w3, call (at_time 20) "a" (FFlag false) (writes 50) w2 = (w3, Ok "/c/a-h.x") /\ there w3 "/c/a-h.x" = false /\ content w3 "/c/b-h.x" = Some 60.
Proof. eexists. split; [vm_compute; reflexivity|]. vm_compute. auto. Qed.
(** A file larger than the limit is kept, being the newest - unless the check finds a stray file,
    which is registered as newer. *)
Theorem C84_orphan_refuted :
  let stray := mkWorld (C := Z) (mkDisk [] [("/c/stray", mkNode 5 false)]) [("/c/stray", 5)] [] in
  exists w1, call (at_time 1) "a" (FFlag false) (writes 150) stray = (w1, Ok "/c/a-h.x") /\ there w1 "/c/a-h.x" = false /\ there w1 "/c/stray" = true.
Proof. eexists. split; [vm_compute; reflexivity|]. vm_compute. auto. Qed.
Example C84_example : exists w1, call (at_time 1) "a" (FFlag false) (writes 150) start = (w1, Ok "/c/a-h.x") /\ content w1 "/c/a-h.x" = Some 150.
Proof. eexists. split; vm_compute; reflexivity. Qed.
(** With the policy off, two calls in the same microsecond that draw the same number share a file: the second gets what the first wrote. *)
Theorem C53_refuted : let t := mkMoment 2024 1 2 3 4 5 6 in
  forall sha, exists w1 w2 p, cache_file_off weigh0 sha "/c" (ask "a") t 7 (writes 1) start = (w1, Ok p) /\
    cache_file_off weigh0 sha "/c" (ask "a") t 7 (writes 2) w1 = (w2, Ok p) /\ content w2 p = Some 1 /\ w_log w2 = [p].
Proof.
  intros t sha. set (p := off_path sha "/c" (ask "a") t 7). 
  pose proof (C53_fresh_partial weigh0 sha "/c" (ask "a") t 7 (writes 1) start eq_refl) as H. cbv zeta in H. fold p in H. unfold writes at 1 in H. cbn [start w_disk w_text w_log app] in H.
  assert (CT : content (write weigh0 (p ++ ".tmp") 1 (mkWorld (mkDisk [] []) [] [p])) (p ++ ".tmp") = Some 1).
  { unfold content. rewrite there_write, String.eqb_refl. cbn [write w_text]. apply alookup_aset_eq. }
  rewrite CT in H. destruct H as (w1 & E & CP & _ & L & _). exists w1, w1, p. split; [exact E|]. split; [|split; [exact CP|exact L]].
  unfold cache_file_off. fold p. assert (TH : there w1 p = true) by (unfold content in CP; destruct (there w1 p); [reflexivity|discriminate CP]). rewrite TH. reflexivity.
Qed.
(** Downloads: by default a changed remote file is not fetched again; it is with the option. *)
Definition remote (changed : bool) (n : Z) : downloader (C := Z) := mkDownloader ".x" None (fun _ _ w => (w, Ok changed)) (fun target w => (write weigh0 target n w, Ok (JNum "7"))).
Definition fetch (t : Z) (D : downloader) (check get : bool) (w : world (C := Z)) := fst (download_and_cache weigh0 sha0 "/c" (Some 100) None (at_time t) D "url" "u" JNull None check get false w).
Example C64_example : let w1 := fetch 1 (remote false 40) true false start in
  content (fetch 2 (remote true 41) true false w1) "/c/url-h.x" = Some 40 /\ content (fetch 2 (remote true 41) true true w1) "/c/url-h.x" = Some 41 /\
  content (fetch 2 (remote true 41) false true w1) "/c/url-h.x" = Some 40 /\ content (fetch 2 (remote false 41) true true w1) "/c/url-h.x" = Some 40.
Proof. vm_compute. auto. Qed.

Print Assumptions C44_lookup.
Print Assumptions C44_hit.
Print Assumptions C44_miss.
Print Assumptions C44_raise.
Print Assumptions C44_forced.
Print Assumptions C44_calls.
Print Assumptions C84_exists_partial.
Print Assumptions C64_refresh.
Print Assumptions C64_local.
Print Assumptions C64_given.
Print Assumptions C53_fresh_partial.
Print Assumptions C44_locked_refuted.
Print Assumptions C84_retry_refuted.
Print Assumptions C84_orphan_refuted.
Print Assumptions C53_refuted.
