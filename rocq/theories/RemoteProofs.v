(** Lemmas about remote inventories: what the files of the cache hold. *)
From Verif Require Import PyBase ListLemmas PyStr Float64 GridSpec GridVocab GridProofs GridProofs3 Index IndexSpec IndexProofs IndexProofs2
  Db MemCache MemCacheProofs MemCacheProofs2 Inventory Regrid System SystemSpec SystemProofs
  Disk DiskSpec DiskProofs DiskProofs2 Props_Disk Key KeySpec KeyProofs Props_Key CacheFile Props_CacheFile Remote RemoteSpec.
Set Default Proof Using "Type".
Local Open Scope string_scope.
Local Open Scope list_scope.
Local Open Scope Z_scope.

Lemma proper_file (ext_of : string -> string) u : proper (file_request ext_of u).
Proof. repeat split; cbn; try exact I; try (intros E; subst; cbn in *; intuition discriminate). repeat constructor; cbn; intuition discriminate. Qed.
Lemma proper_unpacked b : proper (unpacked b).
Proof. repeat split; cbn; try exact I; intros E; subst; cbn in *; intuition discriminate. Qed.
Lemma sapp_tail (a b x : string) : (a ++ x)%string = (b ++ x)%string -> a = b.
Proof.
  intros H. apply (sapp_same_length a b x x); [|exact H]. apply (f_equal String.length) in H. rewrite !slength_app in H. lia.
Qed.
Lemma join_same a b n n' : starts_with_slash n = false -> starts_with_slash n' = false -> join_path a n = join_path b n -> join_path a n' = join_path b n'.
Proof.
  intros N N' H. unfold join_path in *. rewrite N in H. rewrite N'.
  assert (P : forall c x : string, (if String.eqb c "" || ends_with_slash c then (c ++ x)%string else (c ++ "/" ++ x)%string) = ((if String.eqb c "" || ends_with_slash c then c else (c ++ "/")%string) ++ x)%string).
  { intros c x. destruct (String.eqb c "" || ends_with_slash c); [reflexivity|]. rewrite sapp_assoc. reflexivity. }
  rewrite !P in H. rewrite !P. apply sapp_tail in H. rewrite H. reflexivity.
Qed.

Section Files.
  Context {A rest blob : Type}.
  Variable parse : blob -> result (file rest).
  Variable gunzip : blob -> result blob.
  Variable digest : blob -> result string.
  Variable read_sha : blob -> result string.
  Variable load_npz : blob -> result (csr A).
  Variable weigh : blob -> node.
  Variable sha : string -> string.
  Variable dir : string.
  Variables limit usage : option Z.
  Variables check fetch : bool.
  Variable ext_of : string -> string.
  Notation world := (@world blob).
  Notation meets := (@meets blob).
  Notation cache_file := (cache_file weigh sha dir limit usage).
  Notation path_of := (path_of sha dir).
  Notation create_file := (create_file weigh dir limit usage).
  Notation file_request := (file_request ext_of).
  Variable S : string -> blob -> Prop.
  Variable B : string -> Prop.
  Hypothesis weights : forall c, 0 <= n_size (weigh c).
  Hypothesis NM : names parse gunzip sha ext_of S B.
  Hypothesis FL : fixed_length sha.
  Implicit Types (w : world) (q : Key.request).

  Notation ours := (our_request parse gunzip sha ext_of S B).
  Notation address := (address parse gunzip sha ext_of S B).
  Definition right q (c : blob) : Prop :=
    (exists u, q = file_request u /\ S u c) \/ (exists b z, B b /\ q = unpacked b /\ file_at sha ext_of S (join_path b "index.json.gz") z /\ gunzip z = Ok c).
  Definition whole w : Prop := forall p, there w p = true -> exists c, content w p = Some c.
  Definition good w : Prop :=
    (tidy dir (w_disk w) /\ whole w) /\ forall p c, content w p = Some c -> (exists s, p = join dir (s ++ ".tmp")%string) \/ exists q, ours q /\ p = path_of q /\ right q c.
  Definition shrinks w w' : Prop := tidy dir (w_disk w') /\ w_text w' = w_text w /\ forall p, there w' p = true -> there w p = true.

  Lemma shrinks_content w w' p c : shrinks w w' -> content w' p = Some c -> content w p = Some c.
  Proof. intros (_ & E & H). unfold content. destruct (there w' p) eqn:T; [|discriminate]. rewrite (H p T), E. auto. Qed.
  Lemma good_shrinks w w' : good w -> shrinks w w' -> good w'.
  Proof.
    intros [[T WH] G] SH. pose proof SH as (T' & E & H). split; [split; [exact T'|]|intros p c C; exact (G _ _ (shrinks_content _ _ _ _ SH C))].
    intros p TH. destruct (WH p (H p TH)) as (c & C). exists c. unfold content in *. rewrite TH, E. rewrite (H p TH) in C. exact C.
  Qed.
  Lemma shrinks_trans a b c : shrinks a b -> shrinks b c -> shrinks a c.
  Proof. intros (_ & E & H) (T & E' & K). split; [exact T|]. split; [congruence|]. intros p X. apply H, K, X. Qed.
  Lemma disk_shrinks w d : tidy dir d -> (forall x, In x (akeys (files d)) -> In x (akeys (files (w_disk w)))) -> shrinks w (mkWorld d (w_text w) (w_log w)).
  Proof.
    intros T I. split; [exact T|]. split; [reflexivity|]. intros p E. apply there_In in E. cbn [w_disk] in E. apply I in E. apply there_In in E. exact E.
  Qed.
  Lemma ours_inside q : ours q -> inside dir (path_of q).
  Proof using NM. intros O. apply join_inside; [apply (NM q O)|apply name_not_empty]. Qed.
  Lemma ours_fits q w : ours q -> tidy dir (w_disk w) -> fits sha dir q w.
  Proof using NM. intros O T. split; [apply (NM q O)|exact T]. Qed.
  Lemma ours_not_tmp q s : ours q -> path_of q <> join dir (s ++ ".tmp").
  Proof using NM. intros O H. apply join_inj in H. destruct (NM q O) as [_ N]. exact (N s H). Qed.

  Lemma register_shrinks t q w : ours q -> tidy dir (w_disk w) -> exists w1, register_file dir t (path_of q) q w = (w1, Ok tt) /\ shrinks w w1 /\ forall x, there w1 x = there w x.
  Proof using NM.
    intros O T. destruct (register_ok dir t (path_of q) q w (ours_inside q O) T) as (w1 & E & L). exists w1. split; [exact E|]. split; [|intros x; exact (looked_there dir _ _ _ _ _ x L)].
    split; [destruct L as (_ & _ & _ & T1 & _); exact T1|]. split; [destruct L as (_ & E1 & _); exact E1|]. intros p. rewrite (looked_there dir _ _ _ _ _ p L). auto.
  Qed.
  Lemma decache_shrinks e q w : ours q -> tidy dir (w_disk w) -> exists w1, manager (decache_file dir e (path_of q)) w = (w1, Ok tt) /\ shrinks w w1.
  Proof using NM.
    intros O T. pose proof (ours_inside q O) as IN.
    destruct (delete_entry_spec dir e (depth (w_disk w)) (w_disk w) (path_of q) (match alookup (path_of q) (files (w_disk w)) with Some n => n_size n | None => 0 end) T IN) as (d3 & t & E3 & CU & _).
    { intros r I. apply depth_bound. exact I. } { unfold depth. clear. lia. }
    exists (mkWorld d3 (w_text w) (w_log w)). split; [unfold manager, decache_file; rewrite E3; reflexivity|].
    apply disk_shrinks; [exact (cut_tidy dir _ _ _ _ CU T)|]. intros x. apply (cut_files_incl _ _ _ _ _ CU).
  Qed.
  Lemma check_shrinks e w : tidy dir (w_disk w) -> shrinks w (manager_async (check_cache_size JNull dir e limit usage) w).
  Proof. intros T. destruct (check_ok dir limit usage e (w_disk w) T) as (d & E & T' & I). unfold manager_async, manager. rewrite E. cbn [fst]. apply disk_shrinks; assumption. Qed.
  Lemma purge_shrinks e latest w : tidy dir (w_disk w) -> shrinks w (fst (manager (purge JNull dir e latest) w)).
  Proof.
    intros T. unfold manager, purge. destruct (housekeeping_spec JNull dir e true (w_disk w) T) as (h & E & TH & F & _). rewrite E. cbn [bind].
    destruct (decache_any' dir e latest (cache_size h) h TH) as (d' & r & E' & T' & I). rewrite E'. cbn [bind fst]. apply disk_shrinks; [exact T'|]. rewrite <- F. exact I.
  Qed.
  Lemma erase_shrinks p w : tidy dir (w_disk w) -> shrinks w (erase p w).
  Proof.
    intros T. split; [apply erase_tidy, T|]. split; [reflexivity|]. intros x. rewrite there_erase. destruct (String.eqb x p); [discriminate|]. auto.
  Qed.
  Lemma content_write p c w x : content (write weigh p c w) x = if String.eqb x p then Some c else content w x.
  Proof.
    unfold content. rewrite there_write. destruct (String.eqb_spec x p) as [->|N]; [cbn [write w_text]; apply alookup_aset_eq|].
    cbn [write w_text]. rewrite alookup_aset_neq by congruence. reflexivity.
  Qed.
  Lemma content_erase p w x : content (erase p w) x = if String.eqb x p then None else content w x.
  Proof. unfold content. rewrite there_erase. destruct (String.eqb x p); reflexivity. Qed.

  Lemma write_whole p c w : whole w -> whole (write weigh p c w).
  Proof. intros H x. rewrite there_write, content_write. destruct (String.eqb x p); [eauto|apply H]. Qed.
  Lemma erase_whole p w : whole w -> whole (erase p w).
  Proof. intros H x. rewrite there_erase, content_erase. destruct (String.eqb x p); [discriminate|apply H]. Qed.

  (** A creation function that is right for [q]. *)
  Definition creates_right q (create : creator) : Prop := forall w, good w ->
    let '(w1, r) := create (path_of q ++ ".tmp")%string (q_args q) w in
    good w1 /\ forall j c, r = Ok j -> content w1 (path_of q ++ ".tmp")%string = Some c -> right q c.
  Definition asks_well q (f : force) : Prop := match f with FFlag _ => True | FCall g => forall o w, good w -> good (fst (g (q_args q) (path_of q) o w)) end.

  Lemma tmp_path q : (path_of q ++ ".tmp")%string = join dir (key_name sha q ++ ".tmp").
  Proof. unfold CacheFile.path_of, join. rewrite !sapp_assoc. reflexivity. Qed.
  Lemma write_tmp_good q c w : good w -> good (write weigh (path_of q ++ ".tmp")%string c w).
  Proof using weights.
    intros [[T WH] G]. split; [split; [apply write_tidy; assumption|apply write_whole, WH]|]. intros p x. rewrite content_write. destruct (String.eqb_spec p (path_of q ++ ".tmp")) as [->|N]; [|apply G].
    intros _. left. exists (key_name sha q). apply tmp_path.
  Qed.
  Lemma create_file_good a q create w : ours q -> good w -> creates_right q create ->
    good (fst (create_file a q (path_of q) create w)) /\ forall p, snd (create_file a q (path_of q) create w) = Ok p -> p = path_of q.
  Proof using weights NM.
    intros O G CR. unfold CacheFile.create_file. assert (GL : good (logged (path_of q) w)) by exact G. specialize (CR _ GL).
    destruct (create (path_of q ++ ".tmp")%string (q_args q) (logged (path_of q) w)) as [w1 r]. destruct CR as [G1 R1]. destruct r as [j|e|]; [|split; [exact G1|discriminate]..].
    rewrite andthen_ok. unfold rename. destruct (content w1 (path_of q ++ ".tmp")) as [c|] eqn:CT; [|split; [exact G1|discriminate]]. rewrite andthen_ok. specialize (R1 j c eq_refl eq_refl).
    set (w2 := write weigh (path_of q) c (erase (path_of q ++ ".tmp") w1)).
    assert (G2 : good w2).
    { split; [split; [apply write_tidy; [exact weights|apply erase_tidy, G1]|apply write_whole, erase_whole, G1]|]. intros p x. unfold w2. rewrite content_write, content_erase. destruct (String.eqb_spec p (path_of q)) as [->|N].
      - intros E; injection E as <-. right. exists q. auto.
      - destruct (String.eqb p (path_of q ++ ".tmp")); [discriminate|]. apply G1. }
    assert (H2 : In (path_of q) (akeys (files (w_disk w2)))) by (apply there_In; unfold w2; rewrite there_write, String.eqb_refl; reflexivity).
    destruct (update_ok dir (path_of q) j _ (ours_inside q O) (proj1 (proj1 G2)) H2) as (n & d3 & _ & E3 & T3 & F3 & _). 
    assert (M : manager (update_entry dir (path_of q) j) w2 = (mkWorld d3 (w_text w2) (w_log w2), Ok tt)) by (unfold manager; rewrite E3; reflexivity). rewrite M, andthen_ok. cbn [fst snd].
    split; [|intros p E; injection E as <-; reflexivity]. apply (good_shrinks w2); [exact G2|].
    apply (shrinks_trans _ (mkWorld d3 (w_text w2) (w_log w2))); [apply disk_shrinks; [exact T3|rewrite F3; auto]|apply check_shrinks, T3].
  Qed.
  Lemma cache_good a q f create w : ours q -> good w -> creates_right q create -> asks_well q f ->
    good (fst (cache_file a q f create w)) /\ forall p, snd (cache_file a q f create w) = Ok p -> p = path_of q.
  Proof using weights NM.
    intros O G CR AW. unfold CacheFile.cache_file. fold (path_of q).
    destruct (register_shrinks (a_time a) q w O (proj1 (proj1 G))) as (w1 & E1 & S1 & _). rewrite E1, andthen_ok. pose proof (good_shrinks _ _ G S1) as G1.
    assert (G2 : good (fst (decide q (path_of q) f w1))). { unfold decide. destruct (there w1 (path_of q)); [|exact G1]. destruct f as [b|g]; [exact G1|]. apply AW, G1. }
    destruct (decide q (path_of q) f w1) as [w2 r]. cbn [fst] in G2. destruct r as [forced|e|]; [|split; [exact G2|discriminate]..]. rewrite andthen_ok.
    assert (X : exists w3, (if forced then andthen (manager (decache_file dir (a_delete a) (path_of q)) w2) (fun _ w3 => register_file dir (a_again a) (path_of q) q w3) else (w2, Ok tt)) = (w3, Ok tt) /\ good w3).
    { destruct forced; [|exists w2; auto]. destruct (decache_shrinks (a_delete a) q w2 O (proj1 (proj1 G2))) as (w3 & E3 & S3). rewrite E3, andthen_ok. pose proof (good_shrinks _ _ G2 S3) as G3.
      destruct (register_shrinks (a_again a) q w3 O (proj1 (proj1 G3))) as (w4 & E4 & S4 & _). exists w4. split; [exact E4|]. exact (good_shrinks _ _ G3 S4). }
    destruct X as (w3 & -> & G3). rewrite andthen_ok. destruct (there w3 (path_of q)); [split; [exact G3|intros p E; injection E as <-; reflexivity]|]. apply create_file_good; assumption.
  Qed.

  (** What is read from the cache. *)
  Lemma path_name q r : path_of q = path_of r -> key_name sha q = key_name sha r.
  Proof. unfold CacheFile.path_of. apply join_inj. Qed.
  Lemma read_right w q c : good w -> ours q -> content w (path_of q) = Some c -> exists r, key_name sha q = key_name sha r /\ right r c.
  Proof using NM.
    intros [_ G] O E. destruct (G _ _ E) as [(s & H)|(r & _ & H & R)]; [exfalso; exact (ours_not_tmp q s O H)|]. exists r. split; [exact (path_name _ _ H)|exact R].
  Qed.
  Lemma read_file w u b : address u -> good w -> content w (path_of (file_request u)) = Some b -> file_at sha ext_of S u b.
  Proof using NM FL.
    intros AD G E. destruct (read_right w _ b G (or_introl (ex_intro _ u (conj AD eq_refl))) E) as (r & K & [(v & -> & SV)|(b0 & z & _ & -> & _)]).
    - exists v. split; [|exact SV]. destruct (C49_different_files sha _ _ FL (proper_file ext_of u) (proper_file ext_of v) K) as [(_ & J & _)|C]; [left|right; exact C].
      cbn in J. inversion J as [| | | | |l l' m m' P P' F E1 E2]. subst l m.
      apply Permutation.Permutation_length_2_inv in P. apply Permutation.Permutation_length_2_inv in P'.
      destruct P as [->| ->], P' as [->| ->]; inversion F as [|? ? ? ? [K1 K2] F']; cbn in K1, K2; try discriminate K1.
      + inversion K2. reflexivity.
      + inversion F' as [|? ? ? ? [K3 K4] _]; cbn in K4. inversion K4. reflexivity.
    - exfalso. unfold key_name in K. cbn in K. discriminate K.
  Qed.
  Lemma read_unpacked w base t : B base -> good w -> content w (path_of (unpacked base)) = Some t ->
    exists base' z, (base' = base \/ B base' /\ clash sha (unpacked base) (unpacked base')) /\ file_at sha ext_of S (join_path base' "index.json.gz") z /\ gunzip z = Ok t.
  Proof using NM FL.
    intros BB G E. destruct (read_right w _ t G (or_intror (ex_intro _ base (conj BB eq_refl))) E) as (r & K & [(v & -> & SV)|(b & z & Bb & -> & SZ & GZ)]).
    - exfalso. unfold key_name in K. cbn in K. discriminate K.
    - destruct (C49_different_files sha _ _ FL (proper_unpacked base) (proper_unpacked b) K) as [(_ & J & _)|C]; [|exists b, z; auto].
      exists base, z. split; [auto|]. split; [|exact GZ]. cbn [unpacked q_args] in J.
      assert (EJ : join_path base "index.json" = join_path b "index.json").
      { revert J. generalize (join_path base "index.json") (join_path b "index.json"). clear. intros x y J. inversion J as [| | | |l m F|]; subst. inversion F as [|? ? ? ? J1]; subst. inversion J1; reflexivity. }
      rewrite (join_same base b "index.json" "index.json.gz" eq_refl eq_refl EJ). exact SZ.
  Qed.

  (** ** The accessor *)
  Definition serves (x : meets) : Prop := forall u b, sv_get (m_server x) u = Ok b -> S u b.
  Notation download := (download weigh sha dir limit usage check fetch ext_of).
  Notation remote_sha := (remote_sha read_sha weigh sha dir limit usage check fetch ext_of).
  Notation create_index := (create_index gunzip digest weigh sha dir limit usage check fetch ext_of).
  Notation get_index := (get_index gunzip digest read_sha weigh sha dir limit usage check fetch ext_of).
  Lemma download_right x u : serves x -> creates_right (file_request u) (fun target _ => dl_download (downloader_of weigh ext_of x u) target).
  Proof using weights.
    intros SV w G. cbn [downloader_of dl_download]. destruct (sv_get (m_server x) u) as [b|e|] eqn:E.
    - split; [apply write_tmp_good, G|]. intros j c _. rewrite content_write, String.eqb_refl. intros H; injection H as <-. left. exists u. split; [reflexivity|exact (SV _ _ E)].
    - split; [|discriminate]. destruct (sv_left (m_server x) u); [apply write_tmp_good, G|exact G].
    - split; [exact G|discriminate].
  Qed.
  Lemma download_good x u given update w : address u -> serves x -> good w -> (forall f, given = Some f -> exists b, f = FFlag b) ->
    good (fst (download x u given update w)) /\ forall p, snd (download x u given update w) = Ok p -> p = path_of (file_request u).
  Proof using weights NM.
    intros AD SV G FG. unfold Remote.download, download_and_cache. cbn [downloader_of dl_local dl_ext].
    match goal with |- context [CacheFile.cache_file weigh sha dir limit usage ?a ?q ?f ?c w] => pose proof (cache_good a (file_request u) f c w (or_introl (ex_intro _ u (conj AD eq_refl))) G (download_right x u SV)) as H; set (r := CacheFile.cache_file weigh sha dir limit usage a q f c w) in * end.
    destruct H as [H1 H2].
    { destruct given as [f|]; [destruct (FG f eq_refl) as (b & ->); exact I|]. cbn. intros o w0 G0. destruct (negb check); [exact G0|]. unfold andthen. cbn [downloader_of dl_out_of_date fst snd]. destruct (sv_stale (m_server x) u); exact G0. }
    change (good (fst r)) in H1. change (forall p, snd r = Ok p -> p = path_of (file_request u)) in H2. destruct r as [w1 [p|e|]]; cbn; cbn in H1, H2; (split; [exact H1|]); [|discriminate..].
    intros p' E; injection E as <-. exact (H2 _ eq_refl).
  Qed.
  Lemma flag_given b : forall f : force, Some (FFlag (C := blob) b) = Some f -> exists b, f = FFlag b.
  Proof. intros f E. injection E as <-. eauto. Qed.
  Lemma reading_world {T} (read : blob -> result T) p w : fst (reading read p w) = w.
  Proof. unfold reading. destruct (CacheFile.content w p); reflexivity. Qed.
  Lemma remote_sha_good x base w : B base -> serves x -> good w -> good (fst (remote_sha x base w)).
  Proof using weights NM.
    intros BB SV G. unfold Remote.remote_sha. destruct (download_good x (join_path base "index.json.sha256") (Some (FFlag true)) true w (ex_intro _ base (conj BB (or_intror (or_introl eq_refl)))) SV G (flag_given true)) as [H _].
    unfold andthen. destruct (snd _); cbn [fst]; [rewrite reading_world|..]; exact H.
  Qed.
  Lemma create_index_right x base : B base -> serves x -> creates_right (unpacked base) (create_index x base).
  Proof using weights NM FL.
    intros BB SV w G. unfold Remote.create_index. assert (AD : address (join_path base "index.json.gz")) by (exists base; auto).
    destruct (download_good x (join_path base "index.json.gz") (Some (FFlag true)) true w AD SV G (flag_given true)) as [G1 P1].
    destruct (download x (join_path base "index.json.gz") (Some (FFlag true)) true w) as [w1 r]. cbn [fst snd] in *. unfold andthen. cbn [fst snd]. destruct r as [p|e|]; [|split; [exact G1|discriminate]..].
    specialize (P1 p eq_refl). subst p. unfold reading. destruct (content w1 (path_of (file_request (join_path base "index.json.gz")))) as [g|] eqn:CT; cbn [fst snd]; [|split; [exact G1|discriminate]].
    destruct (gunzip g) as [t|e|] eqn:GZ; [|split; [exact G1|discriminate]..].
    assert (G3 : good (write weigh (path_of (unpacked base) ++ ".tmp")%string t w1)) by (apply write_tmp_good, G1).
    destruct (digest t); (split; [exact G3|]); [|discriminate..]. intros j c _. rewrite content_write, String.eqb_refl. intros H; injection H as <-.
    right. exists base, g. split; [exact BB|]. split; [reflexivity|]. split; [|exact GZ]. exact (read_file w1 _ g AD G1 CT).
  Qed.
  Lemma get_index_good m x base w : B base -> serves x -> good w ->
    good (fst (get_index m x base w)) /\ forall p, snd (get_index m x base w) = Ok p -> p = path_of (unpacked base).
  Proof using weights NM FL.
    intros BB SV G. unfold Remote.get_index. apply (cache_good _ (unpacked base)); [right; eauto|exact G|exact (create_index_right x base BB SV)|].
    destruct m; cbn [force_of asks_well]; [exact I|..]; intros o w0 G0; pose proof (remote_sha_good x base w0 BB SV G0) as H.
    - unfold compare_sha. destruct (stored_sha o); [|exact G0]. destruct (remote_sha x base w0) as [w1 r]. unfold andthen. destruct r; exact H.
    - unfold force_download. destruct (remote_sha x base w0) as [w1 r]. unfold andthen. destruct r; exact H.
  Qed.
End Files.
