(** Lemmas about remote inventories, with limits on the disk cache: what is served is found, or a file
    of the cache is gone when it is opened. *)
From Verif Require Import PyBase ListLemmas PyStr Float64 GridSpec GridVocab GridProofs GridProofs3 Index IndexSpec IndexProofs IndexProofs2
  Db MemCache MemCacheProofs MemCacheProofs2 Inventory Regrid System SystemSpec SystemProofs
  Disk DiskSpec DiskProofs DiskProofs2 Props_Disk Key KeySpec KeyProofs Props_Key CacheFile Props_CacheFile Remote RemoteSpec RemoteProofs RemoteProofs2 RemoteProofs3.
Set Default Proof Using "Type".
Local Open Scope string_scope.
Local Open Scope list_scope.
Local Open Scope Z_scope.

Section Limits.
  Context {A rest blob : Type}.
  Variable parse : blob -> result (file rest).
  Variable gunzip : blob -> result blob.
  Variable digest : blob -> result string.
  Variable read_sha : blob -> result string.
  Variable load_npz : blob -> result (csr A).
  Variable weigh : blob -> node.
  Variable sha : string -> string.
  Variable dir : string.
  Variables limit usage : option Z.
  Variables check fetch : bool.
  Variable ext_of : string -> string.
  Variables (py_str : val -> string) (key_order : list string) (fuel : nat).
  Variable S : string -> blob -> Prop.
  Variable B : string -> Prop.
  Variable G : string -> result blob.
  Hypothesis WP : forall c, 0 <= n_size (weigh c).
  Hypothesis NM : names parse gunzip sha ext_of S B.
  Hypothesis FL : fixed_length sha.
  Hypothesis SG : forall u b, S u b -> G u = Ok b.
  Notation world := (@world blob).
  Notation meets := (@meets blob).
  Notation rst := (@rst rest blob).
  Notation path_of := (path_of sha dir).
  Notation file_request := (file_request ext_of).
  Notation ours := (our_request parse gunzip sha ext_of S B).
  Notation address := (address parse gunzip sha ext_of S B).
  Notation good := (good parse gunzip sha dir ext_of S B).
  Notation serves := (serves S).
  Notation index_at := (index_at parse gunzip sha ext_of S B).
  Notation current := (current parse gunzip G).
  Notation its_file := (its_file parse gunzip G).
  Notation apart_here := (apart_here parse gunzip sha ext_of B G).
  Notation healthy := (healthy parse gunzip digest G).
  Notation summed := (summed read_sha G).
  Notation cache_file := (cache_file weigh sha dir limit usage).
  Notation create_file := (create_file weigh dir limit usage).
  Notation download := (download weigh sha dir limit usage check fetch ext_of).
  Notation remote_sha := (remote_sha read_sha weigh sha dir limit usage check fetch ext_of).
  Notation create_index := (create_index gunzip digest weigh sha dir limit usage check fetch ext_of).
  Notation get_index := (get_index gunzip digest read_sha weigh sha dir limit usage check fetch ext_of).
  Notation got_index := (got_index gunzip digest read_sha weigh sha dir limit usage check fetch ext_of).
  Notation index_path := (index_path gunzip digest read_sha weigh sha dir limit usage check fetch ext_of).
  Notation load_index := (load_index parse gunzip digest read_sha weigh sha dir limit usage check fetch ext_of).
  Notation get_or_load := (get_or_load parse gunzip digest read_sha weigh sha dir limit usage check fetch ext_of).
  Notation find_entry := (find_entry parse gunzip digest read_sha weigh sha dir limit usage check fetch ext_of py_str key_order fuel).
  Notation load_weights := (load_weights load_npz weigh sha dir limit usage check fetch ext_of).
  Notation first := (@first rest py_str key_order fuel).
  Implicit Types (w : world) (q : Key.request) (x : meets) (s : rst) (gi go : gspec).

  Notation steady_one := (steady_one G).
  Notation FNF := FileNotFoundError.


  Definition creates_lim q (create : creator) : Prop := forall w, good w ->
    (exists w1 j, create (path_of q ++ ".tmp")%string (q_args q) w = (w1, Ok j) /\ there w1 (path_of q ++ ".tmp") = true) \/
    (exists w1, create (path_of q ++ ".tmp")%string (q_args q) w = (w1, Raise FNF)).
  Definition asks_lim q (f : force) : Prop := match f with FFlag _ => True | FCall g => forall o w, good w -> (exists w1 b, g (q_args q) (path_of q) o w = (w1, Ok b)) \/ (exists w1, g (q_args q) (path_of q) o w = (w1, Raise FNF)) end.
  Definition ok_or_gone {T} (r : result T) (P : T -> Prop) : Prop := (exists y, r = Ok y /\ P y) \/ r = Raise FNF.

  Lemma create_file_lim a q create w : ours q -> good w -> creates_right parse gunzip sha dir ext_of S B q create -> creates_lim q create ->
    ok_or_gone (snd (create_file a q (path_of q) create w)) (Logic.eq (path_of q)).
  Proof using WP NM.
    intros O GD CR CT. assert (GL : good (logged (path_of q) w)) by exact GD. unfold CacheFile.create_file. destruct (CT _ GL) as [(w1 & j & E1 & T1)|(w1 & E1)].
    2:{ rewrite E1. right. reflexivity. }
    specialize (CR _ GL). rewrite E1 in CR. destruct CR as [G1 _].
    rewrite E1, andthen_ok. destruct (proj2 (proj1 G1) _ T1) as (c & C1). unfold rename. rewrite C1, andthen_ok.
    set (w2 := write weigh (path_of q) c (erase (path_of q ++ ".tmp") w1)).
    assert (T2 : tidy dir (w_disk w2)) by (apply write_tidy; [exact WP|apply erase_tidy, G1]).
    assert (H2 : there w2 (path_of q) = true) by (unfold w2; rewrite there_write, String.eqb_refl; reflexivity).
    destruct (update_ok dir (path_of q) j _ (ours_inside parse gunzip sha dir ext_of S B NM q O) T2 (proj1 (there_In w2 (path_of q)) H2)) as (n & d3 & _ & E3 & T3 & F3 & _).
    assert (M : manager (update_entry dir (path_of q) j) w2 = (mkWorld d3 (w_text w2) (w_log w2), Ok tt)) by (unfold manager; rewrite E3; reflexivity). rewrite M, andthen_ok.
    left. eexists. split; reflexivity.
  Qed.
  Lemma cache_lim a q f create w : ours q -> good w -> creates_right parse gunzip sha dir ext_of S B q create -> asks_well parse gunzip sha dir ext_of S B q f -> creates_lim q create -> asks_lim q f ->
    ok_or_gone (snd (cache_file a q f create w)) (Logic.eq (path_of q)).
  Proof using WP NM.
    intros O GD CR AW CT AT. unfold CacheFile.cache_file. fold (path_of q).
    destruct (register_shrinks parse gunzip sha dir ext_of S B NM (a_time a) q w O (proj1 (proj1 GD))) as (w1 & E1 & S1 & _). rewrite E1, andthen_ok. pose proof (good_shrinks _ _ _ _ _ _ _ _ _ GD S1) as G1.
    assert (X : (exists w2 b, decide q (path_of q) f w1 = (w2, Ok b) /\ good w2) \/ exists w2, decide q (path_of q) f w1 = (w2, Raise FNF)).
    { unfold decide. destruct (there w1 (path_of q)); [|left; eauto]. destruct f as [b|g]; [left; eauto|]. destruct (AT (owner_data w1 (path_of q)) w1 G1) as [(w2 & b & E)|(w2 & E)]; [left|right; eauto]. exists w2, b. split; [exact E|]. pose proof (AW (owner_data w1 (path_of q)) w1 G1) as H. rewrite E in H. exact H. }
    destruct X as [(w2 & forced & -> & G2)|(w2 & ->)]; [rewrite andthen_ok|right; reflexivity].
    assert (X : exists w3, (if forced then andthen (manager (decache_file dir (a_delete a) (path_of q)) w2) (fun _ w3 => register_file dir (a_again a) (path_of q) q w3) else (w2, Ok tt)) = (w3, Ok tt) /\ good w3).
    { destruct forced; [|exists w2; auto]. destruct (decache_shrinks parse gunzip sha dir ext_of S B NM (a_delete a) q w2 O (proj1 (proj1 G2))) as (w3 & E3 & S3). rewrite E3, andthen_ok. pose proof (good_shrinks _ _ _ _ _ _ _ _ _ G2 S3) as G3.
      destruct (register_shrinks parse gunzip sha dir ext_of S B NM (a_again a) q w3 O (proj1 (proj1 G3))) as (w4 & E4 & S4 & _). exists w4. split; [exact E4|]. exact (good_shrinks _ _ _ _ _ _ _ _ _ G3 S4). }
    destruct X as (w3 & -> & G3). rewrite andthen_ok. destruct (there w3 (path_of q)) eqn:TH; [left; eexists; split; reflexivity|]. apply create_file_lim; assumption.
  Qed.

  (** ** Files *)
  Lemma download_lim x u given update w b : serves x -> good w -> sv_get (m_server x) u = Ok b ->
    (exists f, given = Some (FFlag f)) \/ (given = None /\ (check = false \/ exists old, sv_stale (m_server x) u = Ok old)) ->
    address u ->
    good (fst (download x u given update w)) /\
    (forall c, content (fst (download x u given update w)) (path_of (file_request u)) = Some c -> file_at sha ext_of S u c) /\
    ok_or_gone (snd (download x u given update w)) (Logic.eq (path_of (file_request u))).
  Proof using WP NM FL.
    intros SV GD E GV AD.
    destruct (download_good parse gunzip weigh sha dir limit usage check fetch ext_of S B WP NM x u given update w AD SV GD) as [G1 _].
    { intros f EF. destruct GV as [(b0 & ->)|[-> _]]; [injection EF as <-; eauto|discriminate EF]. }
    split; [exact G1|]. split; [intros c C; exact (read_file parse gunzip sha dir ext_of S B NM FL _ u c AD G1 C)|].
    unfold Remote.download, download_and_cache. cbn [downloader_of dl_local dl_ext]. change (url_request "url" u JNull (ext_of u)) with (file_request u).
    match goal with |- context [CacheFile.cache_file weigh sha dir limit usage ?a ?q ?f ?c w] => pose proof (cache_lim a (file_request u) f c w (or_introl (ex_intro _ u (conj AD eq_refl))) GD (download_right parse gunzip weigh sha dir ext_of S B WP x u SV)) as H; destruct (CacheFile.cache_file weigh sha dir limit usage a q f c w) as [w1 r] end.
    assert (H' : ok_or_gone r (Logic.eq (path_of (file_request u)))).
    { apply H.
      - destruct GV as [(b0 & ->)|[-> _]]; [exact I|]. cbn. intros o w0 G0. destruct (negb check); [exact G0|]. unfold andthen. cbn [downloader_of dl_out_of_date fst snd]. destruct (sv_stale (m_server x) u); exact G0.
      - intros w0 G0. left. cbn [downloader_of dl_download]. rewrite E. do 2 eexists. split; [reflexivity|]. rewrite there_write, String.eqb_refl. reflexivity.
      - destruct GV as [(b0 & ->)|[-> CK]]; [exact I|]. cbn. intros o w0 G0. left. destruct CK as [->|(old & EO)]; [cbn; eauto|]. destruct (negb check); [eauto|]. unfold andthen. cbn [downloader_of dl_out_of_date fst snd]. rewrite EO. cbn. eauto. }
    destruct H' as [(y & -> & <-)| ->]; [left; eexists; split; reflexivity|right; reflexivity].
  Qed.
  Lemma remote_sha_lim x base w : B base -> serves x -> steady_one x -> good w -> apart_here base -> summed base ->
    (exists w1 t, remote_sha x base w = (w1, Ok t)) \/ (exists w1, remote_sha x base w = (w1, Raise FNF)).
  Proof using WP NM FL SG.
    intros BB SV ST GD AP (b & t & Eb & Et). assert (AD : address (join_path base "index.json.sha256")) by (exists base; auto).
    destruct (download_lim x (join_path base "index.json.sha256") (Some (FFlag true)) true w b SV GD (eq_trans (ST _) Eb) (or_introl (ex_intro _ true eq_refl)) AD) as (G1 & FA & R).
    unfold Remote.remote_sha. destruct (download x (join_path base "index.json.sha256") (Some (FFlag true)) true w) as [w1 r]. cbn [fst snd] in *.
    destruct R as [(y & -> & <-)| ->]; [rewrite andthen_ok|right; eexists; reflexivity]. unfold reading. destruct (content w1 _) as [c|] eqn:C; [left|right; eauto].
    clear C. pose proof (FA c eq_refl) as C. apply (its_own parse gunzip sha ext_of S B G SG base _ c AP (or_intror (or_introl eq_refl))) in C. rewrite Eb in C. injection C as <-. rewrite Et. eauto.
  Qed.
  Lemma create_index_lim x base : B base -> serves x -> steady_one x -> apart_here base -> healthy base -> creates_lim (unpacked base) (create_index x base).
  Proof using WP NM FL SG.
    intros BB SV ST AP ((i & z & t & f & Ez & Et & _) & HD) w GD. assert (AD : address (join_path base "index.json.gz")) by (exists base; auto).
    destruct (download_lim x (join_path base "index.json.gz") (Some (FFlag true)) true w z SV GD (eq_trans (ST _) Ez) (or_introl (ex_intro _ true eq_refl)) AD) as (G1 & FA & R).
    unfold Remote.create_index. destruct (download x (join_path base "index.json.gz") (Some (FFlag true)) true w) as [w1 r]. cbn [fst snd] in *.
    destruct R as [(y & -> & <-)| ->]; [rewrite andthen_ok|right; eexists; reflexivity]. unfold reading. destruct (content w1 _) as [c|] eqn:C; [left|right; eexists; reflexivity].
    clear C. pose proof (FA c eq_refl) as C. apply (its_own parse gunzip sha ext_of S B G SG base _ c AP (or_introl eq_refl)) in C. rewrite Ez in C. injection C as <-. destruct (HD z t Ez Et) as (sm & ES).
    rewrite Et, andthen_ok, ES. do 2 eexists. split; [reflexivity|]. rewrite there_write, String.eqb_refl. reflexivity.
  Qed.
  Lemma force_well_lim m x base : B base -> serves x -> asks_well parse gunzip sha dir ext_of S B (unpacked base) (force_of read_sha weigh sha dir limit usage check fetch ext_of m x base).
  Proof using WP NM.
    intros BB SV. destruct m; cbn [force_of asks_well]; [exact I|..]; intros o w0 G0; pose proof (remote_sha_good parse gunzip read_sha weigh sha dir limit usage check fetch ext_of S B WP NM x base w0 BB SV G0) as H.
    - unfold compare_sha. destruct (stored_sha o); [|exact G0]. destruct (remote_sha x base w0) as [w1 r]. unfold andthen. destruct r; exact H.
    - unfold force_download. destruct (remote_sha x base w0) as [w1 r]. unfold andthen. destruct r; exact H.
  Qed.
  Lemma get_index_lim m x base w : B base -> serves x -> steady_one x -> good w -> apart_here base -> healthy base -> m = Plain \/ summed base ->
    ok_or_gone (snd (get_index m x base w)) (Logic.eq (path_of (unpacked base))).
  Proof using WP NM FL SG.
    intros BB SV ST GD AP HL MS. unfold Remote.get_index.
    apply (cache_lim _ (unpacked base)); [right; eauto|exact GD|exact (create_index_right parse gunzip digest weigh sha dir limit usage check fetch ext_of S B WP NM FL x base BB SV)|apply force_well_lim; assumption|apply create_index_lim; assumption|].
    destruct m; cbn [force_of asks_lim]; [exact I|..]; destruct MS as [E|SU]; try discriminate E; intros o w0 G0; destruct (remote_sha_lim x base w0 BB SV ST G0 AP SU) as [(w1 & t & E)|(w1 & E)].
    - left. unfold compare_sha. destruct (stored_sha o); [|eauto]. rewrite E, andthen_ok. eauto.
    - unfold compare_sha. destruct (stored_sha o); [|left; eauto]. right. rewrite E. eexists. reflexivity.
    - left. unfold force_download. rewrite E, andthen_ok. eauto.
    - right. unfold force_download. rewrite E. eexists. reflexivity.
  Qed.
  Notation rst_ok := (rst_ok parse gunzip sha dir ext_of fuel S B).
  Lemma load_index_lim x base s : B base -> serves x -> steady_one x -> rst_ok base s -> apart_here base -> healthy base ->
    rst_ok base (fst (load_index x base s)) /\
    ((snd (load_index x base s) = Ok tt /\ exists i, d_index _ (r_db (fst (load_index x base s))) = Some i /\ current base i) \/ snd (load_index x base s) = Raise FNF).
  Proof using WP NM FL SG.
    intros BB SV ST OK AP HL. pose proof (load_index_ok parse gunzip digest read_sha weigh sha dir limit usage check fetch ext_of fuel S B WP NM FL x base s BB SV OK) as [OK1 LI]. split; [exact OK1|].
    assert (X : snd (load_index x base s) = Ok tt \/ snd (load_index x base s) = Raise FNF).
    { unfold Remote.load_index. set (s0 := set_index s (Some [])). assert (O0 : rst_ok base s0) by (split; [apply OK|right; reflexivity]).
      assert (Y : good (r_world (fst (index_path x base s0))) /\ ok_or_gone (snd (index_path x base s0)) (Logic.eq (path_of (unpacked base)))).
      { unfold Remote.index_path. change (index_file sha dir base) with (path_of (unpacked base)). destruct (d_path rest (r_db s0)); cbn [andb]; [destruct (there (r_world s0) (path_of (unpacked base))) eqn:TH; [split; [apply O0|left; eexists; split; reflexivity]|]|];
        (pose proof (got_ok parse gunzip digest read_sha weigh sha dir limit usage check fetch ext_of fuel S B WP NM FL Plain x base s0 BB SV O0) as ([G1 _] & _); split; [exact G1|];
         unfold Remote.got_index; pose proof (get_index_lim Plain x base (r_world s0) BB SV ST (proj1 O0) AP HL (or_introl eq_refl)) as Q; destruct (get_index Plain x base (r_world s0)); exact Q). }
      destruct (index_path x base s0) as [s1 r]. cbn [fst snd] in *. destruct Y as [G1 [(y & -> & <-)| ->]]; [|right; reflexivity]. cbn [bind]. unfold reading. destruct (content (r_world s1) (path_of (unpacked base))) as [t|] eqn:C; [|right; reflexivity]. cbn [snd bind].
      destruct (read_unpacked parse gunzip sha dir ext_of S B NM FL _ base t BB G1 C) as (base' & z & CB & Z & GZ).
      assert (base' = base) as -> by (destruct CB as [E|[B' CL]]; [exact E|destruct (proj2 AP base' B' CL)]).
      apply (its_own parse gunzip sha ext_of S B G SG base _ z AP (or_introl eq_refl)) in Z. destruct HL as [(i & z' & t' & f & Ez & Et & Ef & Ei) _]. rewrite Z in Ez. injection Ez as <-. rewrite GZ in Et. injection Et as <-. rewrite Ef. cbn [bind]. rewrite Ei. left. reflexivity. }
    destruct X as [E|E]; [left|right; exact E]. split; [exact E|]. destruct (LI tt E) as (i & DI & IA). exists i. split; [exact DI|exact (its_index parse gunzip sha ext_of S B G SG base i AP IA)].
  Qed.
  Notation rfull := (rfull parse gunzip fuel G).
  Notation rdb_ok := (rdb_ok parse gunzip sha ext_of fuel S B).
  (** The index in memory is the current one, or an empty one that a failed load has left. *)
  Lemma full_or_empty base d : apart_here base -> rdb_ok base d -> rfull base d \/ d_index _ d = Some [].
  Proof using SG. intros AP. unfold rdb_ok, rfull. destruct (d_index rest d) as [i|]; [|left; exact I]. intros [(i0 & IA & U)|E]; [left; exists i0; split; [exact (its_index parse gunzip sha ext_of S B G SG base i0 AP IA)|exact U]|right; rewrite E; reflexivity]. Qed.
  Hypothesis GS : forall u b, G u = Ok b -> S u b.
  Lemma find_entry_lim x base s di do gi go m i0 e0 : B base -> serves x -> steady_one x -> rst_ok base s -> apart_here base -> healthy base -> summed base -> current base i0 ->
    NoDup (akeys di) -> NoDup (akeys do) -> from_dict di = Ok gi -> from_dict do = Ok go ->
    comparable_at parse gunzip sha ext_of py_str key_order fuel S B base gi go m ->
    first i0 gi go (method_alias m) = Ok (Some e0) ->
    (exists e, snd (find_entry x base s (gd gi) (gd go) m) = Ok (Some e) /\ used_entry fuel e0 e) \/
    snd (find_entry x base s (gd gi) (gd go) m) = Raise FNF \/
    (snd (find_entry x base s (gd gi) (gd go) m) = Ok None /\ d_index _ (r_db s) = Some [] /\ d_checked _ (r_db s) = true).
  Proof using WP NM FL SG GS.
    intros BB SV ST OK AP HL SU CU N N' GI GO CO FO. unfold Remote.find_entry. set (m' := method_alias m) in *.
    assert (CO0 : forall n e, In (n, e) i0 -> answers py_str key_order fuel e gi go m' \/ does_not_answer py_str key_order fuel e gi go m') by (intros n e; apply CO, (current_at parse gunzip sha ext_of S B G GS), CU).
    assert (X : forall s1, rst_ok base s1 -> rfull base (r_db s1) -> d_index _ (r_db s1) <> None -> exists s2 e, Remote.index_find py_str key_order fuel s1 (gd gi) (gd go) m' = (s2, Ok (Some e)) /\ used_entry fuel e0 e).
    { intros s1 OK1 RF1 NN1. destruct (index_find_total parse gunzip sha dir ext_of py_str key_order fuel S B G base s1 di do gi go m' i0 (proj1 OK1) NN1 RF1 CU N N' GI GO CO0) as (s2 & y & E & _ & _ & _ & Y). rewrite FO in Y. destruct Y as (e & -> & U). eauto. }
    destruct (full_or_empty base (r_db s) AP (proj2 OK)) as [RF|EM].
    - unfold Remote.get_or_load. destruct (d_index rest (r_db s)) as [i|] eqn:DI.
      + destruct (X s OK RF) as (s2 & e & -> & U); [rewrite DI; discriminate|]. left. cbn. eauto.
      + destruct (load_index_lim x base s BB SV ST OK AP HL) as [OK1 L]. destruct (load_index x base s) as [s1 r]. cbn [fst snd] in *. destruct L as [(-> & i & D & C)| ->]; [|right; left; reflexivity].
        destruct (X s1 OK1) as (s2 & e & -> & U); [unfold RemoteProofs3.rfull; rewrite D; exists i; split; [exact C|apply used_index_refl]|rewrite D; discriminate|]. left. cbn. eauto.
    - unfold Remote.get_or_load. rewrite EM.
      assert (FE : exists i' : index rest, Index.find py_str key_order fuel ([] : index rest) (gd gi) (gd go) m' = (i', Ok None) /\ i' = []).
      { pose proof (idempotent di gi N GI) as SI. pose proof (idempotent do go N' GO) as SO. unfold Index.find. destruct (from_dict (gd gi)) as [g1|x1|]; try contradiction SI. destruct (from_dict (gd go)) as [g2|x2|]; try contradiction SO. cbn. eauto. }
      destruct FE as (i' & FE & ->).
      assert (FI : Remote.index_find py_str key_order fuel s (gd gi) (gd go) m' = (set_index s (Some []), Ok None)) by (unfold Remote.index_find; rewrite EM, FE; reflexivity). rewrite !FI. clear FI. change (d_checked rest (r_db (set_index s (Some [])))) with (d_checked rest (r_db s)). destruct (d_checked rest (r_db s)) eqn:CK; cbn [negb]; [right; right; split; [reflexivity|auto]|].
      set (s2 := set_index s (Some [])). assert (OK2 : rst_ok base s2) by (split; [apply OK|right; reflexivity]). unfold reload.
      destruct (got_ok parse gunzip digest read_sha weigh sha dir limit usage check fetch ext_of fuel S B WP NM FL Compare x base s2 BB SV OK2) as (OK3 & D3 & _).
      assert (Q : ok_or_gone (snd (got_index Compare x base s2)) (Logic.eq (path_of (unpacked base)))).
      { unfold Remote.got_index. pose proof (get_index_lim Compare x base (r_world s2) BB SV ST (proj1 OK2) AP HL (or_intror SU)) as Q. destruct (get_index Compare x base (r_world s2)). exact Q. }
      fold s2. destruct (got_index Compare x base s2) as [s3 r3]. cbn [fst snd] in OK3, D3, Q. destruct Q as [(p & EP & _)|EP]; subst r3; [|right; left; reflexivity].
      destruct (load_index_lim x base s3 BB SV ST OK3 AP HL) as [OK4 L]. destruct (load_index x base s3) as [s4 r]. cbn [fst snd] in *. destruct L as [(-> & i & D & C)| ->]; [|right; left; reflexivity].
      destruct (X s4 OK4) as (s5 & e & -> & U); [unfold RemoteProofs3.rfull; rewrite D; exists i; split; [exact C|apply used_index_refl]|rewrite D; discriminate|]. left. cbn. eauto.
  Qed.
  Lemma load_weights_lim x base i n (e0 e : entry rest) p b z sh w : B base -> serves x -> steady_one x -> good w -> apart_here base -> askable parse gunzip G check x base ->
    current base i -> In (n, e0) i -> used_entry fuel e0 e -> matrix_path e0 = Ok p -> G (join_path base p) = Ok b -> load_npz b = Ok z -> alookup "shape" (gd (e_output e0)) = Some sh ->
    ok_or_gone (snd (load_weights x base e w)) (Logic.eq (z, sh)).
  Proof using WP NM FL SG GS.
    intros BB SV ST GD AP AK CU IN (_ & (_ & GE & _) & NA & RA) MP EB LZ SH. unfold Remote.load_weights.
    assert (MP' : matrix_path e = Ok p) by (unfold matrix_path in *; rewrite NA, RA; exact MP). rewrite MP'.
    assert (IT : its_file base (join_path base p)) by (right; right; exists i, n, e0, p; auto).
    assert (AD : address (join_path base p)). { exists base. split; [exact BB|]. right. right. exists i, n, e0, p. split; [apply (current_at parse gunzip sha ext_of S B G GS), CU|auto]. }
    destruct (download_lim x (join_path base p) None false w b SV GD (eq_trans (ST _) EB)) as (G1 & FA & R); [|exact AD|].
    { right. split; [reflexivity|]. destruct AK as [->|AK]; [left; reflexivity|right; apply AK, IT]. }
    destruct (download x (join_path base p) None false w) as [w1 r]. cbn [fst snd] in *. destruct R as [(y & -> & <-)| ->]; [rewrite andthen_ok|right; reflexivity].
    unfold reading. destruct (content w1 _) as [c|] eqn:C; [|right; reflexivity]. clear C. pose proof (FA c eq_refl) as C. apply (its_own parse gunzip sha ext_of S B G SG base _ c AP IT) in C. rewrite EB in C. injection C as <-. rewrite LZ, andthen_ok. unfold dget. rewrite GE, SH. left. cbn. eauto.
  Qed.

  (** ** Whole calls *)
  Variables (zero : A) (add mul : A -> A -> A).
  Variable memory_of : rest -> Z.
  Variable float_text : f64 -> string.
  Notation key_of := (key_of sha float_text).
  Notation W := (weights A).
  Notation rsys := (@rsys A rest blob).
  Notation inventory_of := (inventory_of parse gunzip digest read_sha load_npz weigh sha dir limit usage check fetch ext_of py_str key_order fuel).
  Notation db_find := (db_find parse gunzip digest read_sha load_npz weigh sha dir limit usage check fetch ext_of py_str key_order fuel memory_of float_text).
  Notation weights_now := (weights_now parse gunzip load_npz py_str key_order fuel G).
  Notation comparable_at := (comparable_at (rest := rest) parse gunzip sha ext_of py_str key_order fuel S B).
  Lemma find_lim (t : rsys) x base di do m t' r gi go z sh : good (z_world t) -> rdb_ok base (db_of base t) -> serves x -> B base -> plain_dict di -> plain_dict do -> (forall gi go, IndexSpec.request di do gi go -> comparable_at base gi go m) -> steady_one x ->
    apart_here base -> healthy base -> summed base -> IndexSpec.request di do gi go -> db_find x base di do m t = (t', r) ->
    weights_now base gi go m z sh -> askable parse gunzip G check x base -> GInv W (z_mem t) ->
    (exists w : weights A, r = Ok (Some w)) \/ (r = Raise WeightsTooLarge /\ too_large_now parse gunzip py_str key_order fuel G memory_of base gi go m (z_mem t)) \/ r = Raise FNF \/
    (r = Ok None /\ d_index _ (db_of base t) = Some [] /\ d_checked _ (db_of base t) = true).
  Proof using WP NM FL SG GS.
    intros HG HD SV BB (N & _) (N' & _) CO ST AP HL SU [GI GO] H. unfold Remote.db_find in H. rewrite GI, GO in H. cbn [bind] in H. specialize (CO gi go (conj GI GO)).
    set (s0 := mkR (z_world t) (db_of base t)) in *.
    destruct (MemCache.get key_of (System.est_size memory_of) System.size_of (inventory_of x base s0 (gi, go, m)) (gi, go, m) (z_mem t)) as [[mem calls] y] eqn:GE.
    assert (y = r) as -> by (destruct calls; injection H as _ E; exact E). clear H.
    pose proof (conj HG HD : rst_ok base s0) as OK.
    destruct (find_entry_ok parse gunzip digest read_sha weigh sha dir limit usage check fetch ext_of py_str key_order fuel S B WP NM FL x base s0 di do gi go m BB SV OK N N' GI GO CO) as [OK1 _].
    intros (i & pre & n & e & post & p & b & CU & -> & Y & NN & MP & EB & LZ & SH) AK GI0.
    assert (FF : first (pre ++ (n, e) :: post) gi go (method_alias m) = Ok (Some e)). { apply first_some. exists pre, n, post. auto. }
    assert (CE : MemCache.create (inventory_of x base s0 (gi, go, m)) (gi, go, m) = Ok (Some (z, sh)) \/ MemCache.create (inventory_of x base s0 (gi, go, m)) (gi, go, m) = Raise FNF \/
      (MemCache.create (inventory_of x base s0 (gi, go, m)) (gi, go, m) = Ok None /\ d_index _ (db_of base t) = Some [] /\ d_checked _ (db_of base t) = true)).
    { unfold MemCache.create, Remote.inventory_of, create_from_entry. cbn [i_find i_load]. unfold Remote.lookup.
      destruct (find_entry_lim x base s0 di do gi go m _ e BB SV ST OK AP HL SU CU N N' GI GO CO FF) as [(e' & FE & U)|[FE|(FE & EM & CK)]]; rewrite FE; cbn [bind]; [|right; left; reflexivity|right; right; auto].
      assert (IN : In (n, e) (pre ++ (n, e) :: post)) by (apply in_or_app; right; left; reflexivity).
      destruct (load_weights_lim x base _ n e e' p b z sh (r_world (fst (find_entry x base s0 (gd gi) (gd go) m))) BB SV ST (proj1 OK1) AP AK CU IN U MP EB LZ SH) as [(y & E & <-)|E]; rewrite E; auto. }
    destruct (get_failures mreq (entry rest) W key_of (System.est_size memory_of) System.size_of size_nonneg _ _ _ _ _ _ GI0 GE) as [F1 F2].
    destruct r as [[w|]|y|].
    - left. eauto.
    - pose proof (get_kept mreq (entry rest) W key_of (System.est_size memory_of) System.size_of size_nonneg (fun _ _ => True) _ _ _ _ _ _ (fun _ _ => I) (proj1 GI0) (fun _ _ _ => I) GE) as (_ & _ & K).
      specialize (K eq_refl). destruct CE as [CE|[CE|(CE & R)]]; [congruence|congruence|]. right. right. right. auto.
    - destruct (F1 y eq_refl) as [E|(-> & _ & STR & ent & mx & FN & MX & LT)].
      + right. right. left. destruct CE as [CE|[CE|(CE & R)]]; congruence.
      + right. left. split; [reflexivity|]. split; [exact STR|].
        exists (pre ++ (n, e) :: post), n, e, mx. split; [exact CU|]. split; [apply in_or_app; right; left; reflexivity|]. split; [exact Y|]. split; [exact MX|].
        unfold Remote.inventory_of in FN. cbn [i_find] in FN. unfold Remote.lookup in FN.
        destruct (find_entry_lim x base s0 di do gi go m _ e BB SV ST OK AP HL SU CU N N' GI GO CO FF) as [(e' & FE & U)|[FE|(FE & _)]]; rewrite FE in FN; try discriminate FN. injection FN as <-. destruct U as (_ & _ & _ & RA). unfold System.est_size in LT. rewrite RA in LT. exact LT.
    - rewrite (F2 eq_refl) in CE. destruct CE as [CE|[CE|(CE & _)]]; discriminate CE.
  Qed.
  Notation rop := (@rop A blob).
  Notation rafter := (rafter parse gunzip digest read_sha load_npz weigh sha dir limit usage check fetch ext_of py_str key_order fuel zero add mul memory_of float_text).
  Implicit Types (h : list rop).
  Lemma accepted_ginv_lim c h : accepted (fun pre => z_mem (rafter c pre)) c h -> GInv W (z_mem (rafter c h)).
  Proof.
    assert (X : forall c, snd (@MemCache.init W c) = Ok tt -> GInv W (fst (@MemCache.init W c))).
    { clear. intros c C. unfold init in *. destruct (MemCache.update c fresh) as [s r] eqn:E. cbn in *. subst r. exact (proj1 (MemCacheProofs2.update_ok W c fresh s (fresh_ginv W) E)). }
    intros (C0 & C1 & C2). induction h as [|o h IH] using rev_ind; [exact (X c C0)|].
    assert (Y : GInv W (z_mem (rafter c h))). { apply IH; [intros pre c' post E; apply (C1 pre c' (post ++ [o])); rewrite E, <- app_assoc; reflexivity|intros c' I; apply C2, in_or_app; left; exact I]. }
    unfold Remote.rafter. rewrite fold_left_app. cbn [fold_left]. fold (rafter c h). destruct o as [x base values di do m|c'| |c'|e latest|p]; cbn [Remote.rstep]; try exact Y.
    - unfold Remote.rsys_regrid, Remote.db_find. destruct (from_dict di) as [gi|y|]; [|exact Y..]. cbn [bind]. destruct (from_dict do) as [go|y|]; [|exact Y..]. cbn [bind].
      destruct (MemCache.get key_of (System.est_size memory_of) System.size_of _ (gi, go, m) (z_mem (rafter c h))) as [[mem calls] y] eqn:GE.
      pose proof (proj1 (get_ginv mreq (entry rest) W key_of (System.est_size memory_of) System.size_of size_nonneg _ _ _ _ _ _ Y GE)) as R. destruct calls; exact R.
    - specialize (C1 h c' [] eq_refl). cbn [z_mem]. destruct (MemCache.update c' (z_mem (rafter c h))) as [s r] eqn:E. cbn in C1. subst r. exact (proj1 (MemCacheProofs2.update_ok W c' _ s Y E)).
    - exact (step_ginv mreq (entry rest) W key_of (System.est_size memory_of) System.size_of size_nonneg (z_mem (rafter c h)) OpClear Y I).
    - apply X, C2, in_or_app. right. left. reflexivity.
  Qed.
End Limits.
