(** Lemmas about remote inventories: without limits on the cache, what is served is found. *)
From Verif Require Import PyBase ListLemmas PyStr Float64 GridSpec GridVocab GridProofs GridProofs3 Index IndexSpec IndexProofs IndexProofs2
  Db MemCache MemCacheProofs MemCacheProofs2 Inventory Regrid System SystemSpec SystemProofs
  Disk DiskSpec DiskProofs DiskProofs2 Props_Disk Key KeySpec KeyProofs Props_Key CacheFile Props_CacheFile Remote RemoteSpec RemoteProofs RemoteProofs2.
Set Default Proof Using "Type".
Local Open Scope string_scope.
Local Open Scope list_scope.
Local Open Scope Z_scope.

Section Total.
  Context {A rest blob : Type}.
  Variable parse : blob -> result (file rest).
  Variable gunzip : blob -> result blob.
  Variable digest : blob -> result string.
  Variable read_sha : blob -> result string.
  Variable load_npz : blob -> result (csr A).
  Variable weigh : blob -> node.
  Variable sha : string -> string.
  Variable dir : string.
  Variables check fetch : bool.
  Variable ext_of : string -> string.
  Variables (py_str : val -> string) (key_order : list string) (fuel : nat).
  Variable S : string -> blob -> Prop.
  Variable B : string -> Prop.
  Variable G : string -> result blob.
  Hypothesis WP : forall c, 0 <= n_size (weigh c).
  Hypothesis NM : names parse gunzip sha ext_of S B.
  Hypothesis FL : fixed_length sha.
  Hypothesis SG : forall u b, S u b -> G u = Ok b.
  Notation world := (@world blob).
  Notation meets := (@meets blob).
  Notation rst := (@rst rest blob).
  Notation path_of := (path_of sha dir).
  Notation file_request := (file_request ext_of).
  Notation ours := (our_request parse gunzip sha ext_of S B).
  Notation address := (address parse gunzip sha ext_of S B).
  Notation good := (good parse gunzip sha dir ext_of S B).
  Notation serves := (serves S).
  Notation index_at := (index_at parse gunzip sha ext_of S B).
  Notation current := (current parse gunzip G).
  Notation its_file := (its_file parse gunzip G).
  Definition apart_here (base : string) : Prop :=
    (forall u v b, its_file base u -> G v = Ok b -> ~ clash sha (file_request u) (file_request v)) /\
    (forall base', B base' -> ~ clash sha (unpacked base) (unpacked base')).
  Notation healthy := (healthy parse gunzip digest G).
  Notation summed := (summed read_sha G).
  Notation cache_file := (cache_file weigh sha dir None None).
  Notation create_file := (create_file weigh dir None None).
  Notation download := (download weigh sha dir None None check fetch ext_of).
  Notation remote_sha := (remote_sha read_sha weigh sha dir None None check fetch ext_of).
  Notation create_index := (create_index gunzip digest weigh sha dir None None check fetch ext_of).
  Notation get_index := (get_index gunzip digest read_sha weigh sha dir None None check fetch ext_of).
  Notation got_index := (got_index gunzip digest read_sha weigh sha dir None None check fetch ext_of).
  Notation index_path := (index_path gunzip digest read_sha weigh sha dir None None check fetch ext_of).
  Notation load_index := (load_index parse gunzip digest read_sha weigh sha dir None None check fetch ext_of).
  Notation get_or_load := (get_or_load parse gunzip digest read_sha weigh sha dir None None check fetch ext_of).
  Notation find_entry := (find_entry parse gunzip digest read_sha weigh sha dir None None check fetch ext_of py_str key_order fuel).
  Notation load_weights := (load_weights load_npz weigh sha dir None None check fetch ext_of).
  Notation first := (@first rest py_str key_order fuel).
  Implicit Types (w : world) (q : Key.request) (x : meets) (s : rst) (gi go : gspec).

  Definition steady_one x : Prop := forall u, sv_get (m_server x) u = G u.

  Definition creates_total q (create : creator) : Prop := forall w, good w ->
    exists w1 j, create (path_of q ++ ".tmp")%string (q_args q) w = (w1, Ok j) /\ there w1 (path_of q ++ ".tmp") = true.
  Definition asks_total q (f : force) : Prop := match f with FFlag _ => True | FCall g => forall o w, good w -> exists w1 b, g (q_args q) (path_of q) o w = (w1, Ok b) end.

  Lemma create_file_total a q create w : ours q -> good w -> creates_right parse gunzip sha dir ext_of S B q create -> creates_total q create ->
    exists w', create_file a q (path_of q) create w = (w', Ok (path_of q)) /\ there w' (path_of q) = true.
  Proof using WP NM.
    intros O GD CR CT. assert (GL : good (logged (path_of q) w)) by exact GD. destruct (CT _ GL) as (w1 & j & E1 & T1). specialize (CR _ GL). rewrite E1 in CR. destruct CR as [G1 _].
    unfold CacheFile.create_file. rewrite E1, andthen_ok. destruct (proj2 (proj1 G1) _ T1) as (c & C1). unfold rename. rewrite C1, andthen_ok.
    set (w2 := write weigh (path_of q) c (erase (path_of q ++ ".tmp") w1)).
    assert (T2 : tidy dir (w_disk w2)) by (apply write_tidy; [exact WP|apply erase_tidy, G1]).
    assert (H2 : there w2 (path_of q) = true) by (unfold w2; rewrite there_write, String.eqb_refl; reflexivity).
    destruct (update_ok dir (path_of q) j _ (ours_inside parse gunzip sha dir ext_of S B NM q O) T2 (proj1 (there_In w2 (path_of q)) H2)) as (n & d3 & _ & E3 & T3 & F3 & _).
    assert (M : manager (update_entry dir (path_of q) j) w2 = (mkWorld d3 (w_text w2) (w_log w2), Ok tt)) by (unfold manager; rewrite E3; reflexivity). rewrite M, andthen_ok.
    eexists. split; [reflexivity|]. unfold manager_async, manager. cbn. apply there_In. cbn [w_disk]. rewrite F3. apply there_In. exact H2.
  Qed.
  Lemma cache_total a q f create w : ours q -> good w -> creates_right parse gunzip sha dir ext_of S B q create -> asks_well parse gunzip sha dir ext_of S B q f -> creates_total q create -> asks_total q f ->
    exists w', cache_file a q f create w = (w', Ok (path_of q)) /\ there w' (path_of q) = true.
  Proof using WP NM.
    intros O GD CR AW CT AT. unfold CacheFile.cache_file. fold (path_of q).
    destruct (register_shrinks parse gunzip sha dir ext_of S B NM (a_time a) q w O (proj1 (proj1 GD))) as (w1 & E1 & S1 & _). rewrite E1, andthen_ok. pose proof (good_shrinks _ _ _ _ _ _ _ _ _ GD S1) as G1.
    assert (X : exists w2 b, decide q (path_of q) f w1 = (w2, Ok b) /\ good w2).
    { unfold decide. destruct (there w1 (path_of q)); [|eauto]. destruct f as [b|g]; [eauto|]. destruct (AT (owner_data w1 (path_of q)) w1 G1) as (w2 & b & E). exists w2, b. split; [exact E|]. pose proof (AW (owner_data w1 (path_of q)) w1 G1) as H. rewrite E in H. exact H. }
    destruct X as (w2 & forced & -> & G2). rewrite andthen_ok.
    assert (X : exists w3, (if forced then andthen (manager (decache_file dir (a_delete a) (path_of q)) w2) (fun _ w3 => register_file dir (a_again a) (path_of q) q w3) else (w2, Ok tt)) = (w3, Ok tt) /\ good w3).
    { destruct forced; [|exists w2; auto]. destruct (decache_shrinks parse gunzip sha dir ext_of S B NM (a_delete a) q w2 O (proj1 (proj1 G2))) as (w3 & E3 & S3). rewrite E3, andthen_ok. pose proof (good_shrinks _ _ _ _ _ _ _ _ _ G2 S3) as G3.
      destruct (register_shrinks parse gunzip sha dir ext_of S B NM (a_again a) q w3 O (proj1 (proj1 G3))) as (w4 & E4 & S4 & _). exists w4. split; [exact E4|]. exact (good_shrinks _ _ _ _ _ _ _ _ _ G3 S4). }
    destruct X as (w3 & -> & G3). rewrite andthen_ok. destruct (there w3 (path_of q)) eqn:TH; [eauto|]. apply create_file_total; assumption.
  Qed.

  (** ** Files *)
  Lemma download_total x u given update w b : serves x -> good w -> sv_get (m_server x) u = Ok b ->
    (exists f, given = Some (FFlag f)) \/ (given = None /\ (check = false \/ exists old, sv_stale (m_server x) u = Ok old)) ->
    address u ->
    exists w1 c, download x u given update w = (w1, Ok (path_of (file_request u))) /\ good w1 /\ content w1 (path_of (file_request u)) = Some c /\ file_at sha ext_of S u c.
  Proof using WP NM FL.
    intros SV GD E GV AD.
    destruct (download_good parse gunzip weigh sha dir None None check fetch ext_of S B WP NM x u given update w AD SV GD) as [G1 _].
    { intros f EF. destruct GV as [(b0 & ->)|[-> _]]; [injection EF as <-; eauto|discriminate EF]. }
    assert (X : exists w1, download x u given update w = (w1, Ok (path_of (file_request u))) /\ there w1 (path_of (file_request u)) = true).
    { unfold Remote.download, download_and_cache. cbn [downloader_of dl_local dl_ext].
      match goal with |- context [CacheFile.cache_file weigh sha dir None None ?a ?q ?f ?c w] => destruct (cache_total a (file_request u) f c w (or_introl (ex_intro _ u (conj AD eq_refl))) GD (download_right parse gunzip weigh sha dir ext_of S B WP x u SV)) as (w1 & E1 & T1) end.
      - destruct GV as [(b0 & ->)|[-> _]]; [exact I|]. cbn. intros o w0 G0. destruct (negb check); [exact G0|]. unfold andthen. cbn [downloader_of dl_out_of_date fst snd]. destruct (sv_stale (m_server x) u); exact G0.
      - intros w0 G0. cbn [downloader_of dl_download]. rewrite E. do 2 eexists. split; [reflexivity|]. rewrite there_write, String.eqb_refl. reflexivity.
      - destruct GV as [(b0 & ->)|[-> CK]]; [exact I|]. cbn. intros o w0 G0. destruct CK as [->|(old & EO)]; [cbn; eauto|]. destruct (negb check); [eauto|]. unfold andthen. cbn [downloader_of dl_out_of_date fst snd]. rewrite EO. cbn. eauto.
      - exists w1. split; [|exact T1]. change (url_request "url" u JNull (ext_of u)) with (file_request u). rewrite E1. reflexivity. }
    destruct X as (w1 & E1 & T1). rewrite E1 in G1. cbn [fst] in G1. destruct (proj2 (proj1 G1) _ T1) as (c & C). exists w1, c. split; [exact E1|]. split; [exact G1|]. split; [exact C|]. exact (read_file parse gunzip sha dir ext_of S B NM FL w1 u c AD G1 C).
  Qed.
  Lemma its_own base u c : apart_here base -> its_file base u -> file_at sha ext_of S u c -> G u = Ok c.
  Proof using SG. intros [AP _] IF (v & [->|CL] & SV); [exact (SG _ _ SV)|]. exfalso. exact (AP u v c IF (SG _ _ SV) CL). Qed.
  Lemma its_index base i : apart_here base -> index_at base i -> current base i.
  Proof using SG.
    intros AP (base' & z & t & f & C & FZ & GZ & PA & LD).
    assert (base' = base) as -> by (destruct C as [E|[BB C]]; [exact E|destruct (proj2 AP base' BB C)]).
    exists z, t, f. split; [|auto]. exact (its_own base _ z AP (or_introl eq_refl) FZ).
  Qed.
  Lemma current_one base i i' : current base i -> current base i' -> i = i'.
  Proof. intros (z & t & f & E1 & E2 & E3 & E4) (z' & t' & f' & E1' & E2' & E3' & E4'). rewrite E1 in E1'. injection E1' as <-. rewrite E2 in E2'. injection E2' as <-. rewrite E3 in E3'. injection E3' as <-. rewrite E4 in E4'. injection E4' as <-. reflexivity. Qed.
  Lemma remote_sha_total x base w : B base -> serves x -> steady_one x -> good w -> apart_here base -> summed base -> exists w1 t, remote_sha x base w = (w1, Ok t).
  Proof using WP NM FL SG.
    intros BB SV ST GD AP (b & t & Eb & Et). assert (AD : address (join_path base "index.json.sha256")) by (exists base; auto).
    destruct (download_total x (join_path base "index.json.sha256") (Some (FFlag true)) true w b SV GD (eq_trans (ST _) Eb) (or_introl (ex_intro _ true eq_refl)) AD) as (w1 & c & E & G1 & C & FA).
    apply (its_own base _ c AP (or_intror (or_introl eq_refl))) in FA. rewrite Eb in FA. injection FA as <-.
    exists w1, t. unfold Remote.remote_sha. rewrite E, andthen_ok. unfold reading. rewrite C, Et. reflexivity.
  Qed.
  Lemma create_index_total x base : B base -> serves x -> steady_one x -> apart_here base -> healthy base -> creates_total (unpacked base) (create_index x base).
  Proof using WP NM FL SG.
    intros BB SV ST AP ((i & z & t & f & Ez & Et & _) & HD) w GD. assert (AD : address (join_path base "index.json.gz")) by (exists base; auto).
    destruct (download_total x (join_path base "index.json.gz") (Some (FFlag true)) true w z SV GD (eq_trans (ST _) Ez) (or_introl (ex_intro _ true eq_refl)) AD) as (w1 & c & E & G1 & C & FA).
    apply (its_own base _ c AP (or_introl eq_refl)) in FA. rewrite Ez in FA. injection FA as <-. destruct (HD z t Ez Et) as (sm & ES).
    unfold Remote.create_index. rewrite E, andthen_ok. unfold reading. rewrite C, Et, andthen_ok, ES. do 2 eexists. split; [reflexivity|]. rewrite there_write, String.eqb_refl. reflexivity.
  Qed.
  Lemma force_well m x base : B base -> serves x -> asks_well parse gunzip sha dir ext_of S B (unpacked base) (force_of read_sha weigh sha dir None None check fetch ext_of m x base).
  Proof using WP NM.
    intros BB SV. destruct m; cbn [force_of asks_well]; [exact I|..]; intros o w0 G0; pose proof (remote_sha_good parse gunzip read_sha weigh sha dir None None check fetch ext_of S B WP NM x base w0 BB SV G0) as H.
    - unfold compare_sha. destruct (stored_sha o); [|exact G0]. destruct (remote_sha x base w0) as [w1 r]. unfold andthen. destruct r; exact H.
    - unfold force_download. destruct (remote_sha x base w0) as [w1 r]. unfold andthen. destruct r; exact H.
  Qed.
  Lemma get_index_total m x base w : B base -> serves x -> steady_one x -> good w -> apart_here base -> healthy base -> m = Plain \/ summed base ->
    exists w1, get_index m x base w = (w1, Ok (path_of (unpacked base))) /\ there w1 (path_of (unpacked base)) = true.
  Proof using WP NM FL SG.
    intros BB SV ST GD AP HL MS. unfold Remote.get_index.
    apply (cache_total _ (unpacked base)); [right; eauto|exact GD|exact (create_index_right parse gunzip digest weigh sha dir None None check fetch ext_of S B WP NM FL x base BB SV)|apply force_well; assumption|apply create_index_total; assumption|].
    destruct m; cbn [force_of asks_total]; [exact I|..]; destruct MS as [E|SU]; try discriminate E; intros o w0 G0; destruct (remote_sha_total x base w0 BB SV ST G0 AP SU) as (w1 & t & E).
    - unfold compare_sha. destruct (stored_sha o); [|eauto]. rewrite E, andthen_ok. eauto.
    - unfold force_download. rewrite E, andthen_ok. eauto.
  Qed.
  (** The index of [base] is not loaded or is the current one with some memos. *)
  Definition rfull (base : string) (d : Db.db rest) : Prop :=
    match d_index _ d with None => True | Some i => exists i0, current base i0 /\ used_index fuel i0 i end.
  Notation rst_ok := (rst_ok parse gunzip sha dir ext_of fuel S B).
  Lemma full_ok base d : rfull base d -> (forall i, current base i -> index_at base i) -> rdb_ok parse gunzip sha ext_of fuel S B base d.
  Proof. unfold rfull, rdb_ok. destruct (d_index rest d) as [i|]; [|auto]. intros (i0 & C & U) H. left. exists i0. auto. Qed.
  Lemma load_index_total x base s : B base -> serves x -> steady_one x -> rst_ok base s -> apart_here base -> healthy base ->
    exists s1 i, load_index x base s = (s1, Ok tt) /\ d_index _ (r_db s1) = Some i /\ current base i /\ rst_ok base s1.
  Proof using WP NM FL SG.
    intros BB SV ST OK AP HL. pose proof (load_index_ok parse gunzip digest read_sha weigh sha dir None None check fetch ext_of fuel S B WP NM FL x base s BB SV OK) as [OK1 LI].
    assert (X : exists s1, load_index x base s = (s1, Ok tt)).
    { unfold Remote.load_index. set (s0 := set_index s (Some [])). assert (O0 : rst_ok base s0) by (split; [apply OK|right; reflexivity]).
      assert (Y : exists s1, index_path x base s0 = (s1, Ok (path_of (unpacked base))) /\ there (r_world s1) (path_of (unpacked base)) = true /\ good (r_world s1)).
      { unfold Remote.index_path. change (index_file sha dir base) with (path_of (unpacked base)). destruct (d_path rest (r_db s0)); cbn [andb]; [destruct (there (r_world s0) (path_of (unpacked base))) eqn:TH; [exists s0; split; [reflexivity|]; split; [exact TH|apply O0]|]|];
        (pose proof (got_ok parse gunzip digest read_sha weigh sha dir None None check fetch ext_of fuel S B WP NM FL Plain x base s0 BB SV O0) as ([G1 _] & _);
         unfold Remote.got_index in *; destruct (get_index_total Plain x base (r_world s0) BB SV ST (proj1 O0) AP HL (or_introl eq_refl)) as (w1 & E1 & T1); rewrite E1 in *; eexists; split; [reflexivity|]; split; [exact T1|exact G1]). }
      destruct Y as (s1 & -> & T1 & G1). cbn [bind]. destruct (proj2 (proj1 G1) _ T1) as (t & C). unfold reading. rewrite C. cbn [snd bind].
      destruct (read_unpacked parse gunzip sha dir ext_of S B NM FL _ base t BB G1 C) as (base' & z & CB & Z & GZ).
      assert (base' = base) as -> by (destruct CB as [E|[B' CL]]; [exact E|destruct (proj2 AP base' B' CL)]).
      apply (its_own base _ z AP (or_introl eq_refl)) in Z. destruct HL as [(i & z' & t' & f & Ez & Et & Ef & Ei) _]. rewrite Z in Ez. injection Ez as <-. rewrite GZ in Et. injection Et as <-. rewrite Ef. cbn [bind]. rewrite Ei. eauto. }
    destruct X as (s1 & E). rewrite E in *. cbn [fst snd] in *. destruct (LI tt eq_refl) as (i & DI & IA). exists s1, i. split; [reflexivity|]. split; [exact DI|]. split; [exact (its_index base i AP IA)|exact OK1].
  Qed.
  Lemma index_find_total base s di do gi go m i0 : good (r_world s) -> d_index _ (r_db s) <> None -> rfull base (r_db s) -> current base i0 ->
    NoDup (akeys di) -> NoDup (akeys do) -> from_dict di = Ok gi -> from_dict do = Ok go ->
    (forall n e, In (n, e) i0 -> answers py_str key_order fuel e gi go m \/ does_not_answer py_str key_order fuel e gi go m) ->
    exists s1 y, Remote.index_find py_str key_order fuel s (gd gi) (gd go) m = (s1, Ok y) /\ r_world s1 = r_world s /\ rfull base (r_db s1) /\ d_index _ (r_db s1) <> None /\
      match first i0 gi go m with Ok (Some e0) => exists e, y = Some e /\ used_entry fuel e0 e | _ => y = None end.
  Proof.
    intros GD NN RF CU N N' GI GO CO.
    pose proof (idempotent di gi N GI) as SI. pose proof (idempotent do go N' GO) as SO.
    destruct (from_dict (gd gi)) as [g1|x1|] eqn:E1; try contradiction SI. destruct (from_dict (gd go)) as [g2|x2|] eqn:E2; try contradiction SO. cbn in SI, SO.
    unfold rfull in RF. unfold Remote.index_find. destruct (d_index rest (r_db s)) as [i|] eqn:DI; [|congruence]. destruct RF as (i1 & C1 & U). rewrite <- (current_one base _ _ CU C1) in U.
    pose proof (find_used py_str key_order fuel i0 i (gd gi) (gd go) m U) as F. rewrite E1, E2 in F. cbn [bind] in F. rewrite (first_same py_str key_order fuel i0 g1 gi g2 go m SI SO) in F. destruct F as [F V].
    destruct (first_ok py_str key_order fuel i0 gi go m CO) as (o & FO). rewrite FO in *.
    destruct (find py_str key_order fuel i (gd gi) (gd go) m) as [i' y]. cbn [fst snd] in *.
    assert (EY : exists z, y = Ok z). { destruct o as [e|]; cbn in F; destruct y as [[?|]|?|]; try discriminate F; try contradiction F; eauto. } destruct EY as (z & ->).
    do 2 eexists. split; [reflexivity|]. split; [reflexivity|]. split; [exists i0; split; [exact CU|exact (V z eq_refl)]|]. split; [discriminate|].
    destruct o as [e0|]; cbn in F; destruct z as [e|]; try discriminate F; try contradiction F; eauto.
  Qed.
  Hypothesis GS : forall u b, G u = Ok b -> S u b.
  Lemma current_at base i : current base i -> index_at base i.
  Proof using GS. intros (z & t & f & E & R). exists base, z, t, f. split; [auto|]. split; [exists (join_path base "index.json.gz"); auto|exact R]. Qed.
  Lemma find_entry_total x base s di do gi go m i0 : B base -> serves x -> steady_one x -> rst_ok base s -> rfull base (r_db s) -> apart_here base -> healthy base -> current base i0 ->
    NoDup (akeys di) -> NoDup (akeys do) -> from_dict di = Ok gi -> from_dict do = Ok go ->
    comparable_at parse gunzip sha ext_of py_str key_order fuel S B base gi go m ->
    rfull base (r_db (fst (find_entry x base s (gd gi) (gd go) m))) /\
    match first i0 gi go (method_alias m) with
    | Ok (Some e0) => exists e, snd (find_entry x base s (gd gi) (gd go) m) = Ok (Some e) /\ used_entry fuel e0 e
    | _ => summed base -> snd (find_entry x base s (gd gi) (gd go) m) = Ok None
    end.
  Proof using WP NM FL SG GS.
    intros BB SV ST OK RF AP HL CU N N' GI GO CO. unfold Remote.find_entry. set (m' := method_alias m).
    assert (CO0 : forall n e, In (n, e) i0 -> answers py_str key_order fuel e gi go m' \/ does_not_answer py_str key_order fuel e gi go m') by (intros n e; apply CO, current_at, CU).
    assert (X : exists s1, get_or_load x base s = (s1, Ok tt) /\ rst_ok base s1 /\ rfull base (r_db s1) /\ d_index _ (r_db s1) <> None).
    { unfold Remote.get_or_load. destruct (d_index rest (r_db s)) eqn:DI; [exists s; rewrite DI; split; [reflexivity|]; split; [exact OK|]; split; [exact RF|discriminate]|].
      destruct (load_index_total x base s BB SV ST OK AP HL) as (s1 & i & E & D & C & O). exists s1. split; [exact E|]. split; [exact O|]. unfold rfull. rewrite D. split; [exists i; split; [exact C|apply used_index_refl]|discriminate]. }
    destruct X as (s1 & -> & OK1 & RF1 & NN1).
    destruct (index_find_total base s1 di do gi go m' i0 (proj1 OK1) NN1 RF1 CU N N' GI GO CO0) as (s2 & y & -> & W2 & RF2 & NN2 & Y).
    assert (OK2 : rst_ok base s2). { split; [rewrite W2; apply OK1|]. apply full_ok; [exact RF2|apply current_at]. }
    destruct (first_ok py_str key_order fuel i0 gi go m' CO0) as (o & FO). rewrite FO in *. destruct o as [e0|].
    - destruct Y as (e & -> & U). cbn [fst snd]. split; [exact RF2|]. eauto.
    - subst y. destruct (d_checked rest (r_db s2)); cbn [negb]; [split; [exact RF2|reflexivity]|]. unfold reload.
      destruct (got_ok parse gunzip digest read_sha weigh sha dir None None check fetch ext_of fuel S B WP NM FL Compare x base s2 BB SV OK2) as (OK3 & D3 & _).
      assert (X : summed base -> exists s3 p, got_index Compare x base s2 = (s3, Ok p)).
      { intros SU. unfold Remote.got_index. destruct (get_index_total Compare x base (r_world s2) BB SV ST (proj1 OK2) AP HL (or_intror SU)) as (w3 & E & _). rewrite E. eauto. }
      destruct (got_index Compare x base s2) as [s3 r3]. cbn [fst] in OK3, D3.
      assert (RF3 : rfull base (r_db s3)) by (unfold rfull; rewrite D3; exact RF2).
      destruct r3 as [p|ex|]; [|split; [exact RF3|intros SU; destruct (X SU) as (s4 & p & E); discriminate E]..].
      destruct (load_index_total x base s3 BB SV ST OK3 AP HL) as (s4 & i & -> & D4 & C4 & OK4).
      destruct (index_find_total base s4 di do gi go m' i0) as (s5 & y & -> & W5 & RF5 & NN5 & Y); try assumption; [apply OK4|rewrite D4; discriminate|unfold rfull; rewrite D4; exists i; split; [exact C4|apply used_index_refl]|].
      rewrite FO in Y. subst y. cbn [fst snd]. split; [exact RF5|reflexivity].
  Qed.
  Lemma load_weights_total x base i n (e0 e : entry rest) p b z sh w : B base -> serves x -> steady_one x -> good w -> apart_here base -> askable parse gunzip G check x base ->
    current base i -> In (n, e0) i -> used_entry fuel e0 e -> matrix_path e0 = Ok p -> G (join_path base p) = Ok b -> load_npz b = Ok z -> alookup "shape" (gd (e_output e0)) = Some sh ->
    exists w1, load_weights x base e w = (w1, Ok (z, sh)).
  Proof using WP NM FL SG GS.
    intros BB SV ST GD AP AK CU IN (_ & (_ & GE & _) & NA & RA) MP EB LZ SH. unfold Remote.load_weights.
    assert (MP' : matrix_path e = Ok p) by (unfold matrix_path in *; rewrite NA, RA; exact MP). rewrite MP'.
    assert (IT : its_file base (join_path base p)) by (right; right; exists i, n, e0, p; auto).
    assert (AD : address (join_path base p)). { exists base. split; [exact BB|]. right. right. exists i, n, e0, p. split; [apply current_at, CU|auto]. }
    destruct (download_total x (join_path base p) None false w b SV GD (eq_trans (ST _) EB)) as (w1 & c & E & G1 & C & FA); [|exact AD|].
    { right. split; [reflexivity|]. destruct AK as [->|AK]; [left; reflexivity|right; apply AK, IT]. }
    apply (its_own base _ c AP IT) in FA. rewrite EB in FA. injection FA as <-. rewrite E, andthen_ok. unfold reading. rewrite C, LZ, andthen_ok. unfold dget. rewrite GE, SH. cbn. eauto.
  Qed.

  (** ** Histories *)
  Variables (zero : A) (add mul : A -> A -> A).
  Variable memory_of : rest -> Z.
  Variable float_text : f64 -> string.
  Notation key_of := (key_of sha float_text).
  Notation W := (weights A).
  Notation rsys := (@rsys A rest blob).
  Notation rop := (@rop A blob).
  Notation lookup := (lookup parse gunzip digest read_sha weigh sha dir None None check fetch ext_of py_str key_order fuel).
  Notation inventory_of := (inventory_of parse gunzip digest read_sha load_npz weigh sha dir None None check fetch ext_of py_str key_order fuel).
  Notation db_find := (db_find parse gunzip digest read_sha load_npz weigh sha dir None None check fetch ext_of py_str key_order fuel memory_of float_text).
  Notation rsys_regrid := (rsys_regrid parse gunzip digest read_sha load_npz weigh sha dir None None check fetch ext_of py_str key_order fuel zero add mul memory_of float_text).
  Notation rstep := (rstep parse gunzip digest read_sha load_npz weigh sha dir None None check fetch ext_of py_str key_order fuel zero add mul memory_of float_text).
  Notation rafter := (rafter parse gunzip digest read_sha load_npz weigh sha dir None None check fetch ext_of py_str key_order fuel zero add mul memory_of float_text).
  Notation sound_remote := (@sound_remote A rest blob parse gunzip sha ext_of py_str key_order fuel S B).
  Notation rsys_inv := (rsys_inv parse gunzip load_npz sha dir ext_of py_str key_order fuel S B float_text).
  Notation served_by := (@served_by A blob S B).
  Notation weights_now := (weights_now parse gunzip load_npz py_str key_order fuel G).
  Notation nothing_now := (nothing_now parse gunzip py_str key_order fuel G).
  Definition steady_op (o : rop) : Prop := match o with RCall x _ _ _ _ _ => steady_one x | _ => True end.
  Implicit Types (h : list rop) (t : rsys).

  Notation rdb_ok := (rdb_ok parse gunzip sha ext_of fuel S B).
  Notation comparable_at := (comparable_at (rest := rest) parse gunzip sha ext_of py_str key_order fuel S B).
  Lemma find_full base x base' di do m t : good (z_world t) -> rdb_ok base' (db_of base' t) -> B base' -> serves x ->
    plain_dict di -> plain_dict do -> (forall gi go, IndexSpec.request di do gi go -> comparable_at base' gi go m) -> steady_one x -> apart_here base -> healthy base ->
    rfull base (db_of base t) -> rfull base (db_of base (fst (db_find x base' di do m t))).
  Proof using WP NM FL SG GS.
    intros HG HD BB SV (N & _) (N' & _) CO ST AP HL RF.
    unfold Remote.db_find. destruct (from_dict di) as [gi|y|] eqn:GI; cbn [bind]; [|exact RF..]. destruct (from_dict do) as [go|y|] eqn:GO; cbn [bind]; [|exact RF..].
    set (s0 := mkR (z_world t) (db_of base' t)). destruct (MemCache.get key_of (System.est_size memory_of) System.size_of (inventory_of x base' s0 (gi, go, m)) (gi, go, m) (z_mem t)) as [[mem calls] y].
    destruct calls as [|c0 calls]; [exact RF|]. cbn [fst]. unfold db_of in *. cbn [z_dbs].
    destruct (string_dec base base') as [<-|NE]; [rewrite alookup_aset_eq|rewrite alookup_aset_neq by exact (not_eq_sym NE); exact RF].
    destruct HL as [(i0 & CU) HL'].
    refine (proj1 (find_entry_total x base s0 di do gi go m i0 BB SV ST (conj HG HD) RF AP (conj (ex_intro _ i0 CU) HL') CU N N' GI GO (CO gi go (conj GI GO)))).
  Qed.
  Lemma rstep_full base h t o : rsys_inv h t -> served_by o -> sound_remote o -> steady_op o -> apart_here base -> healthy base ->
    rfull base (db_of base t) -> rfull base (db_of base (rstep t o)).
  Proof using WP NM FL SG GS.
    intros HS SB SO ST AP HL RF. destruct o as [x base' values di do m|c| |c|e latest|p]; cbn [Remote.rstep]; try exact RF; [|exact I].
    unfold Remote.rsys_regrid. destruct SB as [SV BB], SO as (P1 & P2 & CO), HS as (_ & HG & HD & _).
    pose proof (find_full base x base' di do m t HG (HD base') BB SV P1 P2 CO ST AP HL RF) as Q. destruct (db_find x base' di do m t) as [t' found]. exact Q.
  Qed.
  Lemma after_full base c h : Forall served_by h -> Forall sound_remote h -> Forall steady_op h -> apart_here base -> healthy base -> rfull base (db_of base (rafter c h)).
  Proof using WP NM FL SG GS.
    intros F1 F2 F3 AP HL. induction h as [|o h IH] using rev_ind; [exact I|]. apply Forall_app in F1, F2, F3. destruct F1 as [A1 B1], F2 as [A2 B2], F3 as [A3 B3]. inversion B1; inversion B2; inversion B3; subst.
    unfold Remote.rafter. rewrite fold_left_app. cbn [fold_left]. fold (rafter c h). apply (rstep_full base h); try assumption; [|apply IH; assumption].
    exact (after_any parse gunzip digest read_sha load_npz weigh sha dir None None check fetch ext_of py_str key_order fuel S B WP NM FL zero add mul memory_of float_text c h A1 A2).
  Qed.
  Lemma accepted_ginv c h : accepted (fun pre => z_mem (rafter c pre)) c h -> GInv W (z_mem (rafter c h)).
  Proof.
    assert (X : forall c, snd (@MemCache.init W c) = Ok tt -> GInv W (fst (@MemCache.init W c))).
    { clear. intros c C. unfold init in *. destruct (MemCache.update c fresh) as [s r] eqn:E. cbn in *. subst r. exact (proj1 (MemCacheProofs2.update_ok W c fresh s (fresh_ginv W) E)). }
    intros (C0 & C1 & C2). induction h as [|o h IH] using rev_ind; [exact (X c C0)|].
    assert (Y : GInv W (z_mem (rafter c h))). { apply IH; [intros pre c' post E; apply (C1 pre c' (post ++ [o])); rewrite E, <- app_assoc; reflexivity|intros c' I; apply C2, in_or_app; left; exact I]. }
    unfold Remote.rafter. rewrite fold_left_app. cbn [fold_left]. fold (rafter c h). destruct o as [x base values di do m|c'| |c'|e latest|p]; cbn [Remote.rstep]; try exact Y.
    - unfold Remote.rsys_regrid, Remote.db_find. destruct (from_dict di) as [gi|y|]; [|exact Y..]. cbn [bind]. destruct (from_dict do) as [go|y|]; [|exact Y..]. cbn [bind].
      destruct (MemCache.get key_of (System.est_size memory_of) System.size_of _ (gi, go, m) (z_mem (rafter c h))) as [[mem calls] y] eqn:GE.
      pose proof (proj1 (get_ginv mreq (entry rest) W key_of (System.est_size memory_of) System.size_of size_nonneg _ _ _ _ _ _ Y GE)) as R. destruct calls; exact R.
    - specialize (C1 h c' [] eq_refl). cbn [z_mem]. destruct (MemCache.update c' (z_mem (rafter c h))) as [s r] eqn:E. cbn in C1. subst r. exact (proj1 (MemCacheProofs2.update_ok W c' _ s Y E)).
    - exact (step_ginv mreq (entry rest) W key_of (System.est_size memory_of) System.size_of size_nonneg (z_mem (rafter c h)) OpClear Y I).
    - apply X, C2, in_or_app. right. left. reflexivity.
  Qed.

  Lemma find_total t x base di do m t' r gi go : good (z_world t) -> rdb_ok base (db_of base t) -> rfull base (db_of base t) -> serves x -> B base -> plain_dict di -> plain_dict do -> (forall gi go, IndexSpec.request di do gi go -> comparable_at base gi go m) -> steady_one x ->
    apart_here base -> healthy base -> IndexSpec.request di do gi go -> db_find x base di do m t = (t', r) ->
    (forall z sh, weights_now base gi go m z sh -> askable parse gunzip G check x base -> GInv W (z_mem t) ->
       (exists w : weights A, r = Ok (Some w)) \/ (r = Raise WeightsTooLarge /\ too_large_now parse gunzip py_str key_order fuel G memory_of base gi go m (z_mem t))) /\
    (nothing_now base gi go m -> summed base -> r = Ok None \/ exists w : weights A, r = Ok (Some w)).
  Proof using WP NM FL SG GS.
    intros HG HD RF SV BB (N & _) (N' & _) CO ST AP HL [GI GO] H. unfold Remote.db_find in H. rewrite GI, GO in H. cbn [bind] in H. specialize (CO gi go (conj GI GO)).
    set (s0 := mkR (z_world t) (db_of base t)) in *.
    destruct (MemCache.get key_of (System.est_size memory_of) System.size_of (inventory_of x base s0 (gi, go, m)) (gi, go, m) (z_mem t)) as [[mem calls] y] eqn:GE.
    assert (y = r) as -> by (destruct calls; injection H as _ E; exact E). clear H.
    pose proof (conj HG HD : rst_ok base s0) as OK.
    destruct (find_entry_ok parse gunzip digest read_sha weigh sha dir None None check fetch ext_of py_str key_order fuel S B WP NM FL x base s0 di do gi go m BB SV OK N N' GI GO CO) as [OK1 _].
    split.
    - intros z sh (i & pre & n & e & post & p & b & CU & -> & Y & NN & MP & EB & LZ & SH) AK GI0.
      assert (FF : first (pre ++ (n, e) :: post) gi go (method_alias m) = Ok (Some e)). { apply first_some. exists pre, n, post. auto. }
      destruct (find_entry_total x base s0 di do gi go m _ BB SV ST OK RF AP HL CU N N' GI GO CO) as [_ F]. rewrite FF in F. destruct F as (e' & FE & U).
      assert (CE : MemCache.create (inventory_of x base s0 (gi, go, m)) (gi, go, m) = Ok (Some (z, sh))).
      { unfold MemCache.create, Remote.inventory_of, create_from_entry. cbn [i_find i_load]. unfold Remote.lookup. rewrite FE. cbn [bind].
        assert (IN : In (n, e) (pre ++ (n, e) :: post)) by (apply in_or_app; right; left; reflexivity).
        destruct (load_weights_total x base _ n e e' p b z sh (r_world (fst (find_entry x base s0 (gd gi) (gd go) m))) BB SV ST (proj1 OK1) AP AK CU IN U MP EB LZ SH) as (w1 & E).
        rewrite E. reflexivity. }
      destruct (get_failures mreq (entry rest) W key_of (System.est_size memory_of) System.size_of size_nonneg _ _ _ _ _ _ GI0 GE) as [F1 F2].
      destruct r as [[w|]|y|].
      + left. eauto.
      + exfalso. pose proof (get_kept mreq (entry rest) W key_of (System.est_size memory_of) System.size_of size_nonneg (fun _ _ => True) _ _ _ _ _ _ (fun _ _ => I) (proj1 GI0) (fun _ _ _ => I) GE) as (_ & _ & K).
        rewrite (K eq_refl) in CE. discriminate CE.
      + destruct (F1 y eq_refl) as [E|(-> & _ & STR & ent & mx & FN & MX & LT)]; [rewrite E in CE; discriminate CE|]. right. split; [reflexivity|]. split; [exact STR|].
        exists (pre ++ (n, e) :: post), n, e, mx. split; [exact CU|]. split; [apply in_or_app; right; left; reflexivity|]. split; [exact Y|]. split; [exact MX|].
        unfold Remote.inventory_of in FN. cbn [i_find] in FN. unfold Remote.lookup in FN. rewrite FE in FN. injection FN as <-. destruct U as (_ & _ & _ & RA). unfold System.est_size in LT. rewrite RA in LT. exact LT.
      + rewrite (F2 eq_refl) in CE. discriminate CE.
    - intros (i & CU & NN) SU. destruct (find_entry_total x base s0 di do gi go m _ BB SV ST OK RF AP HL CU N N' GI GO CO) as [_ F].
      assert (FF : first i gi go (method_alias m) = Ok None) by (apply first_none; exact NN). rewrite FF in F. specialize (F SU).
      refine (get_none mreq (entry rest) W key_of (System.est_size memory_of) System.size_of (inventory_of x base s0 (gi, go, m)) (gi, go, m) _ _ _ _ F GE).
  Qed.
  Lemma rfind_total h t x base values di do m t' r gi go : rsys_inv h t -> rfull base (db_of base t) -> served_by (RCall x base values di do m) -> sound_remote (RCall x base values di do m) -> steady_one x ->
    apart_here base -> healthy base -> IndexSpec.request di do gi go -> db_find x base di do m t = (t', r) ->
    (forall z sh, weights_now base gi go m z sh -> askable parse gunzip G check x base -> GInv W (z_mem t) ->
       (exists w : weights A, r = Ok (Some w)) \/ (r = Raise WeightsTooLarge /\ too_large_now parse gunzip py_str key_order fuel G memory_of base gi go m (z_mem t))) /\
    (nothing_now base gi go m -> summed base -> r = Ok None \/ exists w : weights A, r = Ok (Some w)).
  Proof using WP NM FL SG GS. intros (_ & HG & HD & _) RF [SV BB] (P1 & P2 & CO). exact (find_total t x base di do m t' r gi go HG (HD base) RF SV BB P1 P2 CO). Qed.
End Total.
