(** Lemmas about remote inventories: stale matrices are fetched again if the settings say so. *)
From Verif Require Import PyBase ListLemmas PyStr Float64 GridSpec GridVocab GridProofs GridProofs3 Index IndexSpec IndexProofs IndexProofs2
  Db MemCache MemCacheProofs MemCacheProofs2 Inventory Regrid System SystemSpec SystemProofs
  Disk DiskSpec DiskProofs DiskProofs2 Props_Disk Key KeySpec KeyProofs Props_Key CacheFile Props_CacheFile Remote RemoteSpec RemoteProofs RemoteProofs2.
Set Default Proof Using "Type".
Local Open Scope string_scope.
Local Open Scope list_scope.
Local Open Scope Z_scope.

Section Fresh.
  Context {A rest blob : Type}.
  Variable parse : blob -> result (file rest).
  Variable gunzip : blob -> result blob.
  Variable digest : blob -> result string.
  Variable read_sha : blob -> result string.
  Variable load_npz : blob -> result (csr A).
  Variable weigh : blob -> node.
  Variable sha : string -> string.
  Variable dir : string.
  Variables limit usage : option Z.
  Variable ext_of : string -> string.
  Variables (py_str : val -> string) (key_order : list string) (fuel : nat).
  Variable S : string -> blob -> Prop.
  Variable B : string -> Prop.
  Hypothesis WP : forall c, 0 <= n_size (weigh c).
  Hypothesis NM : names parse gunzip sha ext_of S B.
  Hypothesis FL : fixed_length sha.
  Notation world := (@world blob).
  Notation meets := (@meets blob).
  Notation rst := (@rst rest blob).
  Notation path_of := (path_of sha dir).
  Notation file_request := (file_request ext_of).
  Notation address := (address parse gunzip sha ext_of S B).
  Notation good := (good parse gunzip sha dir ext_of S B).
  Notation serves := (serves S).
  Notation rst_ok := (rst_ok parse gunzip sha dir ext_of fuel S B).
  Notation download := (download weigh sha dir limit usage true true ext_of).
  Notation load_weights := (load_weights load_npz weigh sha dir limit usage true true ext_of).
  Notation lookup := (lookup parse gunzip digest read_sha weigh sha dir limit usage true true ext_of py_str key_order fuel).
  Notation inventory_of := (inventory_of parse gunzip digest read_sha load_npz weigh sha dir limit usage true true ext_of py_str key_order fuel).
  Notation comparable_at := (comparable_at parse gunzip sha ext_of py_str key_order fuel S B).
  Implicit Types (x : meets) (w : world) (s : rst) (gi go : gspec).

  Lemma created_content x u w w1 p b : creates dir (file_request u) (path_of (file_request u)) (fun target _ => dl_download (downloader_of weigh ext_of x u) target) w (w1, Ok p) -> tidy dir (w_disk w) ->
    content w1 (path_of (file_request u)) = Some b -> sv_get (m_server x) u = Ok b.
  Proof using WP.
    intros CR T CT. unfold creates in CR. cbn [downloader_of dl_download] in CR. destruct (sv_get (m_server x) u) as [b0|e|]; [|discriminate CR..].
    rewrite content_write, String.eqb_refl in CR. destruct CR as (w' & E & _ & H & _); [apply write_tidy; [exact WP|exact T]|]. injection E as E _. subst w'. rewrite H in CT; [injection CT as ->; reflexivity|].
    unfold content in CT. destruct (there w1 (path_of (file_request u))); [reflexivity|discriminate CT].
  Qed.
  Lemma download_fresh x u w w1 p b : address u -> good w -> download x u None false w = (w1, Ok p) -> content w1 (path_of (file_request u)) = Some b ->
    sv_get (m_server x) u = Ok b \/ (content w (path_of (file_request u)) = Some b /\ (sv_stale (m_server x) u = Ok false \/ locked (a_delete (m_around x u)) (path_of (file_request u)) = true)).
  Proof using WP NM.
    intros AD G D CT. unfold Remote.download, download_and_cache in D. cbn [downloader_of dl_local dl_ext] in D. change (url_request "url" u JNull (ext_of u)) with (file_request u) in D.
    set (q := file_request u) in *. assert (O : our_request parse gunzip sha ext_of S B q) by (left; exists u; auto).
    match type of D with context [CacheFile.cache_file weigh sha dir limit usage ?a q ?f ?c w] => set (a0 := a) in *; set (f0 := f) in *; set (c0 := c) in * end.
    assert (E : exists p', cache_file weigh sha dir limit usage a0 q f0 c0 w = (w1, Ok p')).
    { revert D. unfold andthen. destruct (cache_file weigh sha dir limit usage a0 q f0 c0 w) as [w2 [p2|e|]]; cbn; intros D; [|discriminate D..]. injection D as -> _. eauto. } destruct E as (p' & E). clear D.
    pose proof (ours_fits parse gunzip sha dir ext_of S B NM q w O (proj1 (proj1 G))) as F.
    pose proof (C44_lookup sha dir a0 q w F) as L. assert (T1 : tidy dir (w_disk (seen sha dir a0 q w))) by (destruct L as (_ & _ & _ & T1 & _); exact T1).
    destruct (there w (path_of q)) eqn:TH.
    - assert (SY : says f0 q (path_of q) (seen sha dir a0 q w) = (seen sha dir a0 q w, sv_stale (m_server x) u)).
      { unfold says, f0, out_of_date. cbn [negb downloader_of dl_out_of_date]. unfold andthen. cbn [fst snd]. destruct (sv_stale (m_server x) u) as [[|]|e|]; reflexivity. }
      assert (SP : spares dir (path_of q) (seen sha dir a0 q w) (seen sha dir a0 q w)) by (split; [exact T1|auto]).
      destruct (sv_stale (m_server x) u) as [[|]|e|] eqn:OLD.
      + destruct (C44_forced weigh sha dir limit usage WP a0 q f0 c0 w _ F TH SY SP) as (w3 & w4 & _ & _ & _ & L4 & F1 & F2). destruct (locked (a_delete a0) (path_of q)) eqn:LK.
        * destruct (F2 eq_refl) as [E2 C2]. rewrite E in E2. injection E2 as -> _. right. split; [congruence|]. right. reflexivity.
        * destruct (F1 eq_refl) as (_ & _ & CR). rewrite E in CR. left. apply (created_content x u w4 w1 p' b CR); [|exact CT]. destruct L4 as (_ & _ & _ & T4 & _). exact T4.
      + destruct (C44_hit weigh sha dir limit usage a0 q f0 c0 w _ F TH SY SP) as [E2 C2]. rewrite E in E2. injection E2 as -> _. right. split; [congruence|]. left. reflexivity.
      + rewrite (C44_raise weigh sha dir limit usage a0 q f0 c0 w _ e F TH SY) in E. discriminate E.
      + exfalso. pose proof (decide_ok sha dir a0 q f0 w F TH) as DO. rewrite SY in DO. destruct (seen_ok sha dir a0 q w F) as [E1 _]. unfold cache_file in E. fold (path_of q) in E. rewrite E1, andthen_ok, DO in E. discriminate E.
    - pose proof (C44_miss weigh sha dir limit usage WP a0 q f0 c0 w F TH) as CR. rewrite E in CR. left. exact (created_content x u _ w1 p' b CR T1 CT).
  Qed.

  Notation weights_fresh := (weights_fresh parse gunzip load_npz sha ext_of py_str key_order fuel S B).
  Notation tells := (tells sha ext_of S dir).

  Lemma lookup_fresh x base s gi go m di do y : B base -> serves x -> rst_ok base s -> IndexSpec.request di do gi go -> NoDup (akeys di) -> NoDup (akeys do) -> comparable_at base gi go m -> tells x ->
    MemCache.create (inventory_of x base s (gi, go, m)) (gi, go, m) = Ok (Some y) -> weights_fresh x base gi go m (fst y) (snd y).
  Proof using WP NM FL.
    intros BB SV OK [GI GO] N N' CO TL. pose proof (find_entry_ok parse gunzip digest read_sha weigh sha dir limit usage true true ext_of py_str key_order fuel S B WP NM FL x base s di do gi go m BB SV OK N N' GI GO CO) as [OK1 F1].
    change (find_entry parse gunzip digest read_sha weigh sha dir limit usage true true ext_of py_str key_order fuel x base s (gd gi) (gd go) m) with (lookup x base s (gi, go, m)) in OK1, F1.
    unfold MemCache.create, Remote.inventory_of. cbn [i_find i_load]. destruct (lookup x base s (gi, go, m)) as [s1 r]. cbn [fst snd] in *. destruct r as [[e|]|y0|]; cbn [bind create_from_entry]; try discriminate.
    destruct (F1 e eq_refl) as (i & e0 & IA & FI & (_ & (_ & GE & _) & NA & RA)). apply first_some in FI. destruct FI as (pre & n & post & -> & Y & NN).
    unfold create_from_entry. cbn [i_load]. unfold Remote.load_weights. assert (EP : matrix_path e = matrix_path e0) by (unfold matrix_path; rewrite NA, RA; reflexivity). rewrite EP. destruct (matrix_path e0) as [p|y0|] eqn:MP; [|discriminate..].
    assert (AD : address (join_path base p)). { exists base. split; [exact BB|]. right. right. exists (pre ++ (n, e0) :: post), n, e0, p. split; [exact IA|]. split; [apply in_or_app; right; left; reflexivity|auto]. }
    pose proof (proj2 (download_good parse gunzip weigh sha dir limit usage true true ext_of S B WP NM x (join_path base p) None false (r_world s1) AD SV (proj1 OK1) ltac:(discriminate))) as P1.
    pose proof (fun w2 q b => download_fresh x (join_path base p) (r_world s1) w2 q b AD (proj1 OK1)) as DF.
    destruct (download x (join_path base p) None false (r_world s1)) as [w2 r2]. cbn [snd] in P1. unfold andthen. cbn [fst snd]. destruct r2 as [q|y0|]; [|discriminate..]. specialize (P1 q eq_refl). subst q.
    unfold reading. destruct (content w2 (path_of (file_request (join_path base p)))) as [b|] eqn:CT; cbn [fst snd]; [|discriminate]. destruct (load_npz b) as [z|y0|] eqn:LZ; try discriminate. cbn [fst snd].
    unfold dget. rewrite GE. destruct (alookup "shape" (gd (e_output e0))) as [sh|] eqn:SH; [|discriminate]. cbn. intros E. injection E as <-. cbn [fst snd].
    exists (pre ++ (n, e0) :: post), pre, n, e0, post, p, b. split; [exact IA|]. split; [reflexivity|]. split; [exact Y|]. split; [exact NN|]. split; [exact MP|]. split; [|auto].
    destruct (TL (join_path base p)) as [TL1 TL2]. destruct (DF w2 _ b eq_refl CT) as [H|[C0 [OL|LK]]]; [exact H| |].
    - destruct (TL1 b) as [H|H]; [|exact H|rewrite OL in H; discriminate H]. exact (read_file parse gunzip sha dir ext_of S B NM FL _ _ b AD (proj1 OK1) C0).
    - rewrite TL2 in LK. discriminate LK.
  Qed.
End Fresh.
