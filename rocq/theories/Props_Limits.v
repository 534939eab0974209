(** C131: remote inventories and the limits of the disk cache. *)
From Verif Require Import PyBase ListLemmas PyStr Float64 GridSpec GridVocab GridProofs Index IndexSpec IndexProofs IndexProofs2
  Db MemCache MemCacheProofs MemCacheProofs2 Inventory Regrid RegridSpec RegridProofs Props_Regrid System SystemSpec SystemProofs Props_System
  Disk DiskSpec DiskProofs DiskProofs2 Props_Disk Key KeySpec KeyProofs Props_Key CacheFile Props_CacheFile Remote RemoteSpec RemoteProofs RemoteProofs2 RemoteProofs3 RemoteProofs4 RemoteLimits RemoteTight Props_Remote.
Set Default Proof Using "Type".
Local Open Scope string_scope.
Local Open Scope list_scope.
Local Open Scope Z_scope.

Section Limits.
  Context {A rest blob : Type}.
  Variables (zero : A) (add mul : A -> A -> A).
  Variable parse : blob -> result (file rest).
  Variable gunzip : blob -> result blob.
  Variable digest : blob -> result string.
  Variable read_sha : blob -> result string.
  Variable load_npz : blob -> result (csr A).
  Variable weigh : blob -> node.
  Variable sha : string -> string.
  Variable dir : string.
  Variables limit usage : option Z.
  Variables check fetch : bool.
  Variable ext_of : string -> string.
  Variables (py_str : val -> string) (key_order : list string) (fuel : nat).
  Variable memory_of : rest -> Z.
  Variable float_text : f64 -> string.
  Notation rop := (@rop A blob).
  Notation regrid_call := (rsys_regrid parse gunzip digest read_sha load_npz weigh sha dir limit usage check fetch ext_of py_str key_order fuel zero add mul memory_of float_text).
  Notation rafter := (Remote.rafter parse gunzip digest read_sha load_npz weigh sha dir limit usage check fetch ext_of py_str key_order fuel zero add mul memory_of float_text).
  Notation weights_from h := (weights_from parse gunzip load_npz sha ext_of py_str key_order fuel (served h) (asked h)).
  Notation names h := (names parse gunzip sha ext_of (served h) (asked h)).
  Notation sound_remote h := (sound_remote parse gunzip sha ext_of py_str key_order fuel (served h) (asked h)).
  Notation proper_matrices h := (proper_matrices load_npz (served h)).
  Notation apart := (@apart A rest blob parse gunzip sha ext_of).
  Notation weights_now := (weights_now parse gunzip load_npz py_str key_order fuel).
  Notation nothing_now := (nothing_now parse gunzip py_str key_order fuel).
  Implicit Types (h H : list rop) (values r : array A).

  Variable G : string -> result blob.

  (** Whatever the limits on the cache directory: if an entry of the inventory answers and the sizes
      agree, the call is answered, or a file of the cache was deleted before it was opened, or an
      earlier call of this process left an empty index after such a failure. *)
  Theorem C131_partial c h0 h x base values di do m gi go z sh n :
    (forall b, 0 <= n_size (weigh b)) -> fixed_length sha -> float_texts float_text ->
    forall H, H = h0 ++ h ++ [RCall x base values di do m] -> names H -> proper_matrices H -> Forall (sound_remote H) H -> forgotten_remote h0 ->
    steady G H -> apart G H base -> healthy parse gunzip digest G base -> summed read_sha G base -> askable parse gunzip G check x base -> accepted (fun pre => z_mem (rafter c pre)) c (h0 ++ h) ->
    IndexSpec.request di do gi go -> asked_only_remote base h gi go m ->
    weights_now G base gi go m z sh -> is_shape sh n -> prod (shape values) = n_cols z -> prod n = n_rows z ->
    (exists r, snd (regrid_call x base values di do m (rafter c (h0 ++ h))) = Ok (r, do) /\ applies zero add mul z n values r) \/
    (snd (regrid_call x base values di do m (rafter c (h0 ++ h))) = Raise WeightsTooLarge /\
     too_large_now parse gunzip py_str key_order fuel G memory_of base gi go m (z_mem (rafter c (h0 ++ h)))) \/
    snd (regrid_call x base values di do m (rafter c (h0 ++ h))) = Raise FileNotFoundError \/
    (snd (regrid_call x base values di do m (rafter c (h0 ++ h))) = Raise ValueError /\
     d_index _ (db_of base (rafter c (h0 ++ h))) = Some [] /\ d_checked _ (db_of base (rafter c (h0 ++ h))) = true) \/
    collides_remote sha float_text h gi go m.
  Proof.
    intros WP FL FT H EH NM PF SO FG ST AP HL SU AK AC RQ AO WN SH E1 E2. pose proof (all_served H) as SV. pose proof (fun u b => steady_served G H u b ST) as SG.
    assert (IN : In (RCall x base values di do m) H) by (rewrite EH; apply in_or_app; right; apply in_or_app; right; left; reflexivity).
    pose proof (fun u b => served_steady G H x base values di do m u b ST IN) as GS.
    set (F := h0 ++ h) in *. assert (EH' : H = F ++ [RCall x base values di do m]) by (unfold F; rewrite <- app_assoc; exact EH).
    destruct (forall_last _ H F _ SO EH') as [S1 SC]. destruct (forall_last _ H F _ SV EH') as [V1 VC].
    pose proof (after_remote parse gunzip digest read_sha load_npz weigh sha dir limit usage check fetch ext_of py_str key_order fuel (served H) (asked H) WP NM FL zero add mul memory_of float_text c h0 h FG V1 S1) as HS. fold F in HS.
    pose proof (accepted_ginv_lim parse gunzip digest read_sha load_npz weigh sha dir limit usage check fetch ext_of py_str key_order fuel zero add mul memory_of float_text c F AC) as GV.
    unfold rsys_regrid. destruct (db_find parse gunzip digest read_sha load_npz weigh sha dir limit usage check fetch ext_of py_str key_order fuel memory_of float_text x base di do m (rafter c F)) as [t' y] eqn:E. cbn [snd].
    pose proof HS as (_ & HG & HD & _). pose proof VC as [SV' BB]. pose proof SC as (Q1 & Q2 & CO').
    destruct (find_lim parse gunzip digest read_sha load_npz weigh sha dir limit usage check fetch ext_of py_str key_order fuel (served H) (asked H) G WP NM FL SG GS memory_of float_text _ x base di do m t' y gi go z sh HG (HD base) SV' BB Q1 Q2 CO' (ST _ _ _ _ _ _ IN) AP HL SU RQ E WN AK GV) as [([z' sh'] & ->)|[[-> TL]|[->|(-> & EM & CK)]]].
    2:{ right. left. split; [reflexivity|exact TL]. }
    2:{ right. right. left. reflexivity. }
    2:{ right. right. right. left. split; [reflexivity|]. auto. }
    destruct (rfind_spec parse gunzip digest read_sha load_npz weigh sha dir limit usage check fetch ext_of py_str key_order fuel (served H) (asked H) WP NM FL memory_of float_text h _ x base values di do m t' _ HS VC SC E) as (_ & K).
    destruct (K _ eq_refl) as (gi0 & go0 & RQ0 & x' & base' & values' & di' & do' & m' & gi' & go' & I & RQ' & KE & WF). cbn [fst snd] in WF.
    assert (gi0 = gi /\ go0 = go) as [-> ->]. { destruct RQ as [R1 R2], RQ0 as [R3 R4]. rewrite R1 in R3. rewrite R2 in R4. injection R3 as <-. injection R4 as <-. auto. }
    assert (SC' : sound_remote H (RCall x' base' values' di' do' m')). { rewrite Forall_forall in SO. apply SO. rewrite EH. apply in_or_app. right. exact I. }
    destruct SC as (P1 & P2 & _), SC' as (P3 & P4 & _).
    destruct (key_spec sha float_text FT di do di' do' gi go gi' go' m m' P1 P2 P3 P4 RQ RQ' (eq_sym KE)) as [(SI & SO' & <-)|[NE CO]].
    - left. assert (base' = base) as ->. { apply in_app_or in I. destruct I as [I|[I|[]]]; [exact (AO x' base' values' di' do' gi' go' I RQ' SI SO')|]. injection I as <- <- <- <- <-. reflexivity. }
      assert (WF2 : weights_now G base gi go m z' sh').
      { apply (steady_weights parse gunzip load_npz sha ext_of py_str key_order fuel G H); [exact ST|exact AP|]. refine (weights_from_same parse gunzip load_npz sha ext_of py_str key_order fuel (served H) (asked H) base gi' go' gi go m z' sh' _ _ WF); [exact (same_result_sym (Ok gi) (Ok gi') SI)|exact (same_result_sym (Ok go) (Ok go') SO')]. }
      destruct (weights_now_one parse gunzip load_npz py_str key_order fuel G base gi go m z sh z' sh' WN WF2) as [<- <-].
      assert (P : proper_csr z). { destruct WN as (i & pre & nm & e & post & p & b & _ & _ & _ & _ & _ & EB & LZ & _). exact (PF _ _ _ (GS _ _ EB) LZ). }
      destruct (C36_computed zero add mul z n values do P E1 E2) as (r & R & S & IT). exists r. split; [|exact (conj E1 (conj E2 (conj S IT)))].
      unfold regrid_from. unfold regrid in R. cbn [bind] in *. destruct (matmul zero add mul z (reshape_column zero values)); try discriminate R. cbn [bind] in *. apply shape_spec in SH. rewrite SH. exact R.
    - right. right. right. right. exists x', base', values', di', do', m', gi', go'. split; [|exact (conj RQ' (conj NE CO))]. apply in_app_or in I. destruct I as [I|[I|[]]]; [exact I|].
      exfalso. injection I as <- <- <- <- <- <-. destruct RQ as [R1 R2], RQ' as [R3 R4]. apply NE. congruence.
  Qed.


  (** ** Limits that are exceeded all the time *)
  (** Calls of one inventory while the limits are exceeded; the memory cache may be changed, and the
      process started again. *)
  Definition tight_op (base : string) (o : rop) : Prop :=
    match o with
    | RCall x base' _ di do _ => base' = base /\ tight gunzip digest weigh limit usage x base /\ plain_dict di /\ plain_dict do
    | RConfigure _ | RClearMemory | RRestart _ => True
    | RPurge _ _ | RDelete _ => False
    end.
  Definition starved (base : string) (t : @rsys A rest blob) : Prop :=
    MemCacheProofs.Inv (weights A) (z_mem t) /\ items (z_mem t) = [] /\ bare sha dir ext_of base (z_world t) /\
    (d_index _ (db_of base t) = None \/ d_index _ (db_of base t) = Some []) /\ d_checked _ (db_of base t) = false.
  Lemma starved_call x base values di do m gi go t : starved base t -> tight gunzip digest weigh limit usage x base -> plain_dict di -> plain_dict do -> IndexSpec.request di do gi go ->
    starved base (fst (regrid_call x base values di do m t)) /\ snd (regrid_call x base values di do m t) = Raise FileNotFoundError.
  Proof.
    intros (HI & IT & BW & DI & CK) TI (N & _) (N' & _) [GI GO]. unfold rsys_regrid, db_find. rewrite GI, GO. cbn [bind].
    set (s0 := mkR (z_world t) (db_of base t)).
    destruct (find_lost parse gunzip digest read_sha weigh sha dir limit usage check fetch ext_of py_str key_order fuel base x s0 gi go m TI BW DI CK (ex_intro _ di (ex_intro _ do (conj N (conj N' (conj GI GO)))))) as (s' & E & B' & D' & K').
    set (inv := inventory_of parse gunzip digest read_sha load_npz weigh sha dir limit usage check fetch ext_of py_str key_order fuel x base s0 (gi, go, m)).
    assert (FR : i_find inv (gi, go, m) = Raise FileNotFoundError) by (unfold inv, inventory_of, lookup; cbn [i_find]; rewrite E; reflexivity).
    assert (GE : MemCache.get (key_of sha float_text) (System.est_size memory_of) System.size_of inv (gi, go, m) (z_mem t) = (z_mem t, [CFind (gi, go, m)], Raise FileNotFoundError)).
    { unfold MemCache.get, create_with_pre_check, MemCache.create, create_calls. rewrite FR, IT. cbn [alookup bind]. destruct (has_cache (pol (z_mem t))); [destruct (has_limit (pol (z_mem t)))|]; reflexivity. }
    rewrite GE. cbn [regrid_from bind fst snd loaded]. unfold lookup. rewrite E. split; [|reflexivity].
    split; [exact HI|]. split; [exact IT|]. split; [exact B'|]. unfold db_of. cbn [z_dbs]. rewrite alookup_aset_eq. cbn [fst]. auto.
  Qed.
  Lemma starved_after base c h : Forall (tight_op base) h -> starved base (rafter c h).
  Proof.
    intros F. induction h as [|o h IH] using rev_ind.
    - split; [apply init_inv|]. split; [apply init_items|]. split; [left; split; reflexivity|]. split; [left; reflexivity|reflexivity].
    - apply Forall_app in F. destruct F as [F1 F2]. inversion F2 as [|? ? T _]; subst. specialize (IH F1). unfold Remote.rafter. rewrite fold_left_app. cbn [fold_left]. fold (rafter c h).
      destruct IH as (HI & IT & BW & DI & CK). destruct o as [x base' values di do m|c'| |c'|e latest|p]; cbn [Remote.rstep]; try contradiction T.
      + destruct T as (-> & TI & P1 & P2). destruct (from_dict di) as [gi|e|] eqn:GI; [destruct (from_dict do) as [go|e|] eqn:GO|..].
        1: exact (proj1 (starved_call x base values di do m gi go _ (conj HI (conj IT (conj BW (conj DI CK)))) TI P1 P2 (conj GI GO))).
        all: unfold rsys_regrid, db_find; rewrite GI; cbn [bind]; rewrite ?GO; exact (conj HI (conj IT (conj BW (conj DI CK)))).
      + split; [exact (update_pre_inv (weights A) c' _ HI)|]. split; [|split; [exact BW|split; [exact DI|exact CK]]]. cbn [z_mem].
        pose proof (update_subset (weights A) c' _ HI) as US. destruct (items (fst (MemCache.update c' (z_mem (rafter c h))))) as [|p l]; [reflexivity|]. exfalso. specialize (US p (or_introl eq_refl)). rewrite IT in US. exact US.
      + split; [exact (step_inv mreq (entry rest) (weights A) (key_of sha float_text) (System.est_size memory_of) System.size_of (z_mem (rafter c h)) OpClear size_nonneg HI)|]. split; [reflexivity|]. split; [exact BW|]. split; [exact DI|exact CK].
      + split; [apply init_inv|]. split; [apply init_items|]. split; [exact BW|]. split; [left; reflexivity|reflexivity].
  Qed.
  (** While the limits are exceeded no call is ever answered, whatever the server has: the file of
      the index was registered before the compressed one, so it is what is deleted first. *)
  Theorem C131_refuted base c h x values di do m gi go : Forall (tight_op base) (h ++ [RCall x base values di do m]) -> IndexSpec.request di do gi go ->
    snd (regrid_call x base values di do m (rafter c h)) = Raise FileNotFoundError.
  Proof.
    intros F RQ. apply Forall_app in F. destruct F as [F1 F2]. inversion F2 as [|? ? T _]; subst. destruct T as (_ & TI & P1 & P2).
    exact (proj2 (starved_call x base values di do m gi go _ (starved_after base c h F1) TI P1 P2 RQ)).
  Qed.
End Limits.

(** ** Examples *)
(** A disk that is full to [percent] percent, with a server whose files do not change; the times go on. *)
Definition live (t percent total : Z) (get : string -> result page) : @meets page :=
  mkMeets (mkServer get (fun _ => None) (fun _ => Ok false) (fun _ => JNull))
    (fun u => let k := if String.eqb u "s/index.json" then 0 else if String.eqb u "s/index.json.sha256" then 1 else if String.eqb u "s/index.json.gz" then 2 else 4 in
       mkAround (t + k) (mkEnv (t + k) (fun _ => true) (fun _ => false) percent total) (t + k) (mkEnv (t + k + 1) (fun _ => true) (fun _ => false) percent total)).
Definition live_call (t percent : Z) (m : string) : @rop Z page := RCall (live t percent 10000 old_site) "s" demo_values demo_in demo_out m.
Notation limited_regrid lim us := (rsys_regrid page_parse page_gunzip page_digest page_sha page_npz page_weigh toy_sha "/c" lim us true false toy_ext demo_py COMPARE_KEYS 10 0 Z.add Z.mul (fun x : Z => x) demo_text).
Notation limited_after lim us := (rafter page_parse page_gunzip page_digest page_sha page_npz page_weigh toy_sha "/c" lim us true false toy_ext demo_py COMPARE_KEYS 10 0 Z.add Z.mul (fun x : Z => x) demo_text).

(** maximum-cache-disk-usage is 95 and the disk is full to 96 percent: although the server has the
    weights, every call fails; at 94 percent the first call is answered. *)
Example C131_refuted_met k :
  Forall (tight_op page_gunzip page_digest page_weigh None (Some 95) "s") (repeat (live_call 0 96 "linear") k ++ [live_call 0 96 "linear"]) /\
  toy_now old_site "s" demo_gi demo_go "linear" matrix_a (VList [VInt 2]) /\
  snd (limited_regrid None (Some 95) (live 0 96 10000 old_site) "s" demo_values demo_in demo_out "linear" (limited_after None (Some 95) roomy (repeat (live_call 0 96 "linear") k))) = Raise FileNotFoundError /\
  exists r, snd (limited_regrid None (Some 95) (live 0 94 10000 old_site) "s" demo_values demo_in demo_out "linear" (limited_after None (Some 95) roomy [])) = Ok (r, demo_out).
Proof.
  assert (T : tight_op page_gunzip page_digest page_weigh None (Some 95) "s" (live_call 0 96 "linear")).
  { destruct demo_plain as [P1 P2]. split; [reflexivity|]. split; [|split; [exact P1|exact P2]]. split; [cbn; lia|]. split; [cbn; lia|]. split; [reflexivity|]. split; [reflexivity|].
    exists (PackedIndex "1" demo_index), (TextIndex "1" demo_index), "1". split; [reflexivity|]. split; [reflexivity|]. split; [reflexivity|]. right. exists 95. split; [reflexivity|]. cbn. lia. }
  assert (F : Forall (tight_op page_gunzip page_digest page_weigh None (Some 95) "s") (repeat (live_call 0 96 "linear") k ++ [live_call 0 96 "linear"])).
  { apply Forall_app. split; [apply Forall_forall; intros o I; apply repeat_spec in I; subst o; exact T|apply Forall_cons; [exact T|apply Forall_nil]]. }
  split; [exact F|]. split; [apply toy_weights; [auto|vm_compute; reflexivity]|]. split; [|eexists; vm_compute; reflexivity].
  exact (C131_refuted 0 Z.add Z.mul page_parse page_gunzip page_digest page_sha page_npz page_weigh toy_sha "/c" None (Some 95) true false toy_ext demo_py COMPARE_KEYS 10 (fun x : Z => x) demo_text "s" roomy _ _ demo_values demo_in demo_out "linear" demo_gi demo_go F demo_request).
Qed.

(** The server got a new index, and one call came while the disk was too full: from then on the
    process says that there are no weights at all, although the disk has room again. *)
Definition live_newer (t percent : Z) (m : string) : @rop Z page := RCall (live t percent 10000 newer_site) "s" demo_values demo_in demo_out m.
Definition fuller : list (@rop Z page) := [live_call 0 94 "linear"; live_newer 10 96 "nn"; RClearMemory].
Theorem C131_forgets_refuted :
  toy_now newer_site "s" demo_gi demo_go "linear" matrix_b (VList [VInt 1; VInt 2]) /\
  snd (limited_regrid None (Some 95) (live 20 94 10000 newer_site) "s" demo_values demo_in demo_out "linear" (limited_after None (Some 95) roomy fuller)) = Raise ValueError /\
  exists r, snd (limited_regrid None (Some 95) (live 20 94 10000 newer_site) "s" demo_values demo_in demo_out "linear" (limited_after None (Some 95) roomy (fuller ++ [RRestart roomy]))) = Ok (r, demo_out).
Proof. split; [apply toy_weights; [auto|vm_compute; reflexivity]|]. split; [vm_compute; reflexivity|eexists; vm_compute; reflexivity]. Qed.

(** The hypotheses of the partial theorem are met, and the call is answered or not with the room on the disk. *)
Definition limited_start : list (@rop Z page) := [live_call 0 94 "linear"; RRestart roomy].
Example C131_partial_met :
  (exists r, snd (limited_regrid (Some 100) (Some 95) (live 20 94 10000 old_site) "s" demo_values demo_in demo_out "linear" (limited_after (Some 100) (Some 95) roomy limited_start)) = Ok (r, demo_out)) /\
  snd (limited_regrid (Some 100) (Some 95) (live 20 99 10000 old_site) "s" demo_values demo_in demo_out "linear" (limited_after (Some 100) (Some 95) roomy [])) = Raise FileNotFoundError.
Proof. split; [eexists; vm_compute; reflexivity|vm_compute; reflexivity]. Qed.

Example C131_used :
  let t := limited_after (Some 1) (Some 95) roomy (steady_start ++ steady_rest) in
  let y := snd (limited_regrid (Some 1) (Some 95) (visit old_site) "s" demo_values demo_in demo_out "linear" t) in
  (exists r, y = Ok (r, demo_out) /\ applies 0 Z.add Z.mul matrix_a [2%nat] demo_values r) \/ y = Raise WeightsTooLarge \/ y = Raise FileNotFoundError \/ y = Raise ValueError \/
  collides_remote toy_sha demo_text steady_rest demo_gi demo_go "linear".
Proof.
  intros t y. destruct C93_met as (WP & FL & FT & NM & PM & SO & FG & ST & AP & HL & SU & AK & _ & RQ & AO & WN & _).
  assert (AC : accepted (fun pre => z_mem (limited_after (Some 1) (Some 95) roomy pre)) roomy (steady_start ++ steady_rest)).
  { split; [reflexivity|]. split; [|intros c' I; cbn in I; repeat (destruct I as [I|I]; [try discriminate I; injection I as <-; reflexivity|]); contradiction].
    intros pre c' post E. exfalso. assert (I : In (RConfigure c') (steady_start ++ steady_rest)) by (rewrite E; apply in_or_app; right; left; reflexivity). cbn in I. repeat (destruct I as [I|I]; [discriminate I|]). contradiction. }
  destruct (C131_partial 0 Z.add Z.mul page_parse page_gunzip page_digest page_sha page_npz page_weigh toy_sha "/c" (Some 1) (Some 95) true false toy_ext demo_py COMPARE_KEYS 10 (fun x : Z => x) demo_text old_site
    roomy steady_start steady_rest (visit old_site) "s" demo_values demo_in demo_out "linear" demo_gi demo_go matrix_a (VList [VInt 2]) [2%nat] WP FL FT steady_all eq_refl NM PM SO FG ST AP HL SU AK AC RQ AO WN) as [K|[[K _]|[K|[[K _]|K]]]]; auto 6.
  exact (proj1 (shape_spec (VList [VInt 2]) [2%nat]) eq_refl).
Qed.

Print Assumptions C131_partial.
Print Assumptions C131_refuted.
Print Assumptions C131_forgets_refuted.
