(** C103: public calls with remote inventories on a server that serves the same all the time. *)
From Verif Require Import PyBase ListLemmas PyStr Float64 GridSpec GridVocab GridProofs Index IndexSpec IndexProofs IndexProofs2
  Db MemCache MemCacheProofs MemCacheProofs2 Inventory Regrid RegridSpec RegridProofs Props_Regrid System SystemSpec SystemProofs Props_System
  Disk DiskSpec DiskProofs DiskProofs2 Props_Disk Key KeySpec KeyProofs Props_Key CacheFile Props_CacheFile Remote RemoteSpec RemoteProofs RemoteProofs2 RemoteProofs3 RemoteProofs4 Props_Remote
  Dispatch Props_Dispatch Api ApiSpec ApiProofs Props_Api ApiTrace ApiRemote ApiRemoteSpec Props_System Props_Remote Props_ApiLocal Props_ApiRemote.
Set Default Proof Using "Type".
Local Open Scope string_scope.
Local Open Scope list_scope.
Local Open Scope Z_scope.

Lemma from_now {A rest blob} (parse : blob -> result (file rest)) gunzip (load_npz : blob -> result (csr A)) sha ext_of py_str key_order fuel (T : string -> blob -> Prop) (B : string -> Prop) G base gi go m z sh :
  (forall u b, T u b -> G u = Ok b) -> apart_here parse gunzip sha ext_of B G base ->
  weights_from parse gunzip load_npz sha ext_of py_str key_order fuel T B base gi go m z sh -> weights_now parse gunzip load_npz py_str key_order fuel G base gi go m z sh.
Proof.
  intros SG AP (i & pre & n & e & post & p & b & IA & -> & Y & N & MP & FA & R).
  pose proof (its_index parse gunzip sha ext_of T B G SG base _ AP IA) as CU.
  exists (pre ++ (n, e) :: post), pre, n, e, post, p, b. split; [exact CU|]. split; [reflexivity|]. split; [exact Y|]. split; [exact N|]. split; [exact MP|]. split; [|exact R].
  apply (its_own parse gunzip sha ext_of T B G SG base _ b AP); [|exact FA]. right. right. exists (pre ++ (n, e) :: post), n, e, p. split; [exact CU|]. split; [apply in_or_app; right; left; reflexivity|auto].
Qed.

Section Steady.
  Context {A rest blob field : Type}.
  Variables (zero : A) (add mul : A -> A -> A).
  Variable parse : blob -> result (file rest).
  Variable gunzip : blob -> result blob.
  Variable digest : blob -> result string.
  Variable read_sha : blob -> result string.
  Variable load_npz : blob -> result (csr A).
  Variable weigh : blob -> node.
  Variable sha : string -> string.
  Variable dir : string.
  Variables check fetch : bool.
  Variable ext_of : string -> string.
  Variables (py_str : val -> string) (key_order : list string) (fuel : nat).
  Variable memory_of : rest -> Z.
  Variable float_text : f64 -> string.
  Variable mir_array : array A -> option dict -> option dict -> dict -> result (array A * dict).
  Variable mir_grib : string -> option dict -> dict -> result string.
  Variable field_values : field -> result (array A).
  Variable field_grid : field -> result (option dict).
  Variable field_with : field -> array A -> dict -> result field.
  Variable field_message : field -> result string.
  Variable message_field : string -> result field.
  Notation S := (@rsys A rest blob).
  Notation meets := (@meets blob).
  Notation rop := (@rop A blob).
  Notation rfind := (remote_find parse gunzip digest read_sha load_npz weigh sha dir None None check fetch ext_of py_str key_order fuel memory_of float_text).
  Notation db_find := (Remote.db_find parse gunzip digest read_sha load_npz weigh sha dir None None check fetch ext_of py_str key_order fuel memory_of float_text).
  Notation rstep := (Remote.rstep parse gunzip digest read_sha load_npz weigh sha dir None None check fetch ext_of py_str key_order fuel zero add mul memory_of float_text).
  Notation rafter := (Remote.rafter parse gunzip digest read_sha load_npz weigh sha dir None None check fetch ext_of py_str key_order fuel zero add mul memory_of float_text).
  Notation array_regrid := (array_regrid zero add mul rfind mir_array).
  Notation backend_regrid := (backend_regrid zero add mul rfind mir_array).
  Notation array_fields := (array_fields zero add mul rfind mir_array field_values field_grid field_with).
  Notation regrid_call := (regrid_call zero add mul rfind mir_array mir_grib field_values field_grid field_with field_message message_field).
  Notation pafter := (pafter zero add mul rfind mir_array mir_grib field_values field_grid field_with field_message message_field).
  Notation pcall := (@pop_call A S meets field).
  Notation asked_at := (@asked_at A rest blob field field_values field_grid).
  Notation served_to := (@served_to A rest blob field field_values field_grid).
  Notation asked_from := (@asked_from A rest blob field field_values field_grid).
  Notation collides_at := (@collides_at A rest blob field field_values field_grid sha float_text).
  Notation only_at := (@only_at A rest blob field field_values field_grid).
  Notation weights_from H := (weights_from parse gunzip load_npz sha ext_of py_str key_order fuel (served_to H) (asked_from H)).
  Notation comparable_at H := (comparable_at (rest := rest) parse gunzip sha ext_of py_str key_order fuel (served_to H) (asked_from H)).
  Notation mstep := (mstep rfind).
  Notation move := (@move A S meets).
  

  Notation pstep := (pstep zero add mul rfind mir_array mir_grib field_values field_grid field_with field_message message_field).
  Notation W := (weights A).
  Notation key_of := (key_of sha float_text).
  Variable G : string -> result blob.
  Notation steady_at := (@steady_at A rest blob field field_values field_grid G).
  Notation apart_at := (@apart_at A rest blob field field_values field_grid parse gunzip sha ext_of G).
  Notation weights_now := (weights_now parse gunzip load_npz py_str key_order fuel G).
  Notation nothing_now := (nothing_now parse gunzip py_str key_order fuel G).
  Notation sound_calls := (@sound_calls A rest blob field parse gunzip sha ext_of py_str key_order fuel field_values field_grid).
  Notation known_between := (@known_between A rest blob field zero add mul parse gunzip digest read_sha load_npz weigh sha dir None None check fetch ext_of py_str key_order fuel memory_of float_text).
  Notation cleared := (@cleared A rest blob field zero add mul parse gunzip digest read_sha load_npz weigh sha dir None None check fetch ext_of py_str key_order fuel memory_of float_text).
  Notation asked_op := (@asked_op A rest blob field field_values field_grid).
  Implicit Types (H : list pcall) (h : list rop) (x : meets) (y : S) (l : list move).

  Lemma steady_served_to H u b : steady_at H -> served_to H u b -> G u = Ok b.
  Proof. intros ST (x & base & v & di & do & m & I & Q). rewrite <- (ST x base v di do m I u). exact Q. Qed.
  Definition answered_now H base (v : array A) (di do : dict) (m : string) (u : array A) : Prop :=
    exists gi go, IndexSpec.request di do gi go /\
      (collides_at H gi go m \/ exists z sh n, weights_now base gi go m z sh /\ is_shape sh n /\ applies zero add mul z n v u).
  Lemma answered_steady HH H base v di do m u : steady_at HH -> apart_at HH base ->
    answered zero add mul parse gunzip load_npz sha ext_of py_str key_order fuel float_text field_values field_grid HH H base v di do m u -> answered_now H base v di do m u.
  Proof.
    intros ST AP (gi & go & RQ & [CO|(z & sh & n & WF & R)]); exists gi, go; (split; [exact RQ|]); [left; exact CO|right]. exists z, sh, n. split; [|exact R].
    exact (from_now parse gunzip load_npz sha ext_of py_str key_order fuel (served_to HH) (asked_from HH) G base gi go m z sh (fun u b => steady_served_to HH u b ST) AP WF).
  Qed.

  (** The settings of the memory cache were accepted whenever they were set. *)
  Definition settings_accepted (c : mconf) H : Prop :=
    snd (@MemCache.init W c) = Ok tt /\
    forall pre f post, H = pre ++ PElse f :: post -> exists o : rop, between o /\ (forall y, f y = rstep y o) /\
      match o with
      | RConfigure c' => snd (MemCache.update c' (z_mem (p_sys (pafter (rinit c) pre)))) = Ok tt
      | RRestart c' => snd (@MemCache.init W c') = Ok tt
      | _ => True
      end.
  Lemma init_ginv c : snd (@MemCache.init W c) = Ok tt -> GInv W (fst (@MemCache.init W c)).
  Proof. clear. intros C. unfold init in *. destruct (MemCache.update c fresh) as [s r] eqn:Q. cbn in *. subst r. exact (proj1 (MemCacheProofs2.update_ok W c fresh s (fresh_ginv W) Q)). Qed.
  Lemma ask_ginv r y : GInv W (z_mem y) -> GInv W (z_mem (fstep rfind y r)).
  Proof.
    intros Y. destruct (ask_or_none parse gunzip digest read_sha load_npz weigh sha dir None None check fetch ext_of py_str key_order fuel memory_of float_text r) as [(x & db & base & v & di & do & m & -> & L)|N]; [|rewrite N; exact Y].
    unfold fstep, remote_find. cbn [dm_meets dm_db dm_in dm_out dm_method]. rewrite (proj1 (located_base _ _) L). unfold Remote.db_find.
    destruct (from_dict di) as [gi|e|]; [|exact Y..]. cbn [bind]. destruct (from_dict do) as [go|e|]; [|exact Y..]. cbn [bind].
    match goal with |- context [MemCache.get ?a ?b ?d ?e ?f ?g] => destruct (MemCache.get a b d e f g) as [[mem calls] r] eqn:GE end.
    pose proof (proj1 (get_ginv mreq (entry rest) W key_of (System.est_size memory_of) System.size_of size_nonneg _ _ _ _ _ _ Y GE)) as R. destruct calls; exact R.
  Qed.
  Lemma public_ginv c H : settings_accepted c H -> GInv W (z_mem (p_sys (pafter (rinit c) H))).
  Proof.
    intros (C0 & C1). induction H as [|d H IH] using rev_ind; [exact (init_ginv c C0)|].
    assert (Y : GInv W (z_mem (p_sys (pafter (rinit c) H)))). { apply IH. intros pre f post Q. apply (C1 pre f (post ++ [d])). rewrite Q, <- app_assoc. reflexivity. }
    pose proof (after_fine zero add mul rfind mir_array mir_grib field_values field_grid field_with field_message message_field (rinit c) H) as F.
    specialize (C1 H). unfold Api.pafter in *. rewrite fold_left_app. cbn [fold_left]. set (s := fold_left pstep H _) in *. clearbody s. destruct s as [y mk]. cbn [p_sys p_maker] in *.
    assert (PE : (exists f, d = PElse f) \/ forall f, d <> PElse f) by (destruct d; [right; discriminate..|left; eauto]). destruct PE as [(f & ->)|NE].
    - cbn [Api.pstep p_sys]. destruct (C1 f [] eq_refl) as (o & B & Q & C). rewrite Q.
      destruct o as [x base v di do m|c'| |c'|e la|p]; [contradiction|..]; cbn [Remote.rstep z_mem]; try exact Y.
      + destruct (MemCache.update c' (z_mem y)) as [s r] eqn:U. cbn in C. subst r. exact (proj1 (MemCacheProofs2.update_ok W c' _ s Y U)).
      + exact (step_ginv mreq (entry rest) W key_of (System.est_size memory_of) System.size_of size_nonneg (z_mem y) OpClear Y Logic.I).
      + apply init_ginv, C.
    - destruct (step_comes zero add mul rfind mir_array mir_grib field_values field_grid field_with field_message message_field d y mk F) as (l & -> & C & _).
      assert (AL : Forall (fun v => exists r, v = MAsk r) l). { assert (X : Forall (fun v => exists r, v = MAsk r /\ demands field_values field_grid d r) l) by (destruct d; try exact C; destruct (NE f eq_refl)). eapply Forall_impl; [|exact X]. intros v (r & -> & _). eauto. }
      clear - Y AL. revert y Y. induction AL as [|v l (r & ->) _ IH]; intros y Y; [exact Y|]. cbn [fold_left ApiTrace.mstep]. apply IH, ask_ginv, Y.
  Qed.

  Notation call := (fun x values di do m kw => PArray (S := S) (field := field) x values (Some di) (Some do) (VStr m) (VStr "precomputed") kw).
  (** An answered call applies the weights on the server. *)
  Theorem C103_steady_array_partial c H0 H x db base kw values di do m r g :
    forall HH, HH = H0 ++ H ++ [call x values di do m kw] ->
    (forall b, 0 <= n_size (weigh b)) -> fixed_length sha -> float_texts float_text -> names parse gunzip sha ext_of (served_to HH) (asked_from HH) -> proper_matrices load_npz (served_to HH) ->
    cleared H0 -> known_between (H0 ++ H) -> sound_calls HH HH -> only_inventory "inventory" kw db -> located db base -> steady_at HH -> apart_at HH base ->
    (forall gi go, IndexSpec.request di do gi go -> only_at base (H ++ [call x values di do m kw]) gi go m) ->
    snd (array_regrid x values (Some di) (Some do) (VStr m) (VStr "precomputed") kw (pafter (rinit c) (H0 ++ H))) = Ok (r, g) ->
    g = do /\ answered_now (H ++ [call x values di do m kw]) base values di do m r.
  Proof.
    intros HH EH WP FL FT NM PF CL KE SC OI LO ST AP AO Q.
    destruct (C103_array_partial zero add mul parse gunzip digest read_sha load_npz weigh sha dir None None check fetch ext_of py_str key_order fuel memory_of float_text mir_array mir_grib field_values field_grid field_with field_message message_field
      c H0 H x db base kw values di do m r g HH EH WP FL FT NM PF CL KE SC OI LO AO Q) as [-> AN]. split; [reflexivity|]. exact (answered_steady HH _ base values di do m r ST AP AN).
  Qed.
  Theorem C103_steady_fields_partial c H0 H x db base kw fs g gs m d :
    forall HH, HH = H0 ++ H ++ [PRegrid x (DFields fs) (Some g) (VStr m) (VStr "precomputed") kw] ->
    (forall b, 0 <= n_size (weigh b)) -> fixed_length sha -> float_texts float_text -> names parse gunzip sha ext_of (served_to HH) (asked_from HH) -> proper_matrices load_npz (served_to HH) ->
    cleared H0 -> known_between (H0 ++ H) -> sound_calls HH HH -> only_inventory "inventory" kw db -> located db base -> from_dict g = Ok gs -> steady_at HH -> apart_at HH base ->
    (forall f v di, In f fs -> of_field field_values field_grid f None v di -> forall gi go, IndexSpec.request di (gd gs) gi go ->
       only_at base (H ++ [PRegrid x (DFields fs) (Some g) (VStr m) (VStr "precomputed") kw]) gi go m) ->
    snd (regrid_call x (DFields fs) (Some g) (VStr m) (VStr "precomputed") kw (pafter (rinit c) (H0 ++ H))) = Ok d ->
    is_regular_ll gs = true /\ exists rs, d = DFields rs /\
      Forall2 (fun f f' => exists v di u, of_field field_values field_grid f None v di /\ field_with f u (gd gs) = Ok f' /\
        answered_now (H ++ [PRegrid x (DFields fs) (Some g) (VStr m) (VStr "precomputed") kw]) base v di (gd gs) m u) fs rs.
  Proof.
    intros HH EH WP FL FT NM PF CL KE SC OI LO GS ST AP AO Q.
    destruct (C103_fields_partial zero add mul parse gunzip digest read_sha load_npz weigh sha dir None None check fetch ext_of py_str key_order fuel memory_of float_text mir_array mir_grib field_values field_grid field_with field_message message_field
      c H0 H x db base kw fs g gs m d HH EH WP FL FT NM PF CL KE SC OI LO GS AO Q) as (LL & rs & -> & F2). split; [exact LL|]. exists rs. split; [reflexivity|].
    set (L := H ++ _) in F2 |- *. clearbody L. clear - F2 ST AP. induction F2 as [|f f' fl rl (v & di & u & OF & W & AN) _ IH]; [constructor|]. constructor; [|exact IH]. exists v, di, u. split; [exact OF|]. split; [exact W|]. exact (answered_steady HH _ base v di (gd gs) m u ST AP AN).
  Qed.

  (** Without limits on the cache directory: if an entry of the inventory answers and the sizes
      agree, the call is answered. *)
  Theorem C103_answered_partial c H0 H x db base kw values di do m gi go z sh n :
    forall HH, HH = H0 ++ H ++ [call x values di do m kw] ->
    (forall b, 0 <= n_size (weigh b)) -> fixed_length sha -> float_texts float_text -> names parse gunzip sha ext_of (served_to HH) (asked_from HH) -> proper_matrices load_npz (served_to HH) ->
    cleared H0 -> known_between (H0 ++ H) -> sound_calls HH HH -> only_inventory "inventory" kw db -> located db base -> steady_at HH -> apart_at HH base ->
    healthy parse gunzip digest G base -> askable parse gunzip G check x base -> settings_accepted c (H0 ++ H) ->
    IndexSpec.request di do gi go -> only_at base (H ++ [call x values di do m kw]) gi go m ->
    weights_now base gi go m z sh -> is_shape sh n -> prod (shape values) = n_cols z -> prod n = n_rows z ->
    (exists r, snd (array_regrid x values (Some di) (Some do) (VStr m) (VStr "precomputed") kw (pafter (rinit c) (H0 ++ H))) = Ok (r, do) /\ applies zero add mul z n values r) \/
    (snd (array_regrid x values (Some di) (Some do) (VStr m) (VStr "precomputed") kw (pafter (rinit c) (H0 ++ H))) = Raise WeightsTooLarge /\
     too_large_now parse gunzip py_str key_order fuel G memory_of base gi go m (z_mem (p_sys (pafter (rinit c) (H0 ++ H))))) \/
    collides_at (H ++ [call x values di do m kw]) gi go m.
  Proof.
    set (cl := call x values di do m kw).
    intros HH EH WP FL FT NM PF CL KE SC OI LO ST AP HL AK AC RQ AO WN SH E1 E2.
    destruct (history2 zero add mul parse gunzip digest read_sha load_npz weigh sha dir None None check fetch ext_of py_str key_order fuel memory_of float_text mir_array mir_grib field_values field_grid field_with field_message message_field c H0 H CL KE) as (h0 & h & PS & FG & A0 & A1).
    pose proof (after_fine zero add mul rfind mir_array mir_grib field_values field_grid field_with field_message message_field (rinit c) (H0 ++ H)) as F.
    pose proof (public_ginv c (H0 ++ H) AC) as GV.
    pose proof (C103_steady_array_partial c H0 H x db base kw values di do m) as SA.
    destruct (pafter (rinit c) (H0 ++ H)) as [y mk] eqn:PA. cbn [p_sys p_maker] in *.
    destruct (array_direct zero add mul rfind mir_array x db values di do (VStr m) kw OI y mk mk F F) as (_ & _ & _ & R).
    unfold direct in R. cbn [p_sys] in R. unfold remote_find in R at 2. rewrite (proj1 (located_base _ _) LO) in R.
    destruct (db_find x base di do m y) as [t' found] eqn:DF. cbn [snd] in R.
    assert (AC' : asked_at [cl] x base values di do m). { exists cl. split; [left; reflexivity|]. exists db. split; [exact LO|]. constructor. destruct OI as [|v db N]; [reflexivity|]. unfold picks. cbn [alookup]. rewrite String.eqb_refl. exact N. }
    assert (I0 : forall d, In d H0 -> In d HH) by (intros d I; rewrite EH; apply in_or_app; auto).
    assert (I1 : forall d, In d (H ++ [cl]) -> In d HH) by (intros d I; rewrite EH; apply in_or_app; auto).
    assert (I2 : forall d, In d [cl] -> In d HH) by (intros d I; apply I1, in_or_app; auto).
    pose proof (asked_at_more field_values field_grid _ _ _ _ _ _ _ _ I2 AC') as AHH.
    assert (A2 : Forall (asked_op HH) (h0 ++ h ++ [RCall x base values di do m])).
    { rewrite !Forall_app. split; [|split; [|constructor; [exact AHH|constructor]]]; [eapply Forall_impl; [|exact A0]|eapply Forall_impl; [|exact A1]]; (intros [x' b' v' di' do' m'|c'| |c'|e la|p]; cbn; auto; apply asked_at_more; intros d I; [apply I0, I || (apply I1, in_or_app; left; exact I)]). }
    pose proof (ops_served field_values field_grid HH HH _ (fun d I => I) A2) as SV. pose proof (ops_sound parse gunzip sha ext_of py_str key_order fuel field_values field_grid HH HH _ SC A2) as SO.
    assert (T2 : Forall (steady_op G) (h0 ++ h ++ [RCall x base values di do m])). { eapply Forall_impl; [|exact A2]. intros [x' b' v' di' do' m'|c'| |c'|e la|p]; cbn; auto. intros K u. exact (ST _ _ _ _ _ _ K u). }
    rewrite app_assoc in SV, SO, T2. apply Forall_app in SV, SO, T2. destruct SV as [V1 VC], SO as [S1 SC1], T2 as [T1 TC]. inversion VC as [|? ? VC' _]; inversion SC1 as [|? ? SC' _]; inversion TC as [|? ? TC' _]; subst. clear VC SC1 TC.
    set (HH := H0 ++ H ++ [cl]) in *. pose proof (fun u b => steady_served_to HH u b ST) as SG. assert (GS : forall u b, G u = Ok b -> served_to HH u b). { intros u b Q. exists x, base, values, di, do, m. split; [exact AHH|]. rewrite (ST _ _ _ _ _ _ AHH u). exact Q. }
    pose proof (after_remote parse gunzip digest read_sha load_npz weigh sha dir None None check fetch ext_of py_str key_order fuel (served_to HH) (asked_from HH) WP NM FL zero add mul memory_of float_text c h0 h FG V1 S1) as HS.
    pose proof (after_full parse gunzip digest read_sha load_npz weigh sha dir check fetch ext_of py_str key_order fuel (served_to HH) (asked_from HH) G WP NM FL SG GS zero add mul memory_of float_text base c (h0 ++ h) V1 S1 T1 AP HL) as RF.
    destruct (rfind_total parse gunzip digest read_sha load_npz weigh sha dir check fetch ext_of py_str key_order fuel (served_to HH) (asked_from HH) G WP NM FL SG GS memory_of float_text h _ x base values di do m t' found gi go HS RF VC' SC' TC' AP HL RQ DF) as [FA _].
    destruct (FA z sh WN AK GV) as [([z' sh'] & ->)|[-> TL]].
    2:{ right. left. split; [|exact TL]. cbn in R. destruct (snd _) in *; cbn in R; congruence || contradiction. }
    destruct (rfind_spec parse gunzip digest read_sha load_npz weigh sha dir None None check fetch ext_of py_str key_order fuel (served_to HH) (asked_from HH) WP NM FL memory_of float_text h _ x base values di do m t' _ HS VC' SC' DF) as (_ & K).
    destruct (K _ eq_refl) as (gi0 & go0 & RQ0 & x' & base' & v' & di' & do' & m' & gi' & go' & I & RQ' & KE' & WF). cbn [fst snd] in WF.
    assert (gi0 = gi /\ go0 = go) as [-> ->]. { destruct RQ as [R1 R2], RQ0 as [R3 R4]. rewrite R1 in R3. rewrite R2 in R4. injection R3 as <-. injection R4 as <-. auto. }
    assert (AA : asked_at (H ++ [cl]) x' base' v' di' do' m').
    { apply in_app_or in I. destruct I as [I|[I|[]]]; [|injection I as <- <- <- <- <- <-; refine (asked_at_more field_values field_grid _ _ _ _ _ _ _ _ _ AC'); intros d J; apply in_or_app; auto].
      rewrite Forall_forall in A1. refine (asked_at_more field_values field_grid _ _ _ _ _ _ _ _ _ (A1 _ I)). intros d J. apply in_or_app. auto. }
    destruct (SC _ _ _ _ _ _ (asked_at_more field_values field_grid _ _ _ _ _ _ _ _ I1 AA)) as (P3 & P4 & _). destruct SC' as (P1 & P2 & _).
    destruct (key_spec sha float_text FT di do di' do' gi go gi' go' m m' P1 P2 P3 P4 RQ RQ' (eq_sym KE')) as [(SI & SO' & <-)|[NE CO]].
    - left. assert (base' = base) as -> by exact (AO x' base' v' di' do' gi' go' AA RQ' SI SO').
      assert (WF2 : weights_now base gi go m z' sh').
      { refine (from_now parse gunzip load_npz sha ext_of py_str key_order fuel (served_to HH) (asked_from HH) G base gi go m z' sh' SG AP _).
        refine (weights_from_same parse gunzip load_npz sha ext_of py_str key_order fuel (served_to HH) (asked_from HH) base gi' go' gi go m z' sh' _ _ WF); [exact (same_result_sym (Ok gi) (Ok gi') SI)|exact (same_result_sym (Ok go) (Ok go') SO')]. }
      destruct (weights_now_one parse gunzip load_npz py_str key_order fuel G base gi go m z sh z' sh' WN WF2) as [<- <-].
      assert (P : proper_csr z). { destruct WN as (i & pre & nm & e & post & p & b & _ & _ & _ & _ & _ & EB & LZ & _). exact (PF _ _ _ (GS _ _ EB) LZ). }
      destruct (C36_computed zero add mul z n values do P E1 E2) as (r & RR & SS & IT). exists r. split; [|exact (conj E1 (conj E2 (conj SS IT)))].
      assert (RR' : regrid_from zero add mul (Ok (Some (z, sh))) values do = Ok (r, do)).
      { unfold regrid_from. unfold regrid in RR. cbn [bind] in *. destruct (matmul zero add mul z (reshape_column zero values)); try discriminate RR. cbn [bind] in *. apply shape_spec in SH. rewrite SH. exact RR. }
      match type of R with related _ _ ?q => assert (RR'' : q = Ok (r, do)) by exact RR'; rewrite RR'' in R end. destruct (snd _) in *; cbn in R; congruence || contradiction.
    - right. right. exists x', base', v', di', do', m', gi', go'. auto.
  Qed.

  (** If no entry answers, the call is refused with ValueError. *)
  Theorem C103_refused_partial c H0 H x db base kw values di do m gi go :
    forall HH, HH = H0 ++ H ++ [call x values di do m kw] ->
    (forall b, 0 <= n_size (weigh b)) -> fixed_length sha -> float_texts float_text -> names parse gunzip sha ext_of (served_to HH) (asked_from HH) ->
    cleared H0 -> known_between (H0 ++ H) -> sound_calls HH HH -> only_inventory "inventory" kw db -> located db base -> steady_at HH -> apart_at HH base ->
    healthy parse gunzip digest G base -> summed read_sha G base ->
    IndexSpec.request di do gi go -> only_at base (H ++ [call x values di do m kw]) gi go m -> nothing_now base gi go m ->
    snd (array_regrid x values (Some di) (Some do) (VStr m) (VStr "precomputed") kw (pafter (rinit c) (H0 ++ H))) = Raise ValueError \/
    collides_at (H ++ [call x values di do m kw]) gi go m.
  Proof.
    set (cl := call x values di do m kw).
    intros HH EH WP FL FT NM CL KE SC OI LO ST AP HL SU RQ AO NN.
    destruct (history2 zero add mul parse gunzip digest read_sha load_npz weigh sha dir None None check fetch ext_of py_str key_order fuel memory_of float_text mir_array mir_grib field_values field_grid field_with field_message message_field c H0 H CL KE) as (h0 & h & PS & FG & A0 & A1).
    pose proof (after_fine zero add mul rfind mir_array mir_grib field_values field_grid field_with field_message message_field (rinit c) (H0 ++ H)) as F.
    destruct (pafter (rinit c) (H0 ++ H)) as [y mk] eqn:PA. cbn [p_sys p_maker] in *.
    destruct (array_direct zero add mul rfind mir_array x db values di do (VStr m) kw OI y mk mk F F) as (_ & _ & _ & R).
    unfold direct in R. cbn [p_sys] in R. unfold remote_find in R at 2. rewrite (proj1 (located_base _ _) LO) in R.
    destruct (db_find x base di do m y) as [t' found] eqn:DF. cbn [snd] in R.
    assert (AC' : asked_at [cl] x base values di do m). { exists cl. split; [left; reflexivity|]. exists db. split; [exact LO|]. constructor. destruct OI as [|v db N]; [reflexivity|]. unfold picks. cbn [alookup]. rewrite String.eqb_refl. exact N. }
    assert (I0 : forall d, In d H0 -> In d HH) by (intros d I; rewrite EH; apply in_or_app; auto).
    assert (I1 : forall d, In d (H ++ [cl]) -> In d HH) by (intros d I; rewrite EH; apply in_or_app; auto).
    assert (I2 : forall d, In d [cl] -> In d HH) by (intros d I; apply I1, in_or_app; auto).
    pose proof (asked_at_more field_values field_grid _ _ _ _ _ _ _ _ I2 AC') as AHH.
    assert (A2 : Forall (asked_op HH) (h0 ++ h ++ [RCall x base values di do m])).
    { rewrite !Forall_app. split; [|split; [|constructor; [exact AHH|constructor]]]; [eapply Forall_impl; [|exact A0]|eapply Forall_impl; [|exact A1]]; (intros [x' b' v' di' do' m'|c'| |c'|e la|p]; cbn; auto; apply asked_at_more; intros d I; [apply I0, I || (apply I1, in_or_app; left; exact I)]). }
    pose proof (ops_served field_values field_grid HH HH _ (fun d I => I) A2) as SV. pose proof (ops_sound parse gunzip sha ext_of py_str key_order fuel field_values field_grid HH HH _ SC A2) as SO.
    assert (T2 : Forall (steady_op G) (h0 ++ h ++ [RCall x base values di do m])). { eapply Forall_impl; [|exact A2]. intros [x' b' v' di' do' m'|c'| |c'|e la|p]; cbn; auto. intros K u. exact (ST _ _ _ _ _ _ K u). }
    rewrite app_assoc in SV, SO, T2. apply Forall_app in SV, SO, T2. destruct SV as [V1 VC], SO as [S1 SC1], T2 as [T1 TC]. inversion VC as [|? ? VC' _]; inversion SC1 as [|? ? SC' _]; inversion TC as [|? ? TC' _]; subst. clear VC SC1 TC.
    set (HH := H0 ++ H ++ [cl]) in *. pose proof (fun u b => steady_served_to HH u b ST) as SG. assert (GS : forall u b, G u = Ok b -> served_to HH u b). { intros u b Q. exists x, base, values, di, do, m. split; [exact AHH|]. rewrite (ST _ _ _ _ _ _ AHH u). exact Q. }
    pose proof (after_remote parse gunzip digest read_sha load_npz weigh sha dir None None check fetch ext_of py_str key_order fuel (served_to HH) (asked_from HH) WP NM FL zero add mul memory_of float_text c h0 h FG V1 S1) as HS.
    pose proof (after_full parse gunzip digest read_sha load_npz weigh sha dir check fetch ext_of py_str key_order fuel (served_to HH) (asked_from HH) G WP NM FL SG GS zero add mul memory_of float_text base c (h0 ++ h) V1 S1 T1 AP HL) as RF.
    destruct (rfind_total parse gunzip digest read_sha load_npz weigh sha dir check fetch ext_of py_str key_order fuel (served_to HH) (asked_from HH) G WP NM FL SG GS memory_of float_text h _ x base values di do m t' found gi go HS RF VC' SC' TC' AP HL RQ DF) as [_ Z].
    destruct (Z NN SU) as [->|([z' sh'] & ->)]; [left; cbn in R; destruct (snd _) in *; cbn in R; congruence || contradiction|right].
    destruct (rfind_spec parse gunzip digest read_sha load_npz weigh sha dir None None check fetch ext_of py_str key_order fuel (served_to HH) (asked_from HH) WP NM FL memory_of float_text h _ x base values di do m t' _ HS VC' SC' DF) as (_ & K).
    destruct (K _ eq_refl) as (gi0 & go0 & RQ0 & x' & base' & v' & di' & do' & m' & gi' & go' & I & RQ' & KE' & WF). cbn [fst snd] in WF.
    assert (gi0 = gi /\ go0 = go) as [-> ->]. { destruct RQ as [R1 R2], RQ0 as [R3 R4]. rewrite R1 in R3. rewrite R2 in R4. injection R3 as <-. injection R4 as <-. auto. }
    assert (AA : asked_at (H ++ [cl]) x' base' v' di' do' m').
    { apply in_app_or in I. destruct I as [I|[I|[]]]; [|injection I as <- <- <- <- <- <-; refine (asked_at_more field_values field_grid _ _ _ _ _ _ _ _ _ AC'); intros d J; apply in_or_app; auto].
      rewrite Forall_forall in A1. refine (asked_at_more field_values field_grid _ _ _ _ _ _ _ _ _ (A1 _ I)). intros d J. apply in_or_app. auto. }
    destruct (SC _ _ _ _ _ _ (asked_at_more field_values field_grid _ _ _ _ _ _ _ _ I1 AA)) as (P3 & P4 & _). destruct SC' as (P1 & P2 & _).
    destruct (key_spec sha float_text FT di do di' do' gi go gi' go' m m' P1 P2 P3 P4 RQ RQ' (eq_sym KE')) as [(SI & SO' & <-)|[NE CO]].
    - exfalso. assert (base' = base) as -> by exact (AO x' base' v' di' do' gi' go' AA RQ' SI SO').
      assert (WF2 : weights_now base gi go m z' sh').
      { refine (from_now parse gunzip load_npz sha ext_of py_str key_order fuel (served_to HH) (asked_from HH) G base gi go m z' sh' SG AP _).
        refine (weights_from_same parse gunzip load_npz sha ext_of py_str key_order fuel (served_to HH) (asked_from HH) base gi' go' gi go m z' sh' _ _ WF); [exact (same_result_sym (Ok gi) (Ok gi') SI)|exact (same_result_sym (Ok go) (Ok go') SO')]. }
      destruct WF2 as (i & pre & n & e & post & p & b & CU & -> & Y & N & _). destruct NN as (i' & CU' & NN). pose proof (current_one parse gunzip G base _ _ CU CU') as EI. subst i'.
      assert (F1 : first py_str key_order fuel (pre ++ (n, e) :: post) gi go (method_alias m) = Ok (Some e)) by (apply first_some; exists pre, n, post; auto).
      assert (F2 : first py_str key_order fuel (pre ++ (n, e) :: post) gi go (method_alias m) = Ok None) by (apply first_none; exact NN). rewrite F1 in F2. discriminate F2.
    - exists x', base', v', di', do', m', gi', go'. auto.
  Qed.
End Steady.

(** ** Two inventories on a small server *)
Definition net_index : file Z := mkFile (Some 1) (Some [("w", ll_raw)]).
Definition net_site (u : string) : result page :=
  if String.eqb u "http://s/index.json.gz" then Ok (PackedIndex "1" net_index)
  else if String.eqb u "http://s/index.json.sha256" then Ok (Checksum "1")
  else if String.eqb u "http://s/mir_16_linear/w.npz" then Ok (Npz matrix_a)
  else if String.eqb u "http://tt/index.json.gz" then Ok (PackedIndex "2" net_index)
  else if String.eqb u "http://tt/index.json.sha256" then Ok (Checksum "2")
  else if String.eqb u "http://tt/mir_16_linear/w.npz" then Ok (Npz matrix_b)
  else Raise (UserError 404).
Notation net_S := (@rsys Z Z page).
Notation net_find := (remote_find page_parse page_gunzip page_digest page_sha page_npz page_weigh toy_sha "/c" None None true false toy_ext demo_py COMPARE_KEYS 10 (fun x : Z => x) demo_text).
Notation net_step := (rstep page_parse page_gunzip page_digest page_sha page_npz page_weigh toy_sha "/c" None None true false toy_ext demo_py COMPARE_KEYS 10 0 Z.add Z.mul (fun x : Z => x) demo_text).
Notation net_call := (@pop_call Z net_S (@meets page) ll_field).
Notation net_after := (pafter 0 Z.add Z.mul net_find ll_mir ll_grib ll_values ll_grid ll_with ll_message ll_of_message (Remote.rinit roomy)).
Notation net_regrid := (regrid_call 0 Z.add Z.mul net_find ll_mir ll_grib ll_values ll_grid ll_with ll_message ll_of_message).
Notation net_array := (array_regrid 0 Z.add Z.mul net_find ll_mir).
Definition net_fields (u m : string) : net_call := PRegrid (visit net_site) (DFields [ll_one; ll_two]) (Some ll_out) (VStr m) (VStr "precomputed") [("inventory", VStr u)].
Definition net_values (u m : string) : net_call := PArray (visit net_site) demo_values (Some demo_out) (Some ll_out) (VStr m) (VStr "precomputed") [("inventory", VStr u)].
Definition net_restart : net_S -> net_S := fun y => net_step y (RRestart roomy).
Definition net_url (u : string) : Prop := u = "http://s" \/ u = "http://tt".
Definition net_method (m : string) : Prop := m = "linear" \/ m = "nn".
Definition net_out (do : dict) : Prop := do = ll_out \/ do = gd ll_gs.
Definition net_kind (d : net_call) : Prop :=
  (exists u m, net_url u /\ net_method m /\ (d = net_fields u m \/ d = net_values u m)) \/ d = PElse net_restart.
Lemma net_names u : net_url u -> names_db (VStr u) (FromUrl u).
Proof. intros [->| ->]; [apply (n_url _ "s")|apply (n_url _ "tt")]; left; reflexivity. Qed.
Lemma net_located u : net_url u -> located (FromUrl u) u.
Proof. intros [->| ->]; constructor; discriminate. Qed.
Lemma net_picks u db : net_url u -> picks "inventory" [("inventory", VStr u)] db -> db = FromUrl u.
Proof. intros U P. unfold picks in P. cbn [alookup] in P. rewrite String.eqb_refl in P. apply names_get in P. pose proof (net_names u U) as N. apply names_get in N. rewrite N in P. injection P as <-. reflexivity. Qed.
Lemma net_asked H x base v di do m : Forall net_kind H -> asked_at ll_values ll_grid H x base v di do m -> x = visit net_site /\ net_url base /\ di = demo_out /\ net_out do /\ net_method m.
Proof.
  intros T (d & I & db & L & D). rewrite Forall_forall in T. destruct (T d I) as [(u & n & U & M & [->| ->])| ->]; [| |inversion D].
  - unfold net_fields in D. inversion D as [|? ? f ? ? ? gs ? ? ? IF [_ G] GS P| | |]; subst. apply (net_picks u db U) in P. subst db. inversion L; subst.
    assert (X : from_dict ll_out = Ok ll_gs) by (vm_compute; reflexivity). rewrite X in GS. apply ok_inj in GS. subst gs.
    split; [reflexivity|]. split; [exact U|]. split; [|split; [right; reflexivity|exact M]]. destruct IF as [<-|[<-|[]]]; injection G as <-; reflexivity.
  - unfold net_values in D. inversion D as [? ? ? ? ? ? ? P| | | |]; subst. apply (net_picks u db U) in P. subst db. inversion L; subst. split; [reflexivity|]. split; [exact U|]. split; [reflexivity|]. split; [left; reflexivity|exact M].
Qed.
Definition net_urls : list string := ["http://s/index.json.gz"; "http://s/index.json.sha256"; "http://s/mir_16_linear/w.npz"; "http://tt/index.json.gz"; "http://tt/index.json.sha256"; "http://tt/mir_16_linear/w.npz"].
Lemma net_served u p : net_site u = Ok p ->
  In u net_urls /\ ((exists v, p = PackedIndex v net_index) \/ (exists v, p = Checksum v) \/ (exists z, p = Npz z /\ proper_csr z)).
Proof.
  unfold net_site. repeat match goal with |- context [String.eqb u ?s] => destruct (String.eqb_spec u s) as [->|_]; [intros E; injection E as <-; split; [cbn; auto 8|eauto 7 using matrix_a_proper, matrix_b_proper]|] end. discriminate.
Qed.
Lemma net_apart u v : In u net_urls -> In v net_urls -> ~ clash toy_sha (file_request toy_ext u) (file_request toy_ext v).
Proof. intros I J [N E]. revert N E. unfold net_urls in *. repeat (destruct I as [<-|I]; [repeat (destruct J as [<-|J]; [intros N E; vm_compute in E; try discriminate E; exact (N eq_refl)|]); contradiction|]). contradiction. Qed.
Lemma net_load : load [] net_index = Ok [("w", toy_entry net_index)].
Proof. vm_compute. reflexivity. Qed.
Lemma net_out_request do : net_out do -> exists go, IndexSpec.request demo_out do ll_gi go /\ answers demo_py COMPARE_KEYS 10 (toy_entry net_index) ll_gi go "linear".
Proof. intros [->| ->]; eexists; (split; [split; vm_compute; reflexivity|split; [|split]; vm_compute; reflexivity]). Qed.
Lemma net_plain do : net_out do -> plain_dict do.
Proof.
  intros [->| ->].
  - split; [vm_compute; repeat (apply NoDup_cons; [cbn; intuition discriminate|]); apply NoDup_nil|]. intros k w. unfold ll_out. cbn [alookup]. destruct (String.eqb _ _); [intros Q; injection Q as <-; reflexivity|discriminate].
  - split; [vm_compute; repeat (apply NoDup_cons; [cbn; intuition discriminate|]); apply NoDup_nil|]. intros k w. let d := eval vm_compute in (gd ll_gs) in change (gd ll_gs) with d. cbn [alookup].
    repeat (destruct (String.eqb _ _); [intros Q; injection Q as <-; reflexivity|]). discriminate.
Qed.
Lemma net_served_to H u p : Forall net_kind H -> served_to ll_values ll_grid H u p -> net_site u = Ok p.
Proof. intros T (x & base & v & di & do & m & K & Q). destruct (net_asked H x base v di do m T K) as (-> & _). exact Q. Qed.
Lemma net_sound H : Forall net_kind H -> sound_calls page_parse page_gunzip toy_sha toy_ext demo_py COMPARE_KEYS 10 ll_values ll_grid H H.
Proof.
  intros T x base v di do m K. destruct (net_asked H x base v di do m T K) as (-> & U & -> & O & M). split; [exact (proj2 demo_plain)|]. split; [exact (net_plain do O)|].
  intros gi go [E1 E2]. destruct (net_out_request do O) as (go' & [R1 R2] & Y). rewrite R1 in E1. rewrite R2 in E2. apply ok_inj in E1, E2. subst gi go. intros i n e (base' & z & t & f & _ & FA & GZ & PA & LD) J.
  destruct FA as (w & _ & SV). apply (net_served_to H w z T) in SV. destruct (net_served w z SV) as (_ & [(v' & ->)|[(v' & ->)|(z' & -> & _)]]); cbn in GZ; try discriminate GZ. injection GZ as <-. cbn in PA. injection PA as <-.
  rewrite net_load in LD. apply ok_inj in LD. subst i. destruct J as [J|[]]. apply pair_equal_spec in J. destruct J as [<- <-]. destruct M as [->| ->]; [left; exact Y|right]. destruct Y as (Y & _). exists "linear". split; [exact Y|]. left. discriminate.
Qed.
Lemma net_proper H : Forall net_kind H -> proper_matrices page_npz (served_to ll_values ll_grid H).
Proof. intros T u b z SV LZ. apply (net_served_to H u b T) in SV. destruct (net_served u b SV) as (_ & [(v' & ->)|[(v' & ->)|(z' & -> & P)]]); cbn in LZ; try discriminate LZ. injection LZ as <-. exact P. Qed.
Lemma net_current i : current page_parse page_gunzip net_site "http://s" i -> i = [("w", toy_entry net_index)].
Proof. intros (z & t & f & E & GZ & PA & LD). cbn in E. injection E as <-. cbn in GZ. injection GZ as <-. cbn in PA. injection PA as <-. rewrite net_load in LD. apply ok_inj in LD. auto. Qed.
Lemma net_file u : its_file page_parse page_gunzip net_site "http://s" u -> In u net_urls.
Proof.
  intros [->|[->|(i & n & e & p & C & I & M & ->)]]; [left; reflexivity|right; left; reflexivity|]. apply net_current in C. subst i. destruct I as [I|[]]. apply pair_equal_spec in I. destruct I as [_ <-].
  assert (L : matrix_path (toy_entry net_index) = Ok "mir_16_linear/w.npz") by (vm_compute; reflexivity). rewrite L in M. apply ok_inj in M. subst p. right. right. left. reflexivity.
Qed.
(** The other inventory is asked, a new process starts, the inventory is asked, also for weights that
    it does not have. *)
Definition net_start : list net_call := [net_fields "http://tt" "linear"; PElse net_restart].
Definition net_rest : list net_call := [net_fields "http://s" "linear"; net_values "http://s" "nn"].
Definition net_all (d : net_call) : list net_call := net_start ++ net_rest ++ [d].
Lemma net_all_kind d : net_kind d -> Forall net_kind (net_all d).
Proof.
  intros K. repeat (apply Forall_cons; [first [exact K|right; reflexivity|left; do 2 eexists; split; [|split; [|first [left; reflexivity|right; reflexivity]]]; unfold net_url, net_method; auto]|]). apply Forall_nil.
Qed.
Lemma net_kinds m : net_method m -> net_kind (net_fields "http://s" m) /\ net_kind (net_values "http://s" m).
Proof. intros M. split; left; exists "http://s", m; unfold net_url; auto 6. Qed.
Notation net_cleared := (cleared 0 Z.add Z.mul page_parse page_gunzip page_digest page_sha page_npz page_weigh toy_sha "/c" None None true false toy_ext demo_py COMPARE_KEYS 10 (fun x : Z => x) demo_text).
Notation net_between := (known_between 0 Z.add Z.mul page_parse page_gunzip page_digest page_sha page_npz page_weigh toy_sha "/c" None None true false toy_ext demo_py COMPARE_KEYS 10 (fun x : Z => x) demo_text).
Example C103_met : forall d, net_kind d ->
  (forall b, 0 <= n_size (page_weigh b)) /\ fixed_length toy_sha /\ float_texts demo_text /\
  names page_parse page_gunzip toy_sha toy_ext (served_to ll_values ll_grid (net_all d)) (asked_from ll_values ll_grid (net_all d)) /\
  proper_matrices page_npz (served_to ll_values ll_grid (net_all d)) /\ net_cleared net_start /\ net_between (net_start ++ net_rest) /\
  sound_calls page_parse page_gunzip toy_sha toy_ext demo_py COMPARE_KEYS 10 ll_values ll_grid (net_all d) (net_all d) /\
  only_inventory "inventory" [("inventory", VStr "http://s")] (FromUrl "http://s") /\ located (FromUrl "http://s") "http://s" /\
  steady_at ll_values ll_grid net_site (net_all d) /\ apart_at ll_values ll_grid page_parse page_gunzip toy_sha toy_ext net_site (net_all d) "http://s" /\
  healthy page_parse page_gunzip page_digest net_site "http://s" /\ summed page_sha net_site "http://s" /\ askable page_parse page_gunzip net_site true (visit net_site) "http://s" /\
  settings_accepted 0 Z.add Z.mul page_parse page_gunzip page_digest page_sha page_npz page_weigh toy_sha "/c" true false toy_ext demo_py COMPARE_KEYS 10 (fun x : Z => x) demo_text
    ll_mir ll_grib ll_values ll_grid ll_with ll_message ll_of_message roomy (net_start ++ net_rest).
Proof.
  intros d K. pose proof (net_all_kind d K) as T.
  split; [intros b; cbn; lia|]. split; [exact toy_length|]. split; [exact demo_texts|]. split; [apply toy_names|]. split; [exact (net_proper _ T)|].
  split; [right; exists [net_fields "http://tt" "linear"], net_restart; split; [reflexivity|right; exists roomy; reflexivity]|].
  split. { intros f I. cbn in I. destruct I as [I|[I|[I|[I|[]]]]]; try discriminate I. injection I as <-. exists (RRestart roomy). split; [exact Logic.I|reflexivity]. }
  split; [exact (net_sound _ T)|]. split; [apply oi_some, net_names; left; reflexivity|]. split; [apply net_located; left; reflexivity|].
  split. { intros x base v di do m A u. destruct (net_asked _ x base v di do m T A) as (-> & _). reflexivity. }
  split. { split.
    - intros u v b F E. apply net_apart; [exact (net_file u F)|exact (proj1 (net_served v b E))].
    - intros base' (x & v & di & do & m & A) [N E]. destruct (net_asked _ x base' v di do m T A) as (_ & [->| ->] & _); [exact (N eq_refl)|vm_compute in E; discriminate E]. }
  split. { split; [exists [("w", toy_entry net_index)], (PackedIndex "1" net_index), (TextIndex "1" net_index), net_index; split; [reflexivity|]; split; [reflexivity|]; split; [reflexivity|apply net_load]|]. intros z t E GZ. cbn in E. injection E as <-. cbn in GZ. injection GZ as <-. exists "1". reflexivity. }
  split; [exists (Checksum "1"), "1"; auto|]. split; [right; intros u _; exists true; reflexivity|].
  split; [reflexivity|]. intros pre f post E. assert (I : In (PElse f) (net_start ++ net_rest)) by (rewrite E; apply in_or_app; right; left; reflexivity). cbn in I. destruct I as [I|[I|[I|[I|[]]]]]; try discriminate I. injection I as <-.
  exists (RRestart roomy). split; [exact Logic.I|]. split; reflexivity.
Qed.
Lemma net_only d base : net_kind d -> (forall u m, d = net_fields u m \/ d = net_values u m -> u = "http://s") -> base = "http://s" -> forall gi go m, only_at ll_values ll_grid base (net_rest ++ [d]) gi go m.
Proof.
  intros K D -> gi go m x base' v di do gi' go' (d' & I & db & L & A) _ _ _.
  assert (X : forall u m', net_url u -> d' = net_fields u m' \/ d' = net_values u m' -> base' = u).
  { intros u m' U E. assert (T : Forall net_kind []) by constructor. destruct E as [-> | ->]; inversion A; subst; match goal with P : picks _ _ _ |- _ => apply (net_picks u db U) in P; subst db end; inversion L; reflexivity. }
  cbn in I. destruct I as [<-|[<-|[<-|[]]]]; [apply (X "http://s" "linear"); unfold net_url; auto|apply (X "http://s" "nn"); unfold net_url; auto|].
  destruct K as [(u & m' & U & _ & E)| ->]; [|inversion A]. rewrite (X u m' U E). exact (D u m' E).
Qed.
(** What these calls give. *)
Example C103_fields_met : net_kind (net_fields "http://s" "linear") /\ is_regular_ll ll_gs = true /\
  (forall gi go, only_at ll_values ll_grid "http://s" (net_rest ++ [net_fields "http://s" "linear"]) gi go "linear") /\
  exists r r', snd (net_regrid (visit net_site) (DFields [ll_one; ll_two]) (Some ll_out) (VStr "linear") (VStr "precomputed") [("inventory", VStr "http://s")] (net_after (net_start ++ net_rest))) = Ok (DFields [r; r']) /\
    map (Regrid.item (fst r)) [[0%nat]; [1%nat]] = [7; 11] /\ map (Regrid.item (fst r')) [[0%nat]; [1%nat]] = [3; 4] /\ snd r = gd ll_gs.
Proof.
  split; [apply net_kinds; left; reflexivity|]. split; [vm_compute; reflexivity|].
  split. { intros gi go. apply net_only; [apply net_kinds; left; reflexivity| |reflexivity]. intros u m [E|E]; [injection E as <- <-; reflexivity|discriminate E]. }
  do 2 eexists. split; [vm_compute; reflexivity|]. split; [vm_compute; reflexivity|]. split; vm_compute; reflexivity.
Qed.
Example C103_array_met : net_kind (net_values "http://s" "linear") /\ IndexSpec.request demo_out ll_out ll_gi ll_gs /\
  (forall gi go, only_at ll_values ll_grid "http://s" (net_rest ++ [net_values "http://s" "linear"]) gi go "linear") /\
  weights_now page_parse page_gunzip page_npz demo_py COMPARE_KEYS 10 net_site "http://s" ll_gi ll_gs "linear" matrix_a (VList [VInt 2]) /\
  exists r, snd (net_array (visit net_site) demo_values (Some demo_out) (Some ll_out) (VStr "linear") (VStr "precomputed") [("inventory", VStr "http://s")] (net_after (net_start ++ net_rest))) = Ok (r, ll_out) /\
    map (Regrid.item r) [[0%nat]; [1%nat]] = [7; 11].
Proof.
  split; [apply net_kinds; left; reflexivity|]. split; [split; vm_compute; reflexivity|].
  split. { intros gi go. apply net_only; [apply net_kinds; left; reflexivity| |reflexivity]. intros u m [E|E]; [discriminate E|injection E as <- <-; reflexivity]. }
  split.
  - exists [("w", toy_entry net_index)], [], "w", (toy_entry net_index), [], "mir_16_linear/w.npz", (Npz matrix_a).
    split; [exists (PackedIndex "1" net_index), (TextIndex "1" net_index), net_index; split; [reflexivity|]; split; [reflexivity|]; split; [reflexivity|apply net_load]|]. split; [reflexivity|].
    split; [split; [|split]; vm_compute; reflexivity|]. split; [constructor|]. split; [vm_compute; reflexivity|]. split; [reflexivity|]. split; [reflexivity|vm_compute; reflexivity].
  - eexists. split; vm_compute; reflexivity.
Qed.
Example C103_refused_met : net_kind (net_values "http://s" "nn") /\
  (forall gi go, only_at ll_values ll_grid "http://s" (net_rest ++ [net_values "http://s" "nn"]) gi go "nn") /\
  nothing_now page_parse page_gunzip demo_py COMPARE_KEYS 10 net_site "http://s" ll_gi ll_gs "nn" /\
  snd (net_array (visit net_site) demo_values (Some demo_out) (Some ll_out) (VStr "nn") (VStr "precomputed") [("inventory", VStr "http://s")] (net_after (net_start ++ net_rest))) = Raise ValueError.
Proof.
  split; [apply net_kinds; right; reflexivity|].
  split. { intros gi go. apply net_only; [apply net_kinds; right; reflexivity| |reflexivity]. intros u m [E|E]; [discriminate E|injection E as <- <-; reflexivity]. }
  split; [|vm_compute; reflexivity]. exists [("w", toy_entry net_index)].
  split; [exists (PackedIndex "1" net_index), (TextIndex "1" net_index), net_index; split; [reflexivity|]; split; [reflexivity|]; split; [reflexivity|apply net_load]|].
  constructor; [|constructor]. exists "linear". split; [vm_compute; reflexivity|]. left. discriminate.
Qed.
(** Without a new process the weights of the other inventory are applied, although the server
    serves the same all the time. *)
Theorem C103_refuted : exists r r',
  snd (net_regrid (visit net_site) (DFields [ll_one; ll_two]) (Some ll_out) (VStr "linear") (VStr "precomputed") [("inventory", VStr "http://s")] (net_after [net_fields "http://tt" "linear"])) = Ok (DFields [r; r']) /\
  weights_now page_parse page_gunzip page_npz demo_py COMPARE_KEYS 10 net_site "http://s" ll_gi ll_gs "linear" matrix_a (VList [VInt 2]) /\
  ~ applies 0 Z.add Z.mul matrix_a [2%nat] demo_values (fst r) /\ applies 0 Z.add Z.mul matrix_b [2%nat] demo_values (fst r).
Proof.
  do 2 eexists. split; [vm_compute; reflexivity|]. split; [exact (proj1 (proj2 (proj2 (proj2 C103_array_met))))|]. split.
  - intros (_ & _ & _ & I). assert (V : valid [2%nat] [0%nat]) by (repeat constructor). specialize (I _ V). vm_compute in I. discriminate I.
  - split; [reflexivity|]. split; [reflexivity|]. split; [reflexivity|]. intros idx V. inversion V as [|? i ? r L V']; subst. inversion V'; subst. destruct i as [|[|i]]; [reflexivity|reflexivity|lia].
Qed.

Print Assumptions C103_trace.
Print Assumptions C103_array_origin.
Print Assumptions C103_array_partial.
Print Assumptions C103_fields_partial.
Print Assumptions C103_steady_array_partial.
Print Assumptions C103_steady_fields_partial.
Print Assumptions C103_answered_partial.
Print Assumptions C103_refused_partial.
Print Assumptions C103_refuted.
