(** C93: whole calls of [regrid] with precomputed weights of remote inventories. *)
From Verif Require Import PyBase ListLemmas PyStr Float64 GridSpec GridVocab GridProofs Index IndexSpec IndexProofs IndexProofs2
  Db MemCache MemCacheProofs MemCacheProofs2 Inventory Regrid RegridSpec RegridProofs Props_Regrid System SystemSpec SystemProofs Props_System
  Disk DiskSpec DiskProofs DiskProofs2 Props_Disk Key KeySpec KeyProofs Props_Key CacheFile Props_CacheFile Remote RemoteSpec RemoteProofs RemoteProofs2 RemoteProofs3 RemoteProofs4.
Set Default Proof Using "Type".
Local Open Scope string_scope.
Local Open Scope list_scope.
Local Open Scope Z_scope.

Lemma forall_last {T} (P : T -> Prop) H F o : Forall P H -> H = F ++ [o] -> Forall P F /\ P o.
Proof. intros X ->. apply Forall_app in X. destruct X as [X Y]. inversion Y; subst. auto. Qed.

Section Any.
  Context {A rest blob : Type}.
  Variables (zero : A) (add mul : A -> A -> A).
  Variable parse : blob -> result (file rest).
  Variable gunzip : blob -> result blob.
  Variable digest : blob -> result string.
  Variable read_sha : blob -> result string.
  Variable load_npz : blob -> result (csr A).
  Variable weigh : blob -> node.
  Variable sha : string -> string.
  Variable dir : string.
  Variables check fetch : bool.
  Variable ext_of : string -> string.
  Variables (py_str : val -> string) (key_order : list string) (fuel : nat).
  Variable memory_of : rest -> Z.
  Variable float_text : f64 -> string.
  Notation rop := (@rop A blob).
  Notation regrid_call := (fun limit usage => rsys_regrid parse gunzip digest read_sha load_npz weigh sha dir limit usage check fetch ext_of py_str key_order fuel zero add mul memory_of float_text).
  Notation rafter := (fun limit usage => Remote.rafter parse gunzip digest read_sha load_npz weigh sha dir limit usage check fetch ext_of py_str key_order fuel zero add mul memory_of float_text).
  Notation weights_from h := (weights_from parse gunzip load_npz sha ext_of py_str key_order fuel (served h) (asked h)).
  Notation names h := (names parse gunzip sha ext_of (served h) (asked h)).
  Notation sound_remote h := (sound_remote parse gunzip sha ext_of py_str key_order fuel (served h) (asked h)).
  Notation proper_matrices h := (proper_matrices load_npz (served h)).
  Notation apart := (@apart A rest blob parse gunzip sha ext_of).
  Notation weights_now := (weights_now parse gunzip load_npz py_str key_order fuel).
  Notation nothing_now := (nothing_now parse gunzip py_str key_order fuel).
  Implicit Types (h H : list rop) (values r : array A).

  Lemma all_served h : Forall (served_by (served h) (asked h)) h.
  Proof.
    apply Forall_forall. intros [x base values di do m|c| |c|e latest|p] I; try exact Logic.I. split.
    - intros u b E. exists x, base, values, di, do, m. auto.
    - exists x, values, di, do, m. exact I.
  Qed.

  (** Where the weights of an answered call come from: from the first answering entry of an index
      served for the inventory of this call, or of an earlier call for the same grids and method,
      and from a matrix served for that entry, unless the hash of another request collides. *)
  Theorem C93_origin limit usage c h0 h x base values di do m r g :
    (forall b, 0 <= n_size (weigh b)) -> fixed_length sha -> float_texts float_text ->
    forall H, H = h0 ++ h ++ [RCall x base values di do m] -> names H -> proper_matrices H -> Forall (sound_remote H) H -> forgotten_remote h0 ->
    snd (regrid_call limit usage x base values di do m (rafter limit usage c (h0 ++ h))) = Ok (r, g) ->
    g = do /\ exists gi go z sh n, IndexSpec.request di do gi go /\ is_shape sh n /\ applies zero add mul z n values r /\
      (collides_remote sha float_text h gi go m \/
       exists x' base' values' di' do' gi' go', In (RCall x' base' values' di' do' m) (h ++ [RCall x base values di do m]) /\
         IndexSpec.request di' do' gi' go' /\ same_spec gi gi' /\ same_spec go go' /\ weights_from H base' gi' go' m z sh).
  Proof.
    intros WP FL FT H EH NM PF SO FG R. pose proof (all_served H) as SV.
    set (F := h0 ++ h) in *. assert (EH' : H = F ++ [RCall x base values di do m]) by (unfold F; rewrite <- app_assoc; exact EH).
    destruct (forall_last _ H F _ SO EH') as [S1 SC]. destruct (forall_last _ H F _ SV EH') as [V1 VC].
    pose proof (after_remote parse gunzip digest read_sha load_npz weigh sha dir limit usage check fetch ext_of py_str key_order fuel (served H) (asked H) WP NM FL zero add mul memory_of float_text c h0 h FG V1 S1) as HS. fold F in HS.
    unfold rsys_regrid in R. destruct (db_find parse gunzip digest read_sha load_npz weigh sha dir limit usage check fetch ext_of py_str key_order fuel memory_of float_text x base di do m (rafter limit usage c F)) as [t' y] eqn:E. cbn [snd] in R.
    apply regrid_from_ok in R. destruct R as (z & sh & n & -> & SH & R). apply shape_spec in SH.
    destruct (rfind_spec parse gunzip digest read_sha load_npz weigh sha dir limit usage check fetch ext_of py_str key_order fuel (served H) (asked H) WP NM FL memory_of float_text h _ x base values di do m t' _ HS VC SC E) as (_ & K).
    destruct (K _ eq_refl) as (gi & go & RQ & x' & base' & values' & di' & do' & m' & gi' & go' & I & RQ' & KE & WF). cbn [fst snd] in WF.
    assert (P : proper_csr z). { destruct WF as (i & pre & nm & e & post & p & b & _ & _ & _ & _ & _ & (u & _ & SU) & LZ & _). exact (PF _ _ _ SU LZ). }
    destruct (regrid_applies zero add mul z n values do r g P R) as [-> AP]. split; [reflexivity|]. exists gi, go, z, sh, n. split; [exact RQ|]. split; [exact SH|]. split; [exact AP|].
    assert (SC' : sound_remote H (RCall x' base' values' di' do' m')). { rewrite Forall_forall in SO. apply SO. rewrite EH. apply in_or_app. right. exact I. }
    destruct SC as (P1 & P2 & _), SC' as (P3 & P4 & _).
    destruct (key_spec sha float_text FT di do di' do' gi go gi' go' m m' P1 P2 P3 P4 RQ RQ' (eq_sym KE)) as [(SI & SG & ->)|[NE CO]].
    - right. exists x', base', values', di', do', gi', go'. exact (conj I (conj RQ' (conj SI (conj SG WF)))).
    - left. exists x', base', values', di', do', m', gi', go'. split; [|exact (conj RQ' (conj NE CO))]. apply in_app_or in I. destruct I as [I|[I|[]]]; [exact I|].
      exfalso. injection I as <- <- <- <- <- <-. destruct RQ as [R1 R2], RQ' as [R3 R4]. apply NE. congruence.
  Qed.

  (** An answered call returns the given output grid, and the values with weights served for its
      inventory applied, if the same request went to no other inventory. *)
  Theorem C93_end_to_end_partial limit usage c h0 h x base values di do m r g :
    (forall b, 0 <= n_size (weigh b)) -> fixed_length sha -> float_texts float_text ->
    forall H, H = h0 ++ h ++ [RCall x base values di do m] -> names H -> proper_matrices H -> Forall (sound_remote H) H -> forgotten_remote h0 ->
    (forall gi go, IndexSpec.request di do gi go -> asked_only_remote base h gi go m) ->
    snd (regrid_call limit usage x base values di do m (rafter limit usage c (h0 ++ h))) = Ok (r, g) ->
    g = do /\ exists gi go, IndexSpec.request di do gi go /\
      (collides_remote sha float_text h gi go m \/
       exists z sh n, weights_from H base gi go m z sh /\ is_shape sh n /\ applies zero add mul z n values r).
  Proof.
    intros WP FL FT H EH NM PF SO FG AO R. destruct (C93_origin limit usage c h0 h x base values di do m r g WP FL FT H EH NM PF SO FG R) as (-> & gi & go & z & sh & n & RQ & SH & AP & [C|O]);
      (split; [reflexivity|]; exists gi, go; split; [exact RQ|]); [left; exact C|right]. exists z, sh, n. split; [|split; [exact SH|exact AP]].
    destruct O as (x' & base' & values' & di' & do' & gi' & go' & I & RQ' & SI & SG & WF).
    assert (base' = base) as ->. { apply in_app_or in I. destruct I as [I|[I|[]]]; [exact (AO gi go RQ x' base' values' di' do' gi' go' I RQ' SI SG)|]. injection I as <- <- <- <- <-. reflexivity. }
    refine (weights_from_same parse gunzip load_npz sha ext_of py_str key_order fuel (served H) (asked H) base gi' go' gi go m z sh _ _ WF).
    - exact (same_result_sym (Ok gi) (Ok gi') SI).
    - exact (same_result_sym (Ok go) (Ok go') SG).
  Qed.

  (** ** A server that serves the same all the time *)
  Variable G : string -> result blob.
  Lemma steady_served H u b : steady G H -> served H u b -> G u = Ok b.
  Proof. intros ST (x & base & values & di & do & m & I & E). rewrite <- (ST x base values di do m I u). exact E. Qed.
  Lemma served_steady H x base values di do m u b : steady G H -> In (RCall x base values di do m) H -> G u = Ok b -> served H u b.
  Proof. intros ST I E. exists x, base, values, di, do, m. split; [exact I|]. rewrite (ST x base values di do m I u). exact E. Qed.
  Lemma steady_weights H base gi go m z sh : steady G H -> apart G H base -> weights_from H base gi go m z sh -> weights_now G base gi go m z sh.
  Proof.
    intros ST AP (i & pre & n & e & post & p & b & IA & -> & Y & N & MP & FA & R). pose proof (fun u b => steady_served H u b ST) as SG.
    pose proof (its_index parse gunzip sha ext_of (served H) (asked H) G SG base _ AP IA) as CU.
    exists (pre ++ (n, e) :: post), pre, n, e, post, p, b. split; [exact CU|]. split; [reflexivity|]. split; [exact Y|]. split; [exact N|]. split; [exact MP|]. split; [|exact R].
    apply (its_own parse gunzip sha ext_of (served H) (asked H) G SG base _ b AP); [|exact FA]. right. right. exists (pre ++ (n, e) :: post), n, e, p. split; [exact CU|]. split; [apply in_or_app; right; left; reflexivity|auto].
  Qed.
  Lemma weights_now_one base gi go m z sh z' sh' : weights_now G base gi go m z sh -> weights_now G base gi go m z' sh' -> z = z' /\ sh = sh'.
  Proof.
    intros (i & pre & n & e & post & p & b & CU & -> & Y & N & MP & EB & LZ & SH) (i' & pre' & n' & e' & post' & p' & b' & CU' & E' & Y' & N' & MP' & EB' & LZ' & SH').
    pose proof (current_one parse gunzip G base _ _ CU CU') as EI. rewrite E' in EI.
    assert (F : first py_str key_order fuel (pre ++ (n, e) :: post) gi go (method_alias m) = Ok (Some e)) by (apply first_some; exists pre, n, post; auto).
    assert (F' : first py_str key_order fuel (pre' ++ (n', e') :: post') gi go (method_alias m) = Ok (Some e')) by (apply first_some; exists pre', n', post'; auto).
    rewrite EI, F' in F. injection F as <-. rewrite MP in MP'. injection MP' as <-. rewrite EB in EB'. injection EB' as <-. rewrite LZ in LZ'. injection LZ' as <-. rewrite SH in SH'. injection SH' as <-. auto.
  Qed.

  (** An answered call applies the weights on the server. *)
  Theorem C93_steady_partial limit usage c h0 h x base values di do m r g :
    (forall b, 0 <= n_size (weigh b)) -> fixed_length sha -> float_texts float_text ->
    forall H, H = h0 ++ h ++ [RCall x base values di do m] -> names H -> proper_matrices H -> Forall (sound_remote H) H -> forgotten_remote h0 ->
    steady G H -> apart G H base -> (forall gi go, IndexSpec.request di do gi go -> asked_only_remote base h gi go m) ->
    snd (regrid_call limit usage x base values di do m (rafter limit usage c (h0 ++ h))) = Ok (r, g) ->
    g = do /\ exists gi go, IndexSpec.request di do gi go /\
      (collides_remote sha float_text h gi go m \/
       exists z sh n, weights_now G base gi go m z sh /\ is_shape sh n /\ applies zero add mul z n values r).
  Proof.
    intros WP FL FT H EH NM PF SO FG ST AP AO R. destruct (C93_end_to_end_partial limit usage c h0 h x base values di do m r g WP FL FT H EH NM PF SO FG AO R) as (-> & gi & go & RQ & [C|(z & sh & n & WF & SH & APP)]);
      (split; [reflexivity|]; exists gi, go; split; [exact RQ|]); [left; exact C|right]. exists z, sh, n. split; [exact (steady_weights H base gi go m z sh ST AP WF)|auto].
  Qed.

  (** Without limits on the cache directory: if an entry of the inventory answers and the sizes
      agree, the call is answered. *)
  Theorem C93_answered_partial c h0 h x base values di do m gi go z sh n :
    (forall b, 0 <= n_size (weigh b)) -> fixed_length sha -> float_texts float_text ->
    forall H, H = h0 ++ h ++ [RCall x base values di do m] -> names H -> proper_matrices H -> Forall (sound_remote H) H -> forgotten_remote h0 ->
    steady G H -> apart G H base -> healthy parse gunzip digest G base -> askable parse gunzip G check x base -> accepted (fun pre => z_mem (rafter None None c pre)) c (h0 ++ h) ->
    IndexSpec.request di do gi go -> asked_only_remote base h gi go m ->
    weights_now G base gi go m z sh -> is_shape sh n -> prod (shape values) = n_cols z -> prod n = n_rows z ->
    (exists r, snd (regrid_call None None x base values di do m (rafter None None c (h0 ++ h))) = Ok (r, do) /\ applies zero add mul z n values r) \/
    (snd (regrid_call None None x base values di do m (rafter None None c (h0 ++ h))) = Raise WeightsTooLarge /\
     too_large_now parse gunzip py_str key_order fuel G memory_of base gi go m (z_mem (rafter None None c (h0 ++ h)))) \/
    collides_remote sha float_text h gi go m.
  Proof.
    intros WP FL FT H EH NM PF SO FG ST AP HL AK AC RQ AO WN SH E1 E2. pose proof (all_served H) as SV. pose proof (fun u b => steady_served H u b ST) as SG.
    assert (IN : In (RCall x base values di do m) H) by (rewrite EH; apply in_or_app; right; apply in_or_app; right; left; reflexivity).
    pose proof (fun u b => served_steady H x base values di do m u b ST IN) as GS.
    set (F := h0 ++ h) in *. assert (EH' : H = F ++ [RCall x base values di do m]) by (unfold F; rewrite <- app_assoc; exact EH).
    destruct (forall_last _ H F _ SO EH') as [S1 SC]. destruct (forall_last _ H F _ SV EH') as [V1 VC].
    assert (T1 : Forall (steady_op G) F). { apply Forall_forall. intros [x' base' values' di' do' m'|c0| |c0|e latest|p] I; try exact Logic.I. intros u. apply (ST x' base' values' di' do' m'). rewrite EH'. apply in_or_app. left. exact I. }
    pose proof (after_remote parse gunzip digest read_sha load_npz weigh sha dir None None check fetch ext_of py_str key_order fuel (served H) (asked H) WP NM FL zero add mul memory_of float_text c h0 h FG V1 S1) as HS. fold F in HS.
    pose proof (after_full parse gunzip digest read_sha load_npz weigh sha dir check fetch ext_of py_str key_order fuel (served H) (asked H) G WP NM FL SG GS zero add mul memory_of float_text base c F V1 S1 T1 AP HL) as RF.
    pose proof (accepted_ginv parse gunzip digest read_sha load_npz weigh sha dir check fetch ext_of py_str key_order fuel zero add mul memory_of float_text c F AC) as GV.
    unfold rsys_regrid. destruct (db_find parse gunzip digest read_sha load_npz weigh sha dir None None check fetch ext_of py_str key_order fuel memory_of float_text x base di do m (rafter None None c F)) as [t' y] eqn:E. cbn [snd].
    destruct (rfind_total parse gunzip digest read_sha load_npz weigh sha dir check fetch ext_of py_str key_order fuel (served H) (asked H) G WP NM FL SG GS memory_of float_text h _ x base values di do m t' y gi go HS RF VC SC (ST _ _ _ _ _ _ IN) AP HL RQ E) as [FA _].
    destruct (FA z sh WN AK GV) as [([z' sh'] & ->)|[-> TL]].
    2:{ right. left. split; [reflexivity|exact TL]. }
    destruct (rfind_spec parse gunzip digest read_sha load_npz weigh sha dir None None check fetch ext_of py_str key_order fuel (served H) (asked H) WP NM FL memory_of float_text h _ x base values di do m t' _ HS VC SC E) as (_ & K).
    destruct (K _ eq_refl) as (gi0 & go0 & RQ0 & x' & base' & values' & di' & do' & m' & gi' & go' & I & RQ' & KE & WF). cbn [fst snd] in WF.
    assert (gi0 = gi /\ go0 = go) as [-> ->]. { destruct RQ as [R1 R2], RQ0 as [R3 R4]. rewrite R1 in R3. rewrite R2 in R4. injection R3 as <-. injection R4 as <-. auto. }
    assert (SC' : sound_remote H (RCall x' base' values' di' do' m')). { rewrite Forall_forall in SO. apply SO. rewrite EH. apply in_or_app. right. exact I. }
    destruct SC as (P1 & P2 & _), SC' as (P3 & P4 & _).
    destruct (key_spec sha float_text FT di do di' do' gi go gi' go' m m' P1 P2 P3 P4 RQ RQ' (eq_sym KE)) as [(SI & SO' & <-)|[NE CO]].
    - left. assert (base' = base) as ->. { apply in_app_or in I. destruct I as [I|[I|[]]]; [exact (AO x' base' values' di' do' gi' go' I RQ' SI SO')|]. injection I as <- <- <- <- <-. reflexivity. }
      assert (WF2 : weights_now G base gi go m z' sh').
      { apply (steady_weights H); [exact ST|exact AP|]. refine (weights_from_same parse gunzip load_npz sha ext_of py_str key_order fuel (served H) (asked H) base gi' go' gi go m z' sh' _ _ WF); [exact (same_result_sym (Ok gi) (Ok gi') SI)|exact (same_result_sym (Ok go) (Ok go') SO')]. }
      destruct (weights_now_one base gi go m z sh z' sh' WN WF2) as [<- <-].
      assert (P : proper_csr z). { destruct WN as (i & pre & nm & e & post & p & b & _ & _ & _ & _ & _ & EB & LZ & _). exact (PF _ _ _ (GS _ _ EB) LZ). }
      destruct (C36_computed zero add mul z n values do P E1 E2) as (r & R & S & IT). exists r. split; [|exact (conj E1 (conj E2 (conj S IT)))].
      unfold regrid_from. unfold regrid in R. cbn [bind] in *. destruct (matmul zero add mul z (reshape_column zero values)); try discriminate R. cbn [bind] in *. apply shape_spec in SH. rewrite SH. exact R.
    - right. right. exists x', base', values', di', do', m', gi', go'. split; [|exact (conj RQ' (conj NE CO))]. apply in_app_or in I. destruct I as [I|[I|[]]]; [exact I|].
      exfalso. injection I as <- <- <- <- <- <-. destruct RQ as [R1 R2], RQ' as [R3 R4]. apply NE. congruence.
  Qed.

  (** If no entry answers, the call is refused with ValueError. *)
  Theorem C93_refused_partial c h0 h x base values di do m gi go :
    (forall b, 0 <= n_size (weigh b)) -> fixed_length sha -> float_texts float_text ->
    forall H, H = h0 ++ h ++ [RCall x base values di do m] -> names H -> Forall (sound_remote H) H -> forgotten_remote h0 ->
    steady G H -> apart G H base -> healthy parse gunzip digest G base -> summed read_sha G base ->
    IndexSpec.request di do gi go -> asked_only_remote base h gi go m -> nothing_now G base gi go m ->
    snd (regrid_call None None x base values di do m (rafter None None c (h0 ++ h))) = Raise ValueError \/ collides_remote sha float_text h gi go m.
  Proof.
    intros WP FL FT H EH NM SO FG ST AP HL SU RQ AO NN. pose proof (all_served H) as SV. pose proof (fun u b => steady_served H u b ST) as SG.
    assert (IN : In (RCall x base values di do m) H) by (rewrite EH; apply in_or_app; right; apply in_or_app; right; left; reflexivity).
    pose proof (fun u b => served_steady H x base values di do m u b ST IN) as GS.
    set (F := h0 ++ h) in *. assert (EH' : H = F ++ [RCall x base values di do m]) by (unfold F; rewrite <- app_assoc; exact EH).
    destruct (forall_last _ H F _ SO EH') as [S1 SC]. destruct (forall_last _ H F _ SV EH') as [V1 VC].
    assert (T1 : Forall (steady_op G) F). { apply Forall_forall. intros [x' base' values' di' do' m'|c0| |c0|e latest|p] I; try exact Logic.I. intros u. apply (ST x' base' values' di' do' m'). rewrite EH'. apply in_or_app. left. exact I. }
    pose proof (after_remote parse gunzip digest read_sha load_npz weigh sha dir None None check fetch ext_of py_str key_order fuel (served H) (asked H) WP NM FL zero add mul memory_of float_text c h0 h FG V1 S1) as HS. fold F in HS.
    pose proof (after_full parse gunzip digest read_sha load_npz weigh sha dir check fetch ext_of py_str key_order fuel (served H) (asked H) G WP NM FL SG GS zero add mul memory_of float_text base c F V1 S1 T1 AP HL) as RF.
    unfold rsys_regrid. destruct (db_find parse gunzip digest read_sha load_npz weigh sha dir None None check fetch ext_of py_str key_order fuel memory_of float_text x base di do m (rafter None None c F)) as [t' y] eqn:E. cbn [snd].
    destruct (rfind_total parse gunzip digest read_sha load_npz weigh sha dir check fetch ext_of py_str key_order fuel (served H) (asked H) G WP NM FL SG GS memory_of float_text h _ x base values di do m t' y gi go HS RF VC SC (ST _ _ _ _ _ _ IN) AP HL RQ E) as [_ Z].
    destruct (Z NN SU) as [->|([z' sh'] & ->)]; [left; reflexivity|right].
    destruct (rfind_spec parse gunzip digest read_sha load_npz weigh sha dir None None check fetch ext_of py_str key_order fuel (served H) (asked H) WP NM FL memory_of float_text h _ x base values di do m t' _ HS VC SC E) as (_ & K).
    destruct (K _ eq_refl) as (gi0 & go0 & RQ0 & x' & base' & values' & di' & do' & m' & gi' & go' & I & RQ' & KE & WF). cbn [fst snd] in WF.
    assert (gi0 = gi /\ go0 = go) as [-> ->]. { destruct RQ as [R1 R2], RQ0 as [R3 R4]. rewrite R1 in R3. rewrite R2 in R4. injection R3 as <-. injection R4 as <-. auto. }
    assert (SC' : sound_remote H (RCall x' base' values' di' do' m')). { rewrite Forall_forall in SO. apply SO. rewrite EH. apply in_or_app. right. exact I. }
    destruct SC as (P1 & P2 & _), SC' as (P3 & P4 & _).
    destruct (key_spec sha float_text FT di do di' do' gi go gi' go' m m' P1 P2 P3 P4 RQ RQ' (eq_sym KE)) as [(SI & SO' & <-)|[NE CO]].
    - exfalso. assert (base' = base) as ->. { apply in_app_or in I. destruct I as [I|[I|[]]]; [exact (AO x' base' values' di' do' gi' go' I RQ' SI SO')|]. injection I as <- <- <- <- <-. reflexivity. }
      assert (WF2 : weights_now G base gi go m z' sh').
      { apply (steady_weights H); [exact ST|exact AP|]. refine (weights_from_same parse gunzip load_npz sha ext_of py_str key_order fuel (served H) (asked H) base gi' go' gi go m z' sh' _ _ WF); [exact (same_result_sym (Ok gi) (Ok gi') SI)|exact (same_result_sym (Ok go) (Ok go') SO')]. }
      destruct WF2 as (i & pre & n & e & post & p & b & CU & -> & Y & N & _). destruct NN as (i' & CU' & NN). pose proof (current_one parse gunzip G base _ _ CU CU') as EI. subst i'.
      assert (F1 : first py_str key_order fuel (pre ++ (n, e) :: post) gi go (method_alias m) = Ok (Some e)) by (apply first_some; exists pre, n, post; auto).
      assert (F2 : first py_str key_order fuel (pre ++ (n, e) :: post) gi go (method_alias m) = Ok None) by (apply first_none; exact NN). rewrite F1 in F2. discriminate F2.
    - exists x', base', values', di', do', m', gi', go'. split; [|exact (conj RQ' (conj NE CO))]. apply in_app_or in I. destruct I as [I|[I|[]]]; [exact I|].
      exfalso. injection I as <- <- <- <- <- <-. destruct RQ as [R1 R2], RQ' as [R3 R4]. apply NE. congruence.
  Qed.
End Any.

(** With check-out-of-date-urls and download-out-of-date-urls set, a server that tells which files
    changed and an empty memory cache: the matrix is the current one. *)
Theorem C93_fresh_partial {A rest blob} zero add mul parse gunzip digest read_sha load_npz weigh sha dir limit usage ext_of py_str key_order fuel memory_of float_text
    c h x base values di do m r g :
  (forall b, 0 <= n_size (weigh b)) -> fixed_length sha ->
  forall H : list (@rop A blob), H = h ++ [RCall x base values di do m] -> names (rest := rest) parse gunzip sha ext_of (served H) (asked H) -> proper_matrices load_npz (served H) ->
  Forall (sound_remote parse gunzip sha ext_of py_str key_order fuel (served H) (asked H)) H -> forgotten_remote h -> tells sha ext_of (served H) dir x ->
  snd (rsys_regrid parse gunzip digest read_sha load_npz weigh sha dir limit usage true true ext_of py_str key_order fuel zero add mul memory_of float_text x base values di do m
        (rafter parse gunzip digest read_sha load_npz weigh sha dir limit usage true true ext_of py_str key_order fuel zero add mul memory_of float_text c h)) = Ok (r, g) ->
  g = do /\ exists gi go z sh n, IndexSpec.request di do gi go /\ is_shape sh n /\ applies zero add mul z n values r /\
    weights_fresh parse gunzip load_npz sha ext_of py_str key_order fuel (served H) (asked H) x base gi go m z sh.
Proof.
  intros WP FL H EH NM PF SO FG TL R. pose proof (all_served H) as SV.
  destruct (forall_last _ H h _ SO EH) as [S1 SC]. destruct (forall_last _ H h _ SV EH) as [V1 VC].
  pose proof (after_remote parse gunzip digest read_sha load_npz weigh sha dir limit usage true true ext_of py_str key_order fuel (served H) (asked H) WP NM FL zero add mul memory_of float_text c h [] FG) as HS.
  rewrite app_nil_r in HS. destruct (HS V1 S1) as (HI & HG & HD & HK). clear HS.
  unfold rsys_regrid, db_find in R. destruct (from_dict di) as [gi|e|] eqn:GI; cbn [bind] in R; [|discriminate R..]. destruct (from_dict do) as [go|e|] eqn:GO; cbn [bind] in R; [|discriminate R..].
  set (t := rafter parse gunzip digest read_sha load_npz weigh sha dir limit usage true true ext_of py_str key_order fuel zero add mul memory_of float_text c h) in *.
  set (s0 := mkR (z_world t) (db_of base t)) in *. match type of R with context [MemCache.get ?a ?b ?d ?e ?f ?g] => destruct (MemCache.get a b d e f g) as [[mem calls] y] eqn:GE end.
  assert (RF : regrid_from zero add mul y values do = Ok (r, g)) by (destruct calls; exact R). clear R.
  apply regrid_from_ok in RF. destruct RF as (z & sh & n & -> & SH & R). apply shape_spec in SH.
  destruct VC as [SX BX], SC as ((N & _) & (N' & _) & CO). assert (RQ : IndexSpec.request di do gi go) by (split; assumption).
  set (fresh := weights_fresh parse gunzip load_npz sha ext_of py_str key_order fuel (served H) (asked H) x base gi go m).
  assert (KE : kept (weights A) (fun _ w => fresh (fst w) (snd w)) (z_mem t)). { intros k it I. destruct (HK k it I) as (? & ? & ? & ? & ? & ? & ? & ? & [] & _). }
  destruct (get_kept mreq (entry rest) (weights A) _ _ _ size_nonneg (fun _ w => fresh (fst w) (snd w)) _ (gi, go, m) (z_mem t) mem calls _
    (fun w E => lookup_fresh parse gunzip digest read_sha load_npz weigh sha dir limit usage ext_of py_str key_order fuel (served H) (asked H) WP NM FL x base s0 gi go m di do w BX SX (conj HG (HD base)) RQ N N' (CO gi go RQ) TL E) HI KE GE) as (_ & K & _).
  specialize (K _ eq_refl). cbn [fst snd] in K.
  assert (P : proper_csr z). { destruct K as (i & pre & nm & e & post & p & b & _ & _ & _ & _ & _ & SG & LZ & _). exact (PF _ _ _ (SX _ _ SG) LZ). }
  destruct (regrid_applies zero add mul z n values do r g P R) as [-> AP]. split; [reflexivity|]. exists gi, go, z, sh, n. auto.
Qed.

(** ** A small server *)
Inductive page := PackedIndex (v : string) (f : file Z) | TextIndex (v : string) (f : file Z) | Checksum (v : string) | Npz (z : csr Z).
Definition page_parse (p : page) : result (file Z) := match p with TextIndex _ f => Ok f | _ => Raise ValueError end.
Definition page_gunzip (p : page) : result page := match p with PackedIndex v f => Ok (TextIndex v f) | _ => Raise ValueError end.
Definition page_digest (p : page) : result string := match p with TextIndex v _ => Ok v | _ => Raise ValueError end.
Definition page_sha (p : page) : result string := match p with Checksum v => Ok v | _ => Raise ValueError end.
Definition page_npz (p : page) : result (csr Z) := match p with Npz z => Ok z | _ => Raise ValueError end.
Definition page_weigh (_ : page) : node := mkNode 1 false.
Definition toy_sha (s : string) : string := String (ascii_of_nat (97 + String.length s mod 26)) "".
Definition toy_ext (_ : string) : string := ".bin".
Definition site (v : string) (f : file Z) (z : csr Z) (u : string) : result page :=
  if String.eqb u "s/index.json.gz" then Ok (PackedIndex v f)
  else if String.eqb u "s/index.json.sha256" then Ok (Checksum v)
  else if String.eqb u "s/mir_16_linear/w.npz" then Ok (Npz z)
  else Raise (UserError 404).
Definition calm_around (_ : string) : around := let e := mkEnv 100 (fun _ => false) (fun _ => false) 0 1000 in mkAround 100 e 100 e.
(** The server tells that every file changed. *)
Definition visit (get : string -> result page) : @meets page := mkMeets (mkServer get (fun _ => None) (fun _ => Ok true) (fun _ => JNull)) calm_around.
Definition visit_call (get : string -> result page) (m : string) : @rop Z page := RCall (visit get) "s" demo_values demo_in demo_out m.
Definition roomy : mconf := mkConf (Some 1000000) false "largest".
(** The default settings about stale files: to ask, and not to fetch. *)
Notation toy_regrid := (rsys_regrid page_parse page_gunzip page_digest page_sha page_npz page_weigh toy_sha "/c" None None true false toy_ext demo_py COMPARE_KEYS 10 0 Z.add Z.mul (fun x : Z => x) demo_text).
Notation toy_after := (rafter page_parse page_gunzip page_digest page_sha page_npz page_weigh toy_sha "/c" None None true false toy_ext demo_py COMPARE_KEYS 10 0 Z.add Z.mul (fun x : Z => x) demo_text).
Notation toy_now := (weights_now page_parse page_gunzip page_npz demo_py COMPARE_KEYS 10).
Definition demo_raw2 : raw Z := mkRaw (Some demo_in) (Some [("grid", VStr "O32"); ("shape", VList [VInt 1; VInt 2])]) (Some demo_inter) 48.
Definition demo_index2 : file Z := mkFile (Some 1) (Some [("w", demo_raw2)]).
Definition toy_op (o : @rop Z page) : Prop :=
  match o with
  | RCall x base values di do m => exists v f z, x = visit (site v f z) /\ base = "s" /\ di = demo_in /\ do = demo_out /\ (m = "linear" \/ m = "nn") /\ (f = demo_index \/ f = demo_index2) /\ proper_csr z
  | _ => True
  end.
Lemma toy_served H u p : Forall toy_op H -> served H u p ->
  (u = "s/index.json.gz" /\ exists v f, p = PackedIndex v f /\ (f = demo_index \/ f = demo_index2)) \/
  (u = "s/index.json.sha256" /\ exists v, p = Checksum v) \/ (u = "s/mir_16_linear/w.npz" /\ exists z, p = Npz z /\ proper_csr z).
Proof.
  intros T (x & base & values & di & do & m & I & E). rewrite Forall_forall in T. destruct (T _ I) as (v & f & z & -> & _ & _ & _ & _ & F & P). cbn in E. unfold site in E.
  destruct (String.eqb_spec u "s/index.json.gz"); [injection E as <-; eauto 6|]. destruct (String.eqb_spec u "s/index.json.sha256"); [injection E as <-; eauto 6|].
  destruct (String.eqb_spec u "s/mir_16_linear/w.npz"); [injection E as <-; eauto 7|]. discriminate E.
Qed.
Lemma toy_asked H base : Forall toy_op H -> asked H base -> base = "s".
Proof. intros T (x & values & di & do & m & I). rewrite Forall_forall in T. destruct (T _ I) as (v & f & z & _ & E & _). exact E. Qed.
Lemma toy_length : fixed_length toy_sha.
Proof. intros a b. reflexivity. Qed.
Lemma tmp_end (a s t : string) : String.length t = 4%nat -> t <> ".tmp" -> (a ++ t)%string <> (s ++ ".tmp")%string.
Proof.
  intros L N H. apply N. assert (LA : String.length a = String.length s). { apply (f_equal String.length) in H. rewrite !slength_app, L in H. cbn in H. lia. }
  exact (proj2 (sapp_same_length a s t ".tmp" LA H)).
Qed.
Lemma toy_names parse gunzip S B : names (rest := Z) (blob := page) parse gunzip toy_sha toy_ext S B.
Proof.
  assert (X : forall q : request, (exists u, q = file_request toy_ext u) \/ (exists b, q = unpacked b) -> exists n, (n < 26)%nat /\
    (key_name toy_sha q = ("url-" ++ String (ascii_of_nat (97 + n)) ".bin")%string \/ key_name toy_sha q = ("regrid-" ++ String (ascii_of_nat (97 + n)) ".cache")%string)).
  { intros q [(u & E)|(b & E)]; exists (String.length (key_text q) mod 26)%nat; (split; [apply Nat.mod_upper_bound; lia|]); [left|right]; rewrite E; reflexivity. }
  intros q O. destruct (X q) as (n & L & K). { destruct O as [(u & _ & ->)|(b & _ & ->)]; eauto. }
  assert (Y : forall s, key_name toy_sha q <> (s ++ ".tmp")%string).
  { intros s. destruct K as [-> | ->].
    - change ("url-" ++ String (ascii_of_nat (97 + n)) ".bin")%string with (("url-" ++ String (ascii_of_nat (97 + n)) "") ++ ".bin")%string. apply tmp_end; [reflexivity|discriminate].
    - change ("regrid-" ++ String (ascii_of_nat (97 + n)) ".cache")%string with (("regrid-" ++ String (ascii_of_nat (97 + n)) ".c") ++ "ache")%string. apply tmp_end; [reflexivity|discriminate]. }
  split; [|exact Y]. destruct K as [-> | ->]; clear - L; do 26 (destruct n as [|n]; [reflexivity|]); lia.
Qed.
Lemma toy_apart u v : In u ["s/index.json.gz"; "s/index.json.sha256"; "s/mir_16_linear/w.npz"] -> In v ["s/index.json.gz"; "s/index.json.sha256"; "s/mir_16_linear/w.npz"] ->
  ~ clash toy_sha (file_request toy_ext u) (file_request toy_ext v).
Proof. intros I J [N E]. revert N E. repeat (destruct I as [<-|I]; [repeat (destruct J as [<-|J]; [intros N E; vm_compute in E; try discriminate E; exact (N eq_refl)|]); contradiction|]). contradiction. Qed.
Lemma toy_index H i : Forall toy_op H -> index_at page_parse page_gunzip toy_sha toy_ext (served H) (asked H) "s" i -> load [] demo_index = Ok i \/ load [] demo_index2 = Ok i.
Proof.
  intros T (base' & z & t & f & C & FA & GZ & PA & LD). assert (base' = "s") as ->. { destruct C as [E|[AS _]]; [exact E|exact (toy_asked H base' T AS)]. }
  destruct FA as (v & CL & SV). destruct (toy_served H v z T SV) as [(-> & w & f' & -> & F)|[(-> & w & ->)|(-> & m & -> & _)]]; cbn in GZ; try discriminate GZ. injection GZ as <-. cbn in PA. injection PA as <-.
  destruct F as [-> | ->]; auto.
Qed.
Definition toy_entry (f : file Z) : entry Z := match load [] f with Ok ((_, e) :: _) => e | _ => mkEntry demo_gi demo_go "" (mkRaw None None None 0) end.
Lemma toy_load f : f = demo_index \/ f = demo_index2 -> load [] f = Ok [("w", toy_entry f)] /\ answers demo_py COMPARE_KEYS 10 (toy_entry f) demo_gi demo_go "linear" /\ matrix_path (toy_entry f) = Ok "mir_16_linear/w.npz".
Proof. intros [->| ->]; (split; [vm_compute; reflexivity|]; split; [split; [|split]; vm_compute; reflexivity|vm_compute; reflexivity]). Qed.
Lemma toy_not f : f = demo_index \/ f = demo_index2 -> does_not_answer demo_py COMPARE_KEYS 10 (toy_entry f) demo_gi demo_go (method_alias "nn").
Proof. intros F. destruct (toy_load f F) as (_ & (Y & _) & _). exists "linear". split; [exact Y|]. left. discriminate. Qed.
Lemma toy_sound H : Forall toy_op H -> Forall (sound_remote page_parse page_gunzip toy_sha toy_ext demo_py COMPARE_KEYS 10 (served H) (asked H)) H.
Proof.
  intros T. apply Forall_forall. intros o I. pose proof T as T'. rewrite Forall_forall in T'. specialize (T' o I). destruct o as [x base values di do m|c| |c|e latest|p]; try exact Logic.I.
  destruct T' as (v & f & z & -> & -> & -> & -> & M & _ & _). destruct demo_plain as [P1 P2]. split; [exact P1|]. split; [exact P2|].
  intros gi go [E1 E2]. destruct demo_request as [R1 R2]. rewrite R1 in E1. rewrite R2 in E2. apply ok_inj in E1, E2. subst gi go. intros i n e IA J.
  assert (X : exists f, (f = demo_index \/ f = demo_index2) /\ load [] f = Ok i) by (destruct (toy_index H i T IA) as [L|L]; eauto). destruct X as (f' & F & L).
  destruct (toy_load f' F) as (L' & Y & _). rewrite L' in L. injection L as <-. destruct J as [J|[]]. injection J as <- <-. destruct M as [->| ->]; [left; exact Y|right; exact (toy_not f' F)].
Qed.
Lemma toy_proper H : Forall toy_op H -> proper_matrices page_npz (served H).
Proof. intros T u b z SV LZ. destruct (toy_served H u b T SV) as [(_ & w & f' & -> & _)|[(_ & w & ->)|(_ & m & -> & P)]]; cbn in LZ; try discriminate LZ. injection LZ as <-. exact P. Qed.
Lemma toy_weights v f z sh : f = demo_index \/ f = demo_index2 -> alookup "shape" (gd (e_output (toy_entry f))) = Some sh -> toy_now (site v f z) "s" demo_gi demo_go "linear" z sh.
Proof.
  intros F SH. destruct (toy_load f F) as (L & Y & M). exists [("w", toy_entry f)], [], "w", (toy_entry f), [], "mir_16_linear/w.npz", (Npz z).
  split; [exists (PackedIndex v f), (TextIndex v f), f; auto|]. split; [reflexivity|]. split; [exact Y|]. split; [constructor|]. split; [exact M|]. split; [reflexivity|]. split; [reflexivity|exact SH].
Qed.
Lemma matrix_a_proper : proper_csr matrix_a.
Proof. split; cbn; [reflexivity|reflexivity| |reflexivity|reflexivity|repeat constructor]. intros [|[|i]] L; cbn; lia. Qed.
Lemma matrix_b_proper : proper_csr matrix_b.
Proof. split; cbn; [reflexivity|reflexivity| |reflexivity|reflexivity|repeat constructor]. intros [|[|i]] L; cbn; lia. Qed.
Lemma toy_visit v f z m : f = demo_index \/ f = demo_index2 -> m = "linear" \/ m = "nn" -> proper_csr z -> toy_op (visit_call (site v f z) m).
Proof. intros F M P. exists v, f, z. auto 8. Qed.

(** The server has another matrix and tells so; the call applies the old one all the same (with the
    default settings, in a new process). *)
Definition old_site := site "1" demo_index matrix_a.
Definition new_site := site "1" demo_index matrix_b.
Theorem C93_refuted : exists r,
  snd (toy_regrid (visit new_site) "s" demo_values demo_in demo_out "linear" (toy_after roomy [visit_call old_site "linear"; RRestart roomy])) = Ok (r, demo_out) /\
  Forall toy_op [visit_call old_site "linear"; RRestart roomy; visit_call new_site "linear"] /\
  toy_now new_site "s" demo_gi demo_go "linear" matrix_b (VList [VInt 2]) /\ sv_stale (m_server (visit new_site)) "s/mir_16_linear/w.npz" = Ok true /\
  applies 0 Z.add Z.mul matrix_a [2%nat] demo_values r /\ ~ applies 0 Z.add Z.mul matrix_b [2%nat] demo_values r.
Proof.
  eexists. split; [vm_compute; reflexivity|]. split; [repeat (apply Forall_cons; [try exact I; apply toy_visit; auto using matrix_a_proper, matrix_b_proper|]); apply Forall_nil|].
  split; [apply toy_weights; [auto|vm_compute; reflexivity]|]. split; [reflexivity|]. split.
  - split; [reflexivity|]. split; [reflexivity|]. split; [reflexivity|]. intros idx V. inversion V as [|? i ? r L V']; subst. inversion V'; subst. destruct i as [|[|i]]; [reflexivity|reflexivity|lia].
  - intros (_ & _ & _ & E). assert (V : valid [2%nat] [0%nat]) by (repeat constructor). specialize (E _ V). vm_compute in E. discriminate E.
Qed.
(** The server changed both the index and the matrix; a request that no entry answered made the
    index be read again: the next call takes the new shape and the old matrix, which were never on
    the server together. *)
Definition newer_site := site "2" demo_index2 matrix_b.
Theorem C93_mixed_refuted : exists r,
  snd (toy_regrid (visit newer_site) "s" demo_values demo_in demo_out "linear"
        (toy_after roomy [visit_call old_site "linear"; RRestart roomy; visit_call newer_site "nn"])) = Ok (r, demo_out) /\
  Forall toy_op [visit_call old_site "linear"; RRestart roomy; visit_call newer_site "nn"; visit_call newer_site "linear"] /\
  toy_now old_site "s" demo_gi demo_go "linear" matrix_a (VList [VInt 2]) /\ toy_now newer_site "s" demo_gi demo_go "linear" matrix_b (VList [VInt 1; VInt 2]) /\
  ~ applies 0 Z.add Z.mul matrix_a [2%nat] demo_values r /\ ~ applies 0 Z.add Z.mul matrix_b [1%nat; 2%nat] demo_values r /\ applies 0 Z.add Z.mul matrix_a [1%nat; 2%nat] demo_values r.
Proof.
  eexists. split; [vm_compute; reflexivity|]. split; [repeat (apply Forall_cons; [try exact I; apply toy_visit; auto using matrix_a_proper, matrix_b_proper|]); apply Forall_nil|].
  split; [apply toy_weights; [auto|vm_compute; reflexivity]|]. split; [apply toy_weights; [auto|vm_compute; reflexivity]|]. split; [|split].
  - intros (_ & _ & E & _). cbn [shape] in E. discriminate E.
  - intros (_ & _ & _ & E). assert (V : valid [1%nat; 2%nat] [0%nat; 0%nat]) by (repeat constructor). specialize (E _ V). vm_compute in E. discriminate E.
  - split; [reflexivity|]. split; [reflexivity|]. split; [reflexivity|]. intros idx V. inversion V as [|? i ? r L V']; subst. inversion V' as [|? j ? r' L' V'']; subst. inversion V''; subst. destruct i as [|i]; [|lia]. destruct j as [|[|j]]; [reflexivity|reflexivity|lia].
Qed.

(** The hypotheses of the theorems are met. *)
Definition steady_start : list (@rop Z page) := [visit_call old_site "linear"; RRestart roomy].
Definition steady_rest : list (@rop Z page) := [visit_call old_site "linear"; visit_call old_site "nn"].
Definition steady_all : list (@rop Z page) := steady_start ++ steady_rest ++ [visit_call old_site "linear"].
Lemma steady_toy : Forall toy_op steady_all.
Proof. repeat (apply Forall_cons; [try exact I; apply toy_visit; auto using matrix_a_proper|]). apply Forall_nil. Qed.
Lemma steady_current i : current page_parse page_gunzip old_site "s" i -> i = [("w", toy_entry demo_index)].
Proof. intros (z & t & f & E & GZ & PA & LD). cbn in E. injection E as <-. cbn in GZ. injection GZ as <-. cbn in PA. injection PA as <-. destruct (toy_load demo_index (or_introl eq_refl)) as (L & _). rewrite L in LD. injection LD as <-. reflexivity. Qed.
Lemma steady_file u : its_file page_parse page_gunzip old_site "s" u -> In u ["s/index.json.gz"; "s/index.json.sha256"; "s/mir_16_linear/w.npz"].
Proof.
  intros [->|[->|(i & n & e & p & C & I & M & ->)]]; [left; reflexivity|right; left; reflexivity|]. apply steady_current in C. subst i. destruct I as [I|[]]. apply pair_equal_spec in I. destruct I as [_ <-].
  destruct (toy_load demo_index (or_introl eq_refl)) as (_ & _ & L). rewrite L in M. injection M as <-. right. right. left. reflexivity.
Qed.
Example C93_met :
  (forall b, 0 <= n_size (page_weigh b)) /\ fixed_length toy_sha /\ float_texts demo_text /\ names page_parse page_gunzip toy_sha toy_ext (served steady_all) (asked steady_all) /\
  proper_matrices page_npz (served steady_all) /\ Forall (sound_remote page_parse page_gunzip toy_sha toy_ext demo_py COMPARE_KEYS 10 (served steady_all) (asked steady_all)) steady_all /\
  forgotten_remote steady_start /\ steady old_site steady_all /\ apart page_parse page_gunzip toy_sha toy_ext old_site steady_all "s" /\
  healthy page_parse page_gunzip page_digest old_site "s" /\ summed page_sha old_site "s" /\ askable page_parse page_gunzip old_site true (visit old_site) "s" /\
  accepted (fun pre => z_mem (toy_after roomy pre)) roomy (steady_start ++ steady_rest) /\
  IndexSpec.request demo_in demo_out demo_gi demo_go /\ asked_only_remote "s" steady_rest demo_gi demo_go "linear" /\
  toy_now old_site "s" demo_gi demo_go "linear" matrix_a (VList [VInt 2]) /\ nothing_now page_parse page_gunzip demo_py COMPARE_KEYS 10 old_site "s" demo_gi demo_go "nn" /\
  exists r, snd (toy_regrid (visit old_site) "s" demo_values demo_in demo_out "linear" (toy_after roomy (steady_start ++ steady_rest))) = Ok (r, demo_out).
Proof.
  pose proof steady_toy as T. destruct (toy_load demo_index (or_introl eq_refl)) as (L & _).
  assert (CU : current page_parse page_gunzip old_site "s" [("w", toy_entry demo_index)]) by (exists (PackedIndex "1" demo_index), (TextIndex "1" demo_index), demo_index; auto).
  split; [intros b; cbn; lia|]. split; [exact toy_length|]. split; [exact demo_texts|]. split; [apply toy_names|]. split; [exact (toy_proper _ T)|]. split; [exact (toy_sound _ T)|].
  split; [right; right; exists [visit_call old_site "linear"], roomy; reflexivity|].
  split. { intros x base values di do m I u. cbn in I. repeat (destruct I as [I|I]; [try discriminate I; injection I as <- <- <- <- <- <-; reflexivity|]). contradiction. }
  split. { split.
    - intros u v b F E. apply toy_apart; [exact (steady_file u F)|]. assert (S : served steady_all v b) by (exists (visit old_site), "s", demo_values, demo_in, demo_out, "linear"; split; [left; reflexivity|exact E]).
      destruct (toy_served _ v b T S) as [(-> & _)|[(-> & _)|(-> & _)]]; cbn; auto.
    - intros base' AS [N _]. rewrite (toy_asked _ base' T AS) in N. exact (N eq_refl). }
  split. { split; [eauto|]. intros z t E GZ. cbn in E. injection E as <-. cbn in GZ. injection GZ as <-. exists "1". reflexivity. }
  split; [exists (Checksum "1"), "1"; auto|]. split; [right; intros u _; exists true; reflexivity|].
  split. { split; [reflexivity|]. split; [|intros c' I; cbn in I; repeat (destruct I as [I|I]; [try discriminate I; injection I as <-; reflexivity|]); contradiction].
    intros pre c' post E. exfalso. assert (I : In (RConfigure c') (steady_start ++ steady_rest)) by (rewrite E; apply in_or_app; right; left; reflexivity). cbn in I. repeat (destruct I as [I|I]; [discriminate I|]). contradiction. }
  split; [exact demo_request|]. split. { intros x base' values di do gi go I _ _ _. cbn in I. repeat (destruct I as [I|I]; [injection I as _ <- _ _ _; reflexivity|]). contradiction. }
  split; [apply toy_weights; [auto|vm_compute; reflexivity]|]. split. { exists [("w", toy_entry demo_index)]. split; [exact CU|]. constructor; [exact (toy_not demo_index (or_introl eq_refl))|constructor]. }
  eexists. vm_compute. reflexivity.
Qed.
(** Both settings on: the new matrix is applied; its server tells that every file changed. *)
Example C93_fresh_met :
  tells toy_sha toy_ext (served [visit_call old_site "linear"; RRestart roomy; visit_call new_site "linear"]) "/c" (visit new_site) /\
  exists r, snd (rsys_regrid page_parse page_gunzip page_digest page_sha page_npz page_weigh toy_sha "/c" None None true true toy_ext demo_py COMPARE_KEYS 10 0 Z.add Z.mul (fun x : Z => x) demo_text
      (visit new_site) "s" demo_values demo_in demo_out "linear"
      (rafter page_parse page_gunzip page_digest page_sha page_npz page_weigh toy_sha "/c" None None true true toy_ext demo_py COMPARE_KEYS 10 0 Z.add Z.mul (fun x : Z => x) demo_text
        roomy [visit_call old_site "linear"; RRestart roomy])) = Ok (r, demo_out) /\
    Regrid.item r [0%nat] = 21.
Proof. split; [intros u; split; [intros b _; right; reflexivity|reflexivity]|]. eexists. split; vm_compute; reflexivity. Qed.

Print Assumptions C93_fresh_partial.
Print Assumptions C93_origin.
Print Assumptions C93_end_to_end_partial.
Print Assumptions C93_steady_partial.
Print Assumptions C93_answered_partial.
Print Assumptions C93_refused_partial.
Print Assumptions C93_refuted.
Print Assumptions C93_mixed_refuted.
