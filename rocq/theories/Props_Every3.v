(** C106: the public functions with local and remote inventories in one process, what these have not
    changing and the disk cache without limits: what is there is answered with, and what is not there
    is refused. *)
From Verif Require Import PyBase ListLemmas PyStr Float64 GridSpec GridVocab GridProofs Index IndexSpec IndexProofs IndexProofs2
  Db MemCache MemCacheProofs MemCacheProofs2 Inventory Regrid RegridSpec RegridProofs Props_Regrid System SystemSpec SystemProofs Props_System
  Disk DiskSpec DiskProofs DiskProofs2 Props_Disk Key KeySpec KeyProofs Props_Key CacheFile Props_CacheFile Remote RemoteSpec RemoteProofs RemoteProofs2 RemoteProofs3 RemoteProofs4 Props_ApiRemote2 Props_Remote
  Dispatch Props_Dispatch Api ApiSpec ApiProofs Props_Api ApiTrace ApiRemote Every EverySpec EveryProofs EveryProofs2 Props_Every.
Set Default Proof Using "Type".
Local Open Scope string_scope.
Local Open Scope list_scope.
Local Open Scope Z_scope.

Section Steady.
  Context {A rest blob field : Type}.
  Variables (zero : A) (add mul : A -> A -> A).
  Variable parse : blob -> result (file rest).
  Variable gunzip : blob -> result blob.
  Variable digest : blob -> result string.
  Variable read_sha : blob -> result string.
  Variable load_npz : blob -> result (csr A).
  Variable weigh : blob -> node.
  Variable sha : string -> string.
  Variable dir : string.
  Variables check fetch : bool.
  Variable ext_of : string -> string.
  Variables (py_str : val -> string) (key_order : list string) (fuel : nat).
  Variable memory_of : rest -> Z.
  Variable float_text : f64 -> string.
  Variable mir_array : array A -> option dict -> option dict -> dict -> result (array A * dict).
  Variable mir_grib : string -> option dict -> dict -> result string.
  Variable field_values : field -> result (array A).
  Variable field_grid : field -> result (option dict).
  Variable field_with : field -> array A -> dict -> result field.
  Variable field_message : field -> result string.
  Variable message_field : string -> result field.
  Notation S := (@esys A rest blob).
  Notation meets := (@emeets A rest blob).
  Notation eop := (@eop A rest blob).
  Notation efind := (any_find parse gunzip digest read_sha load_npz weigh sha dir None None check fetch ext_of py_str key_order fuel memory_of float_text).
  Notation estep := (estep parse gunzip digest read_sha load_npz weigh sha dir None None check fetch ext_of py_str key_order fuel memory_of float_text).
  Notation eafter := (eafter parse gunzip digest read_sha load_npz weigh sha dir None None check fetch ext_of py_str key_order fuel memory_of float_text).
  Notation array_regrid := (array_regrid zero add mul efind mir_array).
  Notation backend_regrid := (backend_regrid zero add mul efind mir_array).
  Notation array_fields := (array_fields zero add mul efind mir_array field_values field_grid field_with).
  Notation regrid_call := (regrid_call zero add mul efind mir_array mir_grib field_values field_grid field_with field_message message_field).
  Notation pafter := (pafter zero add mul efind mir_array mir_grib field_values field_grid field_with field_message message_field).
  Notation pcall := (@pop_call A S meets field).
  Notation requested := (@requested A rest blob field field_values field_grid).
  Notation called := (@called A rest blob field field_values field_grid).
  Notation collides_with := (@collides_with A rest blob field field_values field_grid sha float_text).
  Notation only_to := (@only_to A rest blob field field_values field_grid).
  Notation had H := (had parse gunzip load_npz sha ext_of py_str key_order fuel (called H)).
  Notation sound_request H := (sound_request parse gunzip sha ext_of py_str key_order fuel (called H)).
  Notation names H := (names parse gunzip sha ext_of (served_in (called H)) (asked_in (called H))).
  Notation mstep := (mstep efind).
  Notation move := (@move A S meets).
  Implicit Types (H : list pcall) (o : eop) (h : list eop) (x : meets) (y : S) (l : list move).

  Notation W := (weights A).
  Notation pstep := (pstep zero add mul efind mir_array mir_grib field_values field_grid field_with field_message message_field).
  Notation between := (@Props_Every.between A rest blob).
  Notation known_between := (@Props_Every.known_between A rest blob field parse gunzip digest read_sha load_npz weigh sha dir None None check fetch ext_of py_str key_order fuel memory_of float_text).
  Notation cleared := (@Props_Every.cleared A rest blob field parse gunzip digest read_sha load_npz weigh sha dir None None check fetch ext_of py_str key_order fuel memory_of float_text).
  Notation asked_op := (@Props_Every.asked_op A rest blob field field_values field_grid).
  Notation sound_calls := (@Props_Every.sound_calls A rest blob field parse gunzip sha ext_of py_str key_order fuel field_values field_grid).
  Variable files : fs rest (csr A).
  Variable G : string -> result blob.
  Notation steady := (@steady A rest blob files G).
  Notation well H := (well parse gunzip digest sha ext_of (called H) G).
  Notation weights_at := (weights_at parse gunzip load_npz py_str key_order fuel files G).
  Notation nothing_at := (nothing_at parse gunzip py_str key_order fuel files G).
  Notation readable := (@readable A rest blob parse gunzip check G).
  Notation checked := (@checked blob read_sha G).

  (** The settings of the memory cache were accepted whenever they were set. *)
  Definition settings_right (c : mconf) H : Prop :=
    snd (@MemCache.init W c) = Ok tt /\
    forall pre f post, H = pre ++ PElse f :: post -> exists o, between o /\ (forall y, f y = estep y o) /\
      match o with
      | EConfigure c' => snd (MemCache.update c' (e_mem (p_sys (pafter (einit c) pre)))) = Ok tt
      | ERestart c' => snd (@MemCache.init W c') = Ok tt
      | _ => True
      end.
  Lemma init_right c : snd (@MemCache.init W c) = Ok tt -> GInv W (fst (@MemCache.init W c)).
  Proof. clear. intros C. unfold init in *. destruct (MemCache.update c fresh) as [s r] eqn:Q. cbn in *. subst r. exact (proj1 (MemCacheProofs2.update_ok W c fresh s (fresh_ginv W) Q)). Qed.
  Lemma ask_right (r : demand A meets) y : GInv W (e_mem y) -> GInv W (e_mem (fstep efind y r)).
  Proof.
    intros Y. destruct (ask_or_none parse gunzip digest read_sha load_npz weigh sha dir None None check fetch ext_of py_str key_order fuel memory_of float_text r) as [(x & db & v & di & do & m & ->)|N]; [|rewrite N; exact Y].
    exact (proj1 (find_ginv parse gunzip digest read_sha load_npz weigh sha dir check fetch ext_of py_str key_order fuel memory_of float_text x db di do m y Y)).
  Qed.
  Lemma right_ginv c H : settings_right c H -> GInv W (e_mem (p_sys (pafter (einit c) H))).
  Proof.
    intros (C0 & C1). induction H as [|d H IH] using rev_ind; [exact (init_right c C0)|].
    assert (Y : GInv W (e_mem (p_sys (pafter (einit c) H)))). { apply IH. intros pre f post Q. apply (C1 pre f (post ++ [d])). rewrite Q, <- app_assoc. reflexivity. }
    pose proof (after_fine zero add mul efind mir_array mir_grib field_values field_grid field_with field_message message_field (einit c) H) as F.
    specialize (C1 H). unfold Api.pafter in *. rewrite fold_left_app. cbn [fold_left]. set (s := fold_left pstep H _) in *. clearbody s. destruct s as [y mk]. cbn [p_sys p_maker] in *.
    assert (PE : (exists f, d = PElse f) \/ forall f, d <> PElse f) by (destruct d; [right; discriminate..|left; eauto]). destruct PE as [(f & ->)|NE].
    - cbn [Api.pstep p_sys]. destruct (C1 f [] eq_refl) as (o & B & Q & C). rewrite Q.
      destruct o as [x db v di do m|c'| |c'|e la|p]; [contradiction|..]; cbn [Every.estep e_mem]; try exact Y.
      + destruct (MemCache.update c' (e_mem y)) as [s r] eqn:U. cbn in C. subst r. exact (proj1 (MemCacheProofs2.update_ok W c' _ s Y U)).
      + exact (step_ginv mreq (entry rest) W (key_of sha float_text) (System.est_size memory_of) System.size_of size_nonneg (e_mem y) OpClear Y Logic.I).
      + apply init_right, C.
    - destruct (step_comes zero add mul efind mir_array mir_grib field_values field_grid field_with field_message message_field d y mk F) as (l & -> & C & _).
      assert (AL : Forall (fun v => exists r, v = MAsk r) l). { assert (X : Forall (fun v => exists r, v = MAsk r /\ demands field_values field_grid d r) l) by (destruct d; try exact C; destruct (NE f eq_refl)). eapply Forall_impl; [|exact X]. intros v (r & -> & _). eauto. }
      clear - Y AL. revert y Y. induction AL as [|v l (r & ->) _ IH]; intros y Y; [exact Y|]. cbn [fold_left ApiTrace.mstep]. apply IH, ask_right, Y.
  Qed.

  (** One request, after any history. *)
  Lemma weights_one q gi go m z sh z' sh' : weights_at q gi go m z sh -> weights_at q gi go m z' sh' -> z = z' /\ sh = sh'.
  Proof. destruct q as [p|base]; cbn [EveryProofs2.weights_at]; [apply weights_unique|apply weights_now_one]. Qed.
  Lemma weights_something q gi go m z sh : weights_at q gi go m z sh -> nothing_at q gi go m -> False.
  Proof.
    assert (K : forall i (pre post : index rest) n e, i = pre ++ (n, e) :: post -> answers py_str key_order fuel e gi go (method_alias m) -> Forall (fun ne => does_not_answer py_str key_order fuel (snd ne) gi go (method_alias m)) pre ->
      Forall (fun ne => does_not_answer py_str key_order fuel (snd ne) gi go (method_alias m)) i -> False).
    { intros i pre post n e -> Y N NN.
      assert (F1 : IndexProofs.first py_str key_order fuel (pre ++ (n, e) :: post) gi go (method_alias m) = Ok (Some e)) by (apply first_some; exists pre, n, post; auto).
      assert (F2 : IndexProofs.first py_str key_order fuel (pre ++ (n, e) :: post) gi go (method_alias m) = Ok None) by (apply first_none; exact NN). rewrite F1 in F2. discriminate F2. }
    destruct q as [p|base]; cbn [EveryProofs2.weights_at EveryProofs2.nothing_at].
    - intros (i & pre & n & e & post & f & LI & E & Y & N & _) (i' & LI' & NN). rewrite LI in LI'. injection LI' as <-. exact (K i pre post n e E Y N NN).
    - intros (i & pre & n & e & post & f & b & CU & E & Y & N & _) (i' & CU' & NN). rewrite <- (current_one parse gunzip G base _ _ CU CU') in NN. exact (K i pre post n e E Y N NN).
  Qed.
  Section Calls.
    Variable HH : list pcall.
    Hypothesis WP : forall b, 0 <= n_size (weigh b).
    Hypothesis FL : fixed_length sha.
    Hypothesis FT : float_texts float_text.
    Hypothesis NM : names HH.
    Hypothesis SC : sound_calls HH HH.
    Hypothesis ST : forall x q, called HH x q -> steady x q.
    Lemma had_now x q gi go m z sh : called HH x q -> well HH q -> had HH x q gi go m z sh -> weights_at q gi go m z sh.
    Proof using ST.
      intros CX WE. destruct q as [p|base]; cbn [EverySpec.had EveryProofs2.weights_at].
      - intros (i & pre & nm & e & post & f & (x1 & C1 & LI) & E & Y & N & MP & AL & S0). exists i, pre, nm, e, post, f. rewrite (local_same (called HH) files G ST x1 p C1) in LI.
        pose proof (ST _ _ CX) as U. cbn in U. rewrite U in AL. auto 8.
      - exact (from_now parse gunzip load_npz sha ext_of py_str key_order fuel _ _ G base gi go m z sh (served_now (called HH) files G ST) (proj1 WE)).
    Qed.
    Lemma call_total c h0 h H x db q v di do m t' found gi go :
      fresh_start h0 -> (forall d, In d H -> In d HH) -> Forall (asked_op HH) h0 -> Forall (asked_op H) (h ++ [ECall x db v di do m]) -> placed db q -> well HH q ->
      IndexSpec.request di do gi go -> only_to q H gi go m -> efind x db di do (VStr m) (eafter c (h0 ++ h)) = (t', found) ->
      (forall z sh, weights_at q gi go m z sh -> readable q x -> GInv W (e_mem (eafter c (h0 ++ h))) ->
         found = Ok (Some (z, sh)) \/ (found = Raise WeightsTooLarge /\ strict (e_mem (eafter c (h0 ++ h))) = true) \/ collides_with H gi go m) /\
      (nothing_at q gi go m -> checked q -> found = Ok None \/ collides_with H gi go m).
    Proof using WP FL FT NM SC ST.
      intros FG IN A0 AO PL WE RQ ON Q.
      apply Forall_app in AO. destruct AO as [A1 A2]. inversion A2 as [|? ? A3 _]; subst.
      assert (M : Forall (made (called HH)) (h0 ++ h)) by (apply Forall_app; split; [exact (ops_made field_values field_grid HH HH h0 (fun d I => I) A0)|exact (ops_made field_values field_grid HH H h IN A1)]).
      assert (SO : Forall (sound_op parse gunzip sha ext_of py_str key_order fuel (called HH)) (h0 ++ h)).
      { apply Forall_app; split; [exact (ops_sound parse gunzip sha ext_of py_str key_order fuel field_values field_grid HH HH h0 (fun d I => I) SC A0)|exact (ops_sound parse gunzip sha ext_of py_str key_order fuel field_values field_grid HH H h IN SC A1)]. }
      pose proof (after_every parse gunzip digest read_sha load_npz weigh sha dir None None check fetch ext_of py_str key_order fuel memory_of float_text (called HH) WP NM FL c h0 h FG M SO) as HS.
      pose proof (after_ready parse gunzip digest read_sha load_npz weigh sha dir check fetch ext_of py_str key_order fuel memory_of float_text (called HH) files G WP NM FL ST c (h0 ++ h) q M SO WE) as RD.
      pose proof (ops_made field_values field_grid HH H _ IN A2) as M2. inversion M2 as [|? ? M3 _]; subst.
      pose proof (ops_sound parse gunzip sha ext_of py_str key_order fuel field_values field_grid HH H _ IN SC A2) as S2. inversion S2 as [|? ? S3 _]; subst. clear M2 S2.
      destruct (any_total parse gunzip digest read_sha load_npz weigh sha dir check fetch ext_of py_str key_order fuel memory_of float_text (called HH) files G WP NM FL ST h _ x db q v di do m t' found gi go PL HS RD WE M3 S3 RQ Q) as [T1 T2].
      destruct (found_somewhere parse gunzip digest read_sha load_npz weigh sha dir None None check fetch ext_of py_str key_order fuel memory_of float_text (called HH) WP NM FL h _ x db q v di do m t' _ PL HS M3 S3 Q) as (_ & K).
      assert (FD : forall w, found = Ok (Some w) -> weights_at q gi go m (fst w) (snd w) \/ collides_with H gi go m).
      { intros w E. destruct (K _ E) as (gi0 & go0 & RQ0 & x' & db' & q' & v' & di' & do' & m' & gi' & go' & I & PL' & RQ' & KE & WF).
        assert (gi0 = gi /\ go0 = go) as [-> ->]. { destruct RQ as [R1 R2], RQ0 as [R3 R4]. rewrite R1 in R3. rewrite R2 in R4. injection R3 as <-. injection R4 as <-. auto. }
        assert (AA : asked_op H (ECall x' db' v' di' do' m')). { apply in_app_or in I. destruct I as [I|[I|[]]]; [rewrite Forall_forall in A1; exact (A1 _ I)|rewrite <- I; exact A3]. }
        pose proof (op_requested field_values field_grid _ _ _ _ _ _ _ _ AA PL') as RE'. pose proof (requested_more field_values field_grid _ _ _ _ _ _ _ _ IN RE') as RE2.
        destruct (S3 q PL) as (P1 & P2 & _), (SC _ _ _ _ _ _ RE2) as (P3 & P4 & _).
        destruct (key_spec sha float_text FT di do di' do' gi go gi' go' m m' P1 P2 P3 P4 RQ RQ' (eq_sym KE)) as [(SI & SG & <-)|[NE CO]]; [left|right; exists x', q', v', di', do', m', gi', go'; auto].
        assert (q' = q) as -> by exact (ON x' q' v' di' do' gi' go' RE' RQ' SI SG).
        apply (had_now x' q gi go m (fst w) (snd w)); [exists v', di', do', m; exact RE2|exact WE|].
        refine (had_same parse gunzip load_npz sha ext_of py_str key_order fuel field_values field_grid HH x' q gi' go' gi go m _ _ _ _ WF); [exact (same_result_sym (Ok gi) (Ok gi') SI)|exact (same_result_sym (Ok go) (Ok go') SG)]. }
      split.
      - intros z sh WA RE GV. destruct (T1 z sh WA RE GV) as [([z' sh'] & E)|TL]; [|right; left; exact TL].
        destruct (FD _ E) as [WA'|CO]; [|right; right; exact CO]. left. destruct (weights_one q gi go m z sh z' sh' WA WA') as [<- <-]. exact E.
      - intros NA CK. destruct (T2 NA CK) as [E|(w & E)]; [left; exact E|]. destruct (FD _ E) as [WA'|CO]; [|right; exact CO]. exfalso. exact (weights_something q gi go m _ _ WA' NA).
    Qed.
  End Calls.
  Lemma at_proper HH x q gi go m z sh : proper_all load_npz (called HH) -> (forall x q, called HH x q -> steady x q) -> called HH x q -> weights_at q gi go m z sh -> proper_csr z.
  Proof.
    intros [P1 P2] ST CX. pose proof (ST _ _ CX) as U. destruct q as [p|base]; cbn in U; cbn [EveryProofs2.weights_at].
    - intros (i & pre & n & e & post & f & _ & _ & _ & _ & _ & AL & _). rewrite <- U in AL. exact (P1 x p _ z CX AL).
    - intros (i & pre & n & e & post & f & b & _ & _ & _ & _ & _ & EB & LZ & _). refine (P2 _ b z _ LZ). exact (now_served (called HH) files G ST x base _ _ CX EB).
  Qed.
  Lemma regrid_found z sh n values (do : dict) r : is_shape sh n -> regrid zero add mul (Ok (Some (z, n))) values do = Ok (r, do) -> regrid_from zero add mul (Ok (Some (z, sh))) values do = Ok (r, do).
  Proof.
    intros SH RR. unfold regrid_from. unfold regrid in RR. cbn [bind] in *. destruct (matmul zero add mul z (reshape_column zero values)); try discriminate RR. cbn [bind] in *. apply shape_spec in SH. rewrite SH. exact RR.
  Qed.

  Notation call := (fun x values di do m kw => PArray (S := S) (field := field) x values (Some di) (Some do) (VStr m) (VStr "precomputed") kw).
  Theorem C106_answered_partial c H0 H x db q kw values di do m gi go z sh n :
    forall HH, HH = H0 ++ H ++ [call x values di do m kw] ->
    (forall b, 0 <= n_size (weigh b)) -> fixed_length sha -> float_texts float_text -> names HH -> proper_all load_npz (called HH) ->
    cleared H0 -> known_between (H0 ++ H) -> sound_calls HH HH -> only_inventory "inventory" kw db -> placed db q -> (forall x q, called HH x q -> steady x q) -> well HH q ->
    readable q x -> settings_right c (H0 ++ H) ->
    IndexSpec.request di do gi go -> only_to q (H ++ [call x values di do m kw]) gi go m ->
    weights_at q gi go m z sh -> is_shape sh n -> prod (shape values) = n_cols z -> prod n = n_rows z ->
    (exists r, snd (array_regrid x values (Some di) (Some do) (VStr m) (VStr "precomputed") kw (pafter (einit c) (H0 ++ H))) = Ok (r, do) /\ applies zero add mul z n values r) \/
    (snd (array_regrid x values (Some di) (Some do) (VStr m) (VStr "precomputed") kw (pafter (einit c) (H0 ++ H))) = Raise WeightsTooLarge /\ strict (e_mem (p_sys (pafter (einit c) (H0 ++ H)))) = true) \/
    collides_with (H ++ [call x values di do m kw]) gi go m.
  Proof.
    set (cl := call x values di do m kw).
    intros HH EH WP FL FT NM PF CL KE SC OI PL ST WE RE AC RQ AO WN SH E1 E2.
    destruct (history2 zero add mul parse gunzip digest read_sha load_npz weigh sha dir None None check fetch ext_of py_str key_order fuel memory_of float_text mir_array mir_grib field_values field_grid field_with field_message message_field c H0 H CL KE) as (h0 & h & PS & FG & A0 & A1).
    pose proof (after_fine zero add mul efind mir_array mir_grib field_values field_grid field_with field_message message_field (einit c) (H0 ++ H)) as F.
    pose proof (right_ginv c (H0 ++ H) AC) as GV.
    destruct (pafter (einit c) (H0 ++ H)) as [y mk] eqn:PA. cbn [p_sys p_maker] in *.
    destruct (array_direct zero add mul efind mir_array x db values di do (VStr m) kw OI y mk mk F F) as (_ & _ & _ & R).
    unfold direct in R. cbn [p_sys] in R. destruct (efind x db di do (VStr m) y) as [t' found] eqn:DF. cbn [snd] in R.
    assert (CQ : asked_op [cl] (ECall x db values di do m)). { exists cl. split; [left; reflexivity|]. constructor. destruct OI as [|v db N]; [reflexivity|]. unfold picks. cbn [alookup]. rewrite String.eqb_refl. exact N. }
    assert (I0 : forall d, In d H0 -> In d HH) by (intros d I; rewrite EH; apply in_or_app; auto).
    assert (I1 : forall d, In d (H ++ [cl]) -> In d HH) by (intros d I; rewrite EH; apply in_or_app; auto).
    assert (CX : called HH x q). { exists values, di, do, m. refine (requested_more field_values field_grid _ _ _ _ _ _ _ _ _ (op_requested field_values field_grid _ _ _ _ _ _ _ _ CQ PL)). intros d I. apply I1, in_or_app. auto. }
    assert (A2 : Forall (asked_op (H ++ [cl])) (h ++ [ECall x db values di do m])).
    { apply Forall_app. split; [eapply Forall_impl; [|exact A1]; intros o|constructor; [revert CQ|constructor]]; apply asked_more; intros d I; apply in_or_app; auto. }
    assert (A0' : Forall (asked_op HH) h0) by (eapply Forall_impl; [|exact A0]; intros o; apply asked_more; exact I0).
    subst y.
    destruct (call_total HH WP FL FT NM SC ST c h0 h (H ++ [cl]) x db q values di do m t' found gi go FG I1 A0' A2 PL WE RQ AO DF) as [T _].
    destruct (T z sh WN RE GV) as [->|[[-> TL]|CO]]; [left|right; left|right; right; exact CO].
    - destruct (C36_computed zero add mul z n values do (at_proper HH x q gi go m z sh PF ST CX WN) E1 E2) as (r & RR & SS & IT). exists r. split; [|exact (conj E1 (conj E2 (conj SS IT)))].
      rewrite (regrid_found z sh n values do r SH RR) in R. destruct (snd _) in *; cbn in R; congruence || contradiction.
    - split; [|exact TL]. cbn in R. destruct (snd _) in *; cbn in R; congruence || contradiction.
  Qed.
  (** If no entry answers, the call is refused with ValueError. *)
  Theorem C106_refused_partial c H0 H x db q kw values di do m gi go :
    forall HH, HH = H0 ++ H ++ [call x values di do m kw] ->
    (forall b, 0 <= n_size (weigh b)) -> fixed_length sha -> float_texts float_text -> names HH ->
    cleared H0 -> known_between (H0 ++ H) -> sound_calls HH HH -> only_inventory "inventory" kw db -> placed db q -> (forall x q, called HH x q -> steady x q) -> well HH q -> checked q ->
    IndexSpec.request di do gi go -> only_to q (H ++ [call x values di do m kw]) gi go m -> nothing_at q gi go m ->
    snd (array_regrid x values (Some di) (Some do) (VStr m) (VStr "precomputed") kw (pafter (einit c) (H0 ++ H))) = Raise ValueError \/
    collides_with (H ++ [call x values di do m kw]) gi go m.
  Proof.
    set (cl := call x values di do m kw).
    intros HH EH WP FL FT NM CL KE SC OI PL ST WE CK RQ AO NN.
    destruct (history2 zero add mul parse gunzip digest read_sha load_npz weigh sha dir None None check fetch ext_of py_str key_order fuel memory_of float_text mir_array mir_grib field_values field_grid field_with field_message message_field c H0 H CL KE) as (h0 & h & PS & FG & A0 & A1).
    pose proof (after_fine zero add mul efind mir_array mir_grib field_values field_grid field_with field_message message_field (einit c) (H0 ++ H)) as F.
    destruct (pafter (einit c) (H0 ++ H)) as [y mk] eqn:PA. cbn [p_sys p_maker] in *.
    destruct (array_direct zero add mul efind mir_array x db values di do (VStr m) kw OI y mk mk F F) as (_ & _ & _ & R).
    unfold direct in R. cbn [p_sys] in R. destruct (efind x db di do (VStr m) y) as [t' found] eqn:DF. cbn [snd] in R.
    assert (CQ : asked_op [cl] (ECall x db values di do m)). { exists cl. split; [left; reflexivity|]. constructor. destruct OI as [|v db N]; [reflexivity|]. unfold picks. cbn [alookup]. rewrite String.eqb_refl. exact N. }
    assert (I0 : forall d, In d H0 -> In d HH) by (intros d I; rewrite EH; apply in_or_app; auto).
    assert (I1 : forall d, In d (H ++ [cl]) -> In d HH) by (intros d I; rewrite EH; apply in_or_app; auto).
    assert (A2 : Forall (asked_op (H ++ [cl])) (h ++ [ECall x db values di do m])).
    { apply Forall_app. split; [eapply Forall_impl; [|exact A1]; intros o|constructor; [revert CQ|constructor]]; apply asked_more; intros d I; apply in_or_app; auto. }
    assert (A0' : Forall (asked_op HH) h0) by (eapply Forall_impl; [|exact A0]; intros o; apply asked_more; exact I0).
    subst y.
    destruct (call_total HH WP FL FT NM SC ST c h0 h (H ++ [cl]) x db q values di do m t' found gi go FG I1 A0' A2 PL WE RQ AO DF) as [_ T].
    destruct (T NN CK) as [->|CO]; [left|right; exact CO]. cbn in R. destruct (snd _) in *; cbn in R; congruence || contradiction.
  Qed.

  (** Lists of fields. *)
  Lemma backend_there m kw db y mk : only_inventory "inventory" kw db -> fine mk -> exists s1 (o : obj),
    @backend_of S (("interpolation", m) :: ("backend", VStr "precomputed") :: kw) (mkApi y mk) = (s1, Ok (o, [("interpolation", m)])) /\ p_sys s1 = y /\ is_mir o = false /\ db_of_obj o = Ok db.
  Proof.
    clear. intros O F.
    assert (X : exists b_kw, one_arg b_kw /\ db_of_obj (mkObj 0 "precomputed" b_kw) = Ok db /\
      backend_from_kwargs (("interpolation", m) :: ("backend", VStr "precomputed") :: kw) = Ok (VStr "precomputed", b_kw, [("interpolation", m)])).
    { destruct O as [|v db N]; [exists []|exists [("inventory", v)]]; (split; [unfold one_arg; eauto|split; [|reflexivity]]); [reflexivity|]. apply names_get in N. exact N. }
    destruct X as (b_kw & OA & D & B). unfold backend_of. rewrite B. unfold seq_act, lift.
    destruct (named_sim (S := S) (VStr "precomputed") b_kw OA y mk mk F F) as (PS & G & _ & R).
    destruct (named_backend (VStr "precomputed") b_kw (mkApi y mk)) as [s1 r] eqn:NB. cbn [fst snd] in *.
    assert (PY : p_sys s1 = y). { unfold named_backend in NB. cbn [p_maker p_sys] in NB. destruct (get_backend _ _ _ _ _). injection NB as <- _. reflexivity. }
    assert (OK : exists o : obj, r = Ok o).
    { unfold named_backend in NB. cbn [p_maker p_sys] in NB. destruct (get_fine mk "precomputed" b_kw F OA) as (_ & _ & Q).
      destruct (get_backend BACKENDS construct mk "precomputed" b_kw) as [m' r']. injection NB as _ <-. cbn [snd] in Q.
      assert (H : (if negb (forallb (fun p => hashable (snd p)) b_kw) then Raise TypeError else if existsb (String.eqb "precomputed") BACKENDS then construct "precomputed" b_kw else Raise ValueError) = Ok tt).
      { destruct OA as [->|[v ->]]; [reflexivity|]. cbn in D. destruct (get_db_plain v db D) as [->|[t ->]]; [reflexivity|]. unfold db_of_obj in D. cbn [o_kwargs alookup fst snd] in D. rewrite String.eqb_refl in D. unfold construct. cbn [forallb alookup fst snd hashable]. rewrite !String.eqb_refl, D. reflexivity. }
      rewrite H in Q. destruct r'; cbn in Q; try contradiction. eauto. }
    destruct OK as [o ->]. cbn in R. destruct R as (_ & N & _ & _ & K). injection N as N. assert (M : is_mir o = false) by (unfold is_mir; rewrite <- N; reflexivity).
    exists s1, o. split; [reflexivity|]. split; [exact PY|]. split; [exact M|]. unfold db_of_obj in *. rewrite (K M). exact D.
  Qed.
  (** The weights for a field are there, the sizes fit, and the new field can be made. *)
  Definition field_ready H q (do : dict) (m : string) (f : field) (v : array A) (di : dict) gi go (z : csr A) (n : list nat) : Prop :=
    of_field field_values field_grid f None v di /\ IndexSpec.request di do gi go /\ only_to q H gi go m /\ (exists sh, weights_at q gi go m z sh /\ is_shape sh n) /\
    prod (shape v) = n_cols z /\ prod n = n_rows z /\ (forall u, applies zero add mul z n v u -> exists f', field_with f u do = Ok f').
  Definition field_made H q (do : dict) (m : string) (f f' : field) : Prop :=
    exists v di gi go z n u, field_ready H q do m f v di gi go z n /\ applies zero add mul z n v u /\ field_with f u do = Ok f'.
  Lemma fields_total HH c H x (o : obj) db q do m :
    (forall b, 0 <= n_size (weigh b)) -> fixed_length sha -> float_texts float_text -> names HH -> proper_all load_npz (called HH) -> sound_calls HH HH -> (forall x q, called HH x q -> steady x q) -> well HH q -> readable q x ->
    is_mir o = false -> db_of_obj o = Ok db -> placed db q -> forall h0, fresh_start h0 -> Forall (asked_op HH) h0 -> (forall d, In d H -> In d HH) ->
    forall fs done mk h, Forall (asked_op H) h -> GInv W (e_mem (eafter c (h0 ++ h))) ->
    (forall f, In f fs -> (forall v di, of_field field_values field_grid f None v di -> asked_op H (ECall x db v di do m)) /\ exists v di gi go z n, field_ready H q do m f v di gi go z n) ->
    let r := snd (array_fields x o [("interpolation", VStr m)] fs do done (mkApi (eafter c (h0 ++ h)) mk)) in
    (exists rs, r = Ok (done ++ rs) /\ Forall2 (field_made H q do m) fs rs) \/
    (r = Raise WeightsTooLarge /\ strict (e_mem (eafter c (h0 ++ h))) = true) \/
    exists f v di gi go, In f fs /\ of_field field_values field_grid f None v di /\ IndexSpec.request di do gi go /\ collides_with H gi go m.
  Proof.
    intros WP FL FT NM PF SC ST WE RE IM DB PL h0 FG A0 IN. induction fs as [|f fs IH]; intros done mk h FH GV EV r.
    { left. exists []. rewrite app_nil_r. auto. }
    destruct (EV f (or_introl eq_refl)) as (AK & v & di & gi & go & z & n & FR). pose proof FR as (OF & RQ & ON & (sh & WA & SH) & E1 & E2 & FW). specialize (AK v di OF).
    assert (CX : called HH x q) by (exists v, di, do, m; exact (requested_more field_values field_grid _ _ _ _ _ _ _ _ IN (op_requested field_values field_grid _ _ _ _ _ _ _ _ AK PL))).
    subst r. destruct (array_fields x o [("interpolation", VStr m)] (f :: fs) do done (mkApi (eafter c (h0 ++ h)) mk)) as [sf rr] eqn:Q. cbn [snd].
    cbn [Api.array_fields] in Q. unfold seq_act at 1 in Q. unfold lift at 1 in Q. rewrite (proj1 OF) in Q.
    assert (IG : input_gridspec field_grid f = Ok di) by (unfold input_gridspec; rewrite (proj2 OF); reflexivity). unfold seq_act at 1 in Q. unfold lift at 1 in Q. rewrite IG in Q.
    unfold seq_act at 1, Api.backend_regrid in Q. rewrite IM, (tail_eq zero add mul efind o x db v di do (VStr m) DB) in Q. unfold direct in Q. cbn [p_sys p_maker] in Q.
    assert (NX : fst (efind x db di do (VStr m) (eafter c (h0 ++ h))) = eafter c (h0 ++ (h ++ [ECall x db v di do m]))).
    { unfold Every.eafter. rewrite app_assoc, (fold_left_app _ (h0 ++ h)). reflexivity. }
    destruct (find_ginv parse gunzip digest read_sha load_npz weigh sha dir check fetch ext_of py_str key_order fuel memory_of float_text x db di do m _ GV) as [GV' SE]. rewrite NX in GV', SE.
    assert (FH' : Forall (asked_op H) (h ++ [ECall x db v di do m])) by (apply Forall_app; split; [exact FH|repeat constructor; exact AK]).
    destruct (efind x db di do (VStr m) (eafter c (h0 ++ h))) as [y' found] eqn:DF. cbn [fst snd] in *. subst y'.
    destruct (call_total HH WP FL FT NM SC ST c h0 h H x db q v di do m _ found gi go FG IN A0 FH' PL WE RQ ON DF) as [T _].
    destruct (T z sh WA RE GV) as [->|[[-> TL]|CO]]; [|right; left; split; [injection Q as _ <-; reflexivity|exact TL]|right; right; exists f, v, di, gi, go; split; [left; reflexivity|auto]].
    destruct (C36_computed zero add mul z n v do (at_proper HH x q gi go m z sh PF ST CX WA) E1 E2) as (u & RR & SS & IT). assert (AP : applies zero add mul z n v u) by exact (conj E1 (conj E2 (conj SS IT))).
    rewrite (regrid_found z sh n v do u SH RR) in Q. cbn [fst snd] in Q. destruct (FW u AP) as (f' & FE). unfold seq_act at 1 in Q. unfold lift at 1 in Q. rewrite FE in Q.
    specialize (IH (done ++ [f']) mk (h ++ [ECall x db v di do m]) FH' GV' (fun f0 I => EV f0 (or_intror I))). cbv zeta in IH. rewrite SE, Q in IH. cbn [snd] in IH.
    destruct IH as [(rs & -> & F2)|[TL|(f0 & v0 & di0 & gi0 & go0 & I & R)]]; [left|right; left; exact TL|right; right; exists f0, v0, di0, gi0, go0; split; [right; exact I|exact R]].
    exists (f' :: rs). rewrite <- app_assoc. split; [reflexivity|]. constructor; [|exact F2]. exists v, di, gi, go, z, n, u. auto.
  Qed.
  Theorem C106_fields_answered_partial c H0 H x db q kw fs g gs m :
    forall cl, cl = PRegrid x (DFields fs) (Some g) (VStr m) (VStr "precomputed") kw -> forall HH, HH = H0 ++ H ++ [cl] ->
    (forall b, 0 <= n_size (weigh b)) -> fixed_length sha -> float_texts float_text -> names HH -> proper_all load_npz (called HH) ->
    cleared H0 -> known_between (H0 ++ H) -> sound_calls HH HH -> only_inventory "inventory" kw db -> placed db q -> (forall x q, called HH x q -> steady x q) -> well HH q ->
    readable q x -> settings_right c (H0 ++ H) -> from_dict g = Ok gs -> is_regular_ll gs = true ->
    (forall f, In f fs -> exists v di gi go z n, field_ready (H ++ [cl]) q (gd gs) m f v di gi go z n) ->
    let r := snd (regrid_call x (DFields fs) (Some g) (VStr m) (VStr "precomputed") kw (pafter (einit c) (H0 ++ H))) in
    (exists rs, r = Ok (DFields rs) /\ Forall2 (field_made (H ++ [cl]) q (gd gs) m) fs rs) \/
    (r = Raise WeightsTooLarge /\ strict (e_mem (p_sys (pafter (einit c) (H0 ++ H)))) = true) \/
    exists f v di gi go, In f fs /\ of_field field_values field_grid f None v di /\ IndexSpec.request di (gd gs) gi go /\ collides_with (H ++ [cl]) gi go m.
  Proof.
    intros cl Ecl HH EH WP FL FT NM PF CL KE SC OI PL ST WE RE AC GS LL EV r. subst r.
    destruct (history2 zero add mul parse gunzip digest read_sha load_npz weigh sha dir None None check fetch ext_of py_str key_order fuel memory_of float_text mir_array mir_grib field_values field_grid field_with field_message message_field c H0 H CL KE) as (h0 & h & PS & FG & A0 & A1).
    pose proof (after_fine zero add mul efind mir_array mir_grib field_values field_grid field_with field_message message_field (einit c) (H0 ++ H)) as F.
    pose proof (right_ginv c (H0 ++ H) AC) as GV.
    destruct (pafter (einit c) (H0 ++ H)) as [y mk] eqn:PA. cbn [p_sys p_maker] in *.
    destruct (backend_there (VStr m) kw db y mk OI F) as ([y1 mk1] & o & B & PY & IM & DB). cbn [p_sys] in PY. subst y1.
    destruct (regrid_call x (DFields fs) (Some g) (VStr m) (VStr "precomputed") kw (mkApi y mk)) as [sf rr] eqn:Q. cbn [snd].
    unfold Api.regrid_call, Api.fields_regrid in Q. unfold seq_act at 1 2 in Q. rewrite B in Q. cbn [fst snd] in Q. rewrite IM, GS in Q. unfold seq_act at 1 in Q. unfold lift at 1 in Q. rewrite LL in Q.
    assert (PK : picks "inventory" kw db). { destruct OI as [|v db N]; [reflexivity|]. unfold picks. cbn [alookup]. rewrite String.eqb_refl. exact N. }
    assert (I0 : forall d, In d H0 -> In d HH) by (intros d I; rewrite EH; apply in_or_app; auto).
    assert (I1 : forall d, In d (H ++ [cl]) -> In d HH) by (intros d I; rewrite EH; apply in_or_app; auto).
    assert (A0' : Forall (asked_op HH) h0) by (eapply Forall_impl; [|exact A0]; intros o'; apply asked_more; exact I0).
    assert (A1' : Forall (asked_op (H ++ [cl])) h) by (eapply Forall_impl; [|exact A1]; intros o'; apply asked_more; intros d I; apply in_or_app; auto).
    subst y.
    assert (EV' : forall f, In f fs -> (forall v di, of_field field_values field_grid f None v di -> asked_op (H ++ [cl]) (ECall x db v di (gd gs) m)) /\ exists v di gi go z n, field_ready (H ++ [cl]) q (gd gs) m f v di gi go z n).
    { intros f I. split; [|exact (EV f I)]. intros v di OF. exists cl. split; [apply in_or_app; right; left; reflexivity|]. rewrite Ecl. eapply d_fields; eassumption. }
    pose proof (fields_total HH c (H ++ [cl]) x o db q (gd gs) m WP FL FT NM PF SC ST WE RE IM DB PL h0 FG A0' I1 fs [] mk1 h A1' GV EV') as T. cbv zeta in T.
    destruct (array_fields x o [("interpolation", VStr m)] fs (gd gs) [] (mkApi (eafter c (h0 ++ h)) mk1)) as [s2 r]. cbn [snd app] in T.
    destruct T as [(rs & -> & F2)|[[-> TL]|CO]]; cbn in Q; [left; exists rs; injection Q as _ <-; auto|right; left; injection Q as _ <-; auto|right; right; exact CO].
  Qed.
  (** If the weights of a field are not there, those before it being so, the list is refused. *)
  Lemma fields_stop HH c H x (o : obj) db q do m f v di gi go post :
    (forall b, 0 <= n_size (weigh b)) -> fixed_length sha -> float_texts float_text -> names HH -> proper_all load_npz (called HH) -> sound_calls HH HH -> (forall x q, called HH x q -> steady x q) -> well HH q -> readable q x -> checked q ->
    is_mir o = false -> db_of_obj o = Ok db -> placed db q -> forall h0, fresh_start h0 -> Forall (asked_op HH) h0 -> (forall d, In d H -> In d HH) ->
    of_field field_values field_grid f None v di -> IndexSpec.request di do gi go -> only_to q H gi go m -> nothing_at q gi go m ->
    forall pre done mk h, Forall (asked_op H) h -> GInv W (e_mem (eafter c (h0 ++ h))) ->
    (forall f' v di, In f' (pre ++ [f]) -> of_field field_values field_grid f' None v di -> asked_op H (ECall x db v di do m)) -> (forall f', In f' pre -> exists v di gi go z n, field_ready H q do m f' v di gi go z n) ->
    let r := snd (array_fields x o [("interpolation", VStr m)] (pre ++ f :: post) do done (mkApi (eafter c (h0 ++ h)) mk)) in
    r = Raise ValueError \/ (r = Raise WeightsTooLarge /\ strict (e_mem (eafter c (h0 ++ h))) = true) \/
    exists f' v di gi go, In f' (pre ++ [f]) /\ of_field field_values field_grid f' None v di /\ IndexSpec.request di do gi go /\ collides_with H gi go m.
  Proof.
    intros WP FL FT NM PF SC ST WE RE CK IM DB PL h0 FG A0 IN OF RQ ON NA. induction pre as [|f0 pre IH]; intros done mk h FH GV AK EV r; subst r.
    - specialize (AK f v di (or_introl eq_refl) OF). cbn [app].
      destruct (array_fields x o [("interpolation", VStr m)] (f :: post) do done (mkApi (eafter c (h0 ++ h)) mk)) as [sf rr] eqn:Q. cbn [snd].
      cbn [Api.array_fields] in Q. unfold seq_act at 1 in Q. unfold lift at 1 in Q. rewrite (proj1 OF) in Q.
      assert (IG : input_gridspec field_grid f = Ok di) by (unfold input_gridspec; rewrite (proj2 OF); reflexivity). unfold seq_act at 1 in Q. unfold lift at 1 in Q. rewrite IG in Q.
      unfold seq_act at 1, Api.backend_regrid in Q. rewrite IM, (tail_eq zero add mul efind o x db v di do (VStr m) DB) in Q. unfold direct in Q. cbn [p_sys p_maker] in Q.
      destruct (efind x db di do (VStr m) (eafter c (h0 ++ h))) as [y' found] eqn:DF. cbn [fst snd] in *.
      assert (FH' : Forall (asked_op H) (h ++ [ECall x db v di do m])) by (apply Forall_app; split; [exact FH|repeat constructor; exact AK]).
      destruct (call_total HH WP FL FT NM SC ST c h0 h H x db q v di do m _ found gi go FG IN A0 FH' PL WE RQ ON DF) as [_ T].
      destruct (T NA CK) as [->|CO]; [left; injection Q as _ <-; reflexivity|right; right; exists f, v, di, gi, go; split; [left; reflexivity|auto]].
    - destruct (EV f0 (or_introl eq_refl)) as (v0 & di0 & gi0 & go0 & z & n & OF0 & RQ0 & ON0 & (sh & WA & SH) & E1 & E2 & FW).
      pose proof (AK f0 v0 di0 (or_introl eq_refl) OF0) as AK0.
      assert (CX : called HH x q) by (exists v0, di0, do, m; exact (requested_more field_values field_grid _ _ _ _ _ _ _ _ IN (op_requested field_values field_grid _ _ _ _ _ _ _ _ AK0 PL))).
      destruct (array_fields x o [("interpolation", VStr m)] ((f0 :: pre) ++ f :: post) do done (mkApi (eafter c (h0 ++ h)) mk)) as [sf rr] eqn:Q. cbn [snd].
      cbn [app Api.array_fields] in Q. unfold seq_act at 1 in Q. unfold lift at 1 in Q. rewrite (proj1 OF0) in Q.
      assert (IG : input_gridspec field_grid f0 = Ok di0) by (unfold input_gridspec; rewrite (proj2 OF0); reflexivity). unfold seq_act at 1 in Q. unfold lift at 1 in Q. rewrite IG in Q.
      unfold seq_act at 1, Api.backend_regrid in Q. rewrite IM, (tail_eq zero add mul efind o x db v0 di0 do (VStr m) DB) in Q. unfold direct in Q. cbn [p_sys p_maker] in Q.
      assert (NX : fst (efind x db di0 do (VStr m) (eafter c (h0 ++ h))) = eafter c (h0 ++ (h ++ [ECall x db v0 di0 do m]))).
      { unfold Every.eafter. rewrite app_assoc, (fold_left_app _ (h0 ++ h)). reflexivity. }
      destruct (find_ginv parse gunzip digest read_sha load_npz weigh sha dir check fetch ext_of py_str key_order fuel memory_of float_text x db di0 do m _ GV) as [GV' SE]. rewrite NX in GV', SE.
      assert (FH' : Forall (asked_op H) (h ++ [ECall x db v0 di0 do m])) by (apply Forall_app; split; [exact FH|repeat constructor; exact AK0]).
      destruct (efind x db di0 do (VStr m) (eafter c (h0 ++ h))) as [y' found] eqn:DF. cbn [fst snd] in *. subst y'.
      destruct (call_total HH WP FL FT NM SC ST c h0 h H x db q v0 di0 do m _ found gi0 go0 FG IN A0 FH' PL WE RQ0 ON0 DF) as [T _].
      destruct (T z sh WA RE GV) as [->|[[-> TL]|CO]]; [|right; left; split; [injection Q as _ <-; reflexivity|exact TL]|right; right; exists f0, v0, di0, gi0, go0; split; [left; reflexivity|auto]].
      destruct (C36_computed zero add mul z n v0 do (at_proper HH x q gi0 go0 m z sh PF ST CX WA) E1 E2) as (u & RR & SS & IT). assert (AP : applies zero add mul z n v0 u) by exact (conj E1 (conj E2 (conj SS IT))).
      rewrite (regrid_found z sh n v0 do u SH RR) in Q. cbn [fst snd] in Q. destruct (FW u AP) as (f' & FE). unfold seq_act at 1 in Q. unfold lift at 1 in Q. rewrite FE in Q.
      specialize (IH (done ++ [f']) mk (h ++ [ECall x db v0 di0 do m]) FH' GV' (fun f1 v1 di1 I => AK f1 v1 di1 (or_intror I)) (fun f1 I => EV f1 (or_intror I))). cbv zeta in IH. rewrite SE, Q in IH. cbn [snd] in IH.
      destruct IH as [VE|[TL|(f1 & v1 & di1 & gi1 & go1 & I & R)]]; [left; exact VE|right; left; exact TL|right; right; exists f1, v1, di1, gi1, go1; split; [right; exact I|exact R]].
  Qed.
  Theorem C106_fields_refused_partial c H0 H x db q kw pre f post g gs m v di gi go :
    forall cl, cl = PRegrid x (DFields (pre ++ f :: post)) (Some g) (VStr m) (VStr "precomputed") kw -> forall HH, HH = H0 ++ H ++ [cl] ->
    (forall b, 0 <= n_size (weigh b)) -> fixed_length sha -> float_texts float_text -> names HH -> proper_all load_npz (called HH) ->
    cleared H0 -> known_between (H0 ++ H) -> sound_calls HH HH -> only_inventory "inventory" kw db -> placed db q -> (forall x q, called HH x q -> steady x q) -> well HH q ->
    readable q x -> checked q -> settings_right c (H0 ++ H) -> from_dict g = Ok gs -> is_regular_ll gs = true ->
    (forall f', In f' pre -> exists v di gi go z n, field_ready (H ++ [cl]) q (gd gs) m f' v di gi go z n) ->
    of_field field_values field_grid f None v di -> IndexSpec.request di (gd gs) gi go -> only_to q (H ++ [cl]) gi go m -> nothing_at q gi go m ->
    let r := snd (regrid_call x (DFields (pre ++ f :: post)) (Some g) (VStr m) (VStr "precomputed") kw (pafter (einit c) (H0 ++ H))) in
    r = Raise ValueError \/ (r = Raise WeightsTooLarge /\ strict (e_mem (p_sys (pafter (einit c) (H0 ++ H)))) = true) \/
    exists f' v di gi go, In f' (pre ++ [f]) /\ of_field field_values field_grid f' None v di /\ IndexSpec.request di (gd gs) gi go /\ collides_with (H ++ [cl]) gi go m.
  Proof.
    intros cl Ecl HH EH WP FL FT NM PF CL KE SC OI PL ST WE RE CK AC GS LL EV OF RQ ON NA r. subst r.
    destruct (history2 zero add mul parse gunzip digest read_sha load_npz weigh sha dir None None check fetch ext_of py_str key_order fuel memory_of float_text mir_array mir_grib field_values field_grid field_with field_message message_field c H0 H CL KE) as (h0 & h & PS & FG & A0 & A1).
    pose proof (after_fine zero add mul efind mir_array mir_grib field_values field_grid field_with field_message message_field (einit c) (H0 ++ H)) as F.
    pose proof (right_ginv c (H0 ++ H) AC) as GV.
    destruct (pafter (einit c) (H0 ++ H)) as [y mk] eqn:PA. cbn [p_sys p_maker] in *.
    destruct (backend_there (VStr m) kw db y mk OI F) as ([y1 mk1] & o & B & PY & IM & DB). cbn [p_sys] in PY. subst y1.
    destruct (regrid_call x (DFields (pre ++ f :: post)) (Some g) (VStr m) (VStr "precomputed") kw (mkApi y mk)) as [sf rr] eqn:Q. cbn [snd].
    unfold Api.regrid_call, Api.fields_regrid in Q. unfold seq_act at 1 2 in Q. rewrite B in Q. cbn [fst snd] in Q. rewrite IM, GS in Q. unfold seq_act at 1 in Q. unfold lift at 1 in Q. rewrite LL in Q.
    assert (PK : picks "inventory" kw db). { destruct OI as [|w db N]; [reflexivity|]. unfold picks. cbn [alookup]. rewrite String.eqb_refl. exact N. }
    assert (I0 : forall d, In d H0 -> In d HH) by (intros d I; rewrite EH; apply in_or_app; auto).
    assert (I1 : forall d, In d (H ++ [cl]) -> In d HH) by (intros d I; rewrite EH; apply in_or_app; auto).
    assert (A0' : Forall (asked_op HH) h0) by (eapply Forall_impl; [|exact A0]; intros o'; apply asked_more; exact I0).
    assert (A1' : Forall (asked_op (H ++ [cl])) h) by (eapply Forall_impl; [|exact A1]; intros o'; apply asked_more; intros d I; apply in_or_app; auto).
    subst y.
    assert (AK : forall f' v di, In f' (pre ++ [f]) -> of_field field_values field_grid f' None v di -> asked_op (H ++ [cl]) (ECall x db v di (gd gs) m)).
    { intros f' v' di' I OF'. exists cl. split; [apply in_or_app; right; left; reflexivity|]. rewrite Ecl. assert (I' : In f' (pre ++ f :: post)) by (apply in_app_or in I; apply in_or_app; destruct I as [I|[I|[]]]; [left; exact I|right; left; exact I]). eapply d_fields; eassumption. }
    pose proof (fields_stop HH c (H ++ [cl]) x o db q (gd gs) m f v di gi go post WP FL FT NM PF SC ST WE RE CK IM DB PL h0 FG A0' I1 OF RQ ON NA pre [] mk1 h A1' GV AK EV) as T. cbv zeta in T.
    destruct (array_fields x o [("interpolation", VStr m)] (pre ++ f :: post) (gd gs) [] (mkApi (eafter c (h0 ++ h)) mk1)) as [s2 r]. cbn [snd] in T.
    destruct T as [->|[[-> TL]|CO]]; cbn in Q; [left; injection Q as _ <-; reflexivity|right; left; injection Q as _ <-; auto|right; right; exact CO].
  Qed.
End Steady.
