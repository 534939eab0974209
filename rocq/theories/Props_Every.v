(** C106: the public functions with local and remote inventories in one process; local files, servers
    and caches may change between the calls. *)
From Verif Require Import PyBase ListLemmas PyStr Float64 GridSpec GridVocab GridProofs Index IndexSpec IndexProofs IndexProofs2
  Db MemCache MemCacheProofs MemCacheProofs2 Inventory Regrid RegridSpec RegridProofs Props_Regrid System SystemSpec SystemProofs Props_System
  Disk DiskSpec DiskProofs DiskProofs2 Props_Disk Key KeySpec KeyProofs Props_Key CacheFile Props_CacheFile Remote RemoteSpec RemoteProofs RemoteProofs2 RemoteProofs3 RemoteProofs4 Props_Remote
  Dispatch Props_Dispatch Api ApiSpec ApiProofs Props_Api ApiTrace ApiRemote Every EverySpec EveryProofs.
Set Default Proof Using "Type".
Local Open Scope string_scope.
Local Open Scope list_scope.
Local Open Scope Z_scope.

Section Every.
  Context {A rest blob field : Type}.
  Variables (zero : A) (add mul : A -> A -> A).
  Variable parse : blob -> result (file rest).
  Variable gunzip : blob -> result blob.
  Variable digest : blob -> result string.
  Variable read_sha : blob -> result string.
  Variable load_npz : blob -> result (csr A).
  Variable weigh : blob -> node.
  Variable sha : string -> string.
  Variable dir : string.
  Variables limit usage : option Z.
  Variables check fetch : bool.
  Variable ext_of : string -> string.
  Variables (py_str : val -> string) (key_order : list string) (fuel : nat).
  Variable memory_of : rest -> Z.
  Variable float_text : f64 -> string.
  Variable mir_array : array A -> option dict -> option dict -> dict -> result (array A * dict).
  Variable mir_grib : string -> option dict -> dict -> result string.
  Variable field_values : field -> result (array A).
  Variable field_grid : field -> result (option dict).
  Variable field_with : field -> array A -> dict -> result field.
  Variable field_message : field -> result string.
  Variable message_field : string -> result field.
  Notation S := (@esys A rest blob).
  Notation meets := (@emeets A rest blob).
  Notation eop := (@eop A rest blob).
  Notation efind := (any_find parse gunzip digest read_sha load_npz weigh sha dir limit usage check fetch ext_of py_str key_order fuel memory_of float_text).
  Notation estep := (estep parse gunzip digest read_sha load_npz weigh sha dir limit usage check fetch ext_of py_str key_order fuel memory_of float_text).
  Notation eafter := (eafter parse gunzip digest read_sha load_npz weigh sha dir limit usage check fetch ext_of py_str key_order fuel memory_of float_text).
  Notation array_regrid := (array_regrid zero add mul efind mir_array).
  Notation backend_regrid := (backend_regrid zero add mul efind mir_array).
  Notation array_fields := (array_fields zero add mul efind mir_array field_values field_grid field_with).
  Notation regrid_call := (regrid_call zero add mul efind mir_array mir_grib field_values field_grid field_with field_message message_field).
  Notation pafter := (pafter zero add mul efind mir_array mir_grib field_values field_grid field_with field_message message_field).
  Notation pcall := (@pop_call A S meets field).
  Notation requested := (@requested A rest blob field field_values field_grid).
  Notation called := (@called A rest blob field field_values field_grid).
  Notation collides_with := (@collides_with A rest blob field field_values field_grid sha float_text).
  Notation only_to := (@only_to A rest blob field field_values field_grid).
  Notation had H := (had parse gunzip load_npz sha ext_of py_str key_order fuel (called H)).
  Notation sound_request H := (sound_request parse gunzip sha ext_of py_str key_order fuel (called H)).
  Notation names H := (names parse gunzip sha ext_of (served_in (called H)) (asked_in (called H))).
  Notation mstep := (mstep efind).
  Notation move := (@move A S meets).
  Implicit Types (H : list pcall) (o : eop) (h : list eop) (x : meets) (y : S) (l : list move).

  (** What happens between the calls: the memory cache is changed or cleared, a new process starts
      (its backends are new, which does not matter: C99), the disk cache is purged, a file deleted. *)
  Definition between o : Prop := match o with ECall _ _ _ _ _ _ => False | _ => True end.
  Definition known_between H : Prop := forall f, In (PElse f) H -> exists o, between o /\ forall y, f y = estep y o.

  (** The history of [Every.v] for a history of requests. *)
  Inductive stands_for : list move -> list eop -> Prop :=
  | sf_nil : stands_for [] []
  | sf_ask l h x db v di do m : stands_for l h -> stands_for (l ++ [MAsk (mkDemand x db v di do (VStr m))]) (h ++ [ECall x db v di do m])
  | sf_none l h r : stands_for l h -> (forall y, fstep efind y r = y) -> stands_for (l ++ [MAsk r]) h
  | sf_else l h f o : stands_for l h -> between o -> (forall y, f y = estep y o) -> stands_for (l ++ [MElse f]) (h ++ [o]).
  Lemma ask_or_none (r : demand A meets) : (exists x db v di do m, r = mkDemand x db v di do (VStr m)) \/ (forall y, fstep efind y r = y).
  Proof.
    destruct r as [x db v di do m]. destruct m as [| | | |m| |]; try (right; intros y; reflexivity).
    left. exists x, db, v, di, do, m. reflexivity.
  Qed.
  Lemma stands_same l h : stands_for l h -> forall y, fold_left mstep l y = fold_left estep h y.
  Proof.
    induction 1 as [|l h x db v di do m _ IH|l h r _ IH N|l h f o _ IH B Q]; intros y; [reflexivity|rewrite !fold_left_app, IH; cbn [fold_left ApiTrace.mstep]..].
    - reflexivity.
    - apply N.
    - apply Q.
  Qed.
  Lemma stands_exists l : (forall f, In (MElse f) l -> exists o, between o /\ forall y, f y = estep y o) -> exists h, stands_for l h.
  Proof.
    induction l as [|v l IH] using rev_ind; intros K; [exists []; constructor|]. destruct IH as [h SF]. { intros f I. apply K, in_or_app. left. exact I. }
    destruct v as [r|f].
    - destruct (ask_or_none r) as [(x & db & v & di & do & m & ->)|N]; eexists; [apply sf_ask; eassumption|apply sf_none; eassumption].
    - destruct (K f) as (o & B & Q); [apply in_or_app; right; left; reflexivity|]. exists (h ++ [o]). constructor; assumption.
  Qed.
  Definition asked_op H o : Prop := match o with ECall x db v di do m => exists d, In d H /\ demands field_values field_grid d (mkDemand x db v di do (VStr m)) | _ => True end.
  Lemma asked_more H H' o : (forall d, In d H -> In d H') -> asked_op H o -> asked_op H' o.
  Proof. intros I. destruct o; cbn; auto. intros (d & J & D). exists d. auto. Qed.
  Lemma stands_asked H l h : stands_for l h -> (forall r, In (MAsk r) l -> exists d, In d H /\ demands field_values field_grid d r) -> Forall (asked_op H) h.
  Proof.
    induction 1 as [|l h x db v di do m _ IH|l h r _ IH N|l h f o _ IH B Q]; intros K; [constructor| | |].
    - apply Forall_app. split; [apply IH; intros r I; apply K, in_or_app; left; exact I|]. constructor; [|constructor]. apply K, in_or_app. right. left. reflexivity.
    - apply IH. intros r' I. apply K, in_or_app. left. exact I.
    - apply Forall_app. split; [apply IH; intros r I; apply K, in_or_app; left; exact I|]. constructor; [|constructor]. destruct o; [contradiction|exact Logic.I..].
  Qed.
  Lemma history y mk H : fine mk -> known_between H -> exists h, p_sys (fold_left (pstep zero add mul efind mir_array mir_grib field_values field_grid field_with field_message message_field) H (mkApi y mk)) = fold_left estep h y /\ Forall (asked_op H) h.
  Proof.
    intros F KE. destruct (history_comes zero add mul efind mir_array mir_grib field_values field_grid field_with field_message message_field y mk H F) as (l & PS & C & _).
    pose proof (comes_in field_values field_grid H l C) as CI. destruct (stands_exists l) as [h SF]. { intros f I. apply KE. exact (CI _ I). }
    exists h. split; [rewrite PS; apply stands_same; exact SF|]. apply (stands_asked H l h SF). intros r I. exact (CI _ I).
  Qed.

  (** ** C106 *)
  (** Whatever public functions were called, the databases, the memory cache and the disk cache are
      as after requests to the inventories that these calls name. *)
  Theorem C106_trace c H : known_between H -> exists h, p_sys (pafter (einit c) H) = eafter c h /\
    forall x db v di do m q, In (ECall x db v di do m) h -> placed db q -> requested H x q v di do m.
  Proof.
    intros KE. destruct (history (einit c) (mkMaker [] 0) H fine_none KE) as (h & PS & FH). exists h. split; [exact PS|]. intros x db v di do m q I L. rewrite Forall_forall in FH. destruct (FH _ I) as (d & J & D). exists d. split; [exact J|]. exists db. auto.
  Qed.
  (** Nothing was called before, the memory cache was cleared last, or the process is new. *)
  Definition cleared H : Prop := H = [] \/ exists H' f, H = H' ++ [PElse f] /\ ((forall y, f y = estep y EClearMemory) \/ exists c, forall y, f y = estep y (ERestart c)).
  Lemma history2 c H0 H : cleared H0 -> known_between (H0 ++ H) -> exists h0 h, p_sys (pafter (einit c) (H0 ++ H)) = eafter c (h0 ++ h) /\ fresh_start h0 /\
    Forall (asked_op H0) h0 /\ Forall (asked_op H) h.
  Proof.
    intros CL KE. assert (K0 : known_between H0) by (intros f I; apply KE, in_or_app; left; exact I). assert (K1 : known_between H) by (intros f I; apply KE, in_or_app; right; exact I).
    assert (X : exists h0, p_sys (pafter (einit c) H0) = eafter c h0 /\ fresh_start h0 /\ Forall (asked_op H0) h0).
    { destruct CL as [->|(H' & f & -> & Q)]; [exists []; split; [reflexivity|]; split; [left; reflexivity|constructor]|].
      destruct (history (einit c) (mkMaker [] 0) H' fine_none) as (h & PS & FH). { intros f' I. apply K0, in_or_app. left. exact I. }
      assert (Y : exists o, (forall y, f y = estep y o) /\ (o = EClearMemory \/ exists c, o = ERestart c)) by (destruct Q as [Q|(c' & Q)]; eexists; (split; [exact Q|]); eauto). destruct Y as (o & Q' & OO).
      exists (h ++ [o]). unfold Api.pafter, Every.eafter. rewrite !fold_left_app. cbn [fold_left Api.pstep p_sys]. rewrite PS. split; [apply Q'|]. split; [right; exists h, o; auto|].
      apply Forall_app. split; [|constructor; [|constructor]; destruct OO as [->|(c' & ->)]; exact Logic.I]. eapply Forall_impl; [|exact FH]. intros o'. apply asked_more. intros d I. apply in_or_app. left. exact I. }
    destruct X as (h0 & PS & FG & A0). pose proof (after_fine zero add mul efind mir_array mir_grib field_values field_grid field_with field_message message_field (einit c) H0) as F.
    unfold Api.pafter in *. rewrite fold_left_app. set (s := fold_left _ H0 _) in *. clearbody s. destruct s as [y mk]. cbn [p_sys p_maker] in *.
    destruct (history y mk H F K1) as (h & PS' & FH). exists h0, h. split; [|auto]. unfold Every.eafter. rewrite fold_left_app. rewrite PS'. rewrite PS. reflexivity.
  Qed.

  Definition sound_calls HH H : Prop := forall x q v di do m, requested H x q v di do m -> sound_request HH q di do m.
  Lemma requested_more H H' x q v di do m : (forall d, In d H -> In d H') -> requested H x q v di do m -> requested H' x q v di do m.
  Proof. intros I (d & J & D). exists d. auto. Qed.
  Lemma op_requested H x db q v di do m : asked_op H (ECall x db v di do m) -> placed db q -> requested H x q v di do m.
  Proof. intros (d & I & D) L. exists d. split; [exact I|]. exists db. auto. Qed.
  Lemma ops_sound HH H h : (forall d, In d H -> In d HH) -> sound_calls HH HH -> Forall (asked_op H) h -> Forall (sound_op parse gunzip sha ext_of py_str key_order fuel (called HH)) h.
  Proof.
    intros I SC. apply Forall_impl. intros [x db v di do m|c| |c|e la|p]; cbn; auto. intros K q L. exact (SC x q v di do m (requested_more _ _ _ _ _ _ _ _ I (op_requested _ _ _ _ _ _ _ _ K L))).
  Qed.
  Lemma ops_made HH H h : (forall d, In d H -> In d HH) -> Forall (asked_op H) h -> Forall (made (called HH)) h.
  Proof.
    intros I. apply Forall_impl. intros [x db v di do m|c| |c|e la|p]; cbn; auto. intros K q L. exists v, di, do, m. exact (requested_more _ _ _ _ _ _ _ _ I (op_requested _ _ _ _ _ _ _ _ K L)).
  Qed.
  Lemma had_proper H x q gi go m z sh : proper_all load_npz (called H) -> called H x q -> had H x q gi go m z sh -> proper_csr z.
  Proof.
    intros [P1 P2] CX. destruct q as [path|base]; cbn [EverySpec.had].
    - intros (i & pre & n & e & post & p & _ & _ & _ & _ & _ & AL & _). exact (P1 x path _ z CX AL).
    - intros (i & pre & nm & e & post & p & b & _ & _ & _ & _ & _ & (w & _ & SU) & LZ & _). exact (P2 _ _ _ SU LZ).
  Qed.
  (** Where the weights that a request finds come from. *)
  Definition origin HH H (v : array A) (di do : dict) (m : string) (u : array A) : Prop :=
    exists gi go z sh n, IndexSpec.request di do gi go /\ is_shape sh n /\ applies zero add mul z n v u /\
      (collides_with H gi go m \/
       exists x' q' v' di' do' gi' go', requested H x' q' v' di' do' m /\ IndexSpec.request di' do' gi' go' /\ same_spec gi gi' /\ same_spec go go' /\ had HH x' q' gi' go' m z sh).
  Lemma found_origin HH c h0 h H x db v di do m t' found u g :
    (forall b, 0 <= n_size (weigh b)) -> fixed_length sha -> float_texts float_text -> names HH -> proper_all load_npz (called HH) ->
    fresh_start h0 -> (forall d, In d H -> In d HH) -> sound_calls HH HH -> Forall (asked_op HH) h0 -> Forall (asked_op H) (h ++ [ECall x db v di do m]) ->
    efind x db di do (VStr m) (eafter c (h0 ++ h)) = (t', found) -> regrid_from zero add mul found v do = Ok (u, g) -> g = do /\ origin HH H v di do m u.
  Proof.
    intros WP FL FT NM PF FG IN SC A0 AO Q R. assert (PL : exists q, placed db q) by (destruct db; eexists; constructor). destruct PL as (q & PL).
    apply Forall_app in AO. destruct AO as [A1 A2]. inversion A2 as [|? ? A3 _]; subst.
    assert (M : Forall (made (called HH)) (h0 ++ h)) by (apply Forall_app; split; [exact (ops_made HH HH h0 (fun d I => I) A0)|exact (ops_made HH H h IN A1)]).
    assert (SO : Forall (sound_op parse gunzip sha ext_of py_str key_order fuel (called HH)) (h0 ++ h)) by (apply Forall_app; split; [exact (ops_sound HH HH h0 (fun d I => I) SC A0)|exact (ops_sound HH H h IN SC A1)]).
    pose proof (after_every parse gunzip digest read_sha load_npz weigh sha dir limit usage check fetch ext_of py_str key_order fuel memory_of float_text (called HH) WP NM FL c h0 h FG M SO) as HS.
    pose proof (ops_made HH H _ IN A2) as M2. inversion M2 as [|? ? M3 _]; subst. pose proof (ops_sound HH H _ IN SC A2) as S2. inversion S2 as [|? ? S3 _]; subst. clear M2 S2.
    apply regrid_from_ok in R. destruct R as (z & sh & n & -> & SH & R). apply shape_spec in SH.
    destruct (found_somewhere parse gunzip digest read_sha load_npz weigh sha dir limit usage check fetch ext_of py_str key_order fuel memory_of float_text (called HH) WP NM FL h _ x db q v di do m t' _ PL HS M3 S3 Q) as (_ & K).
    destruct (K _ eq_refl) as (gi & go & RQ & x' & db' & q' & v' & di' & do' & m' & gi' & go' & I & PL' & RQ' & KE & WF). cbn [fst snd] in WF.
    assert (AA : asked_op H (ECall x' db' v' di' do' m')). { apply in_app_or in I. destruct I as [I|[I|[]]]; [rewrite Forall_forall in A1; exact (A1 _ I)|rewrite <- I; exact A3]. }
    pose proof (op_requested _ _ _ _ _ _ _ _ AA PL') as RE'. pose proof (requested_more _ _ _ _ _ _ _ _ IN RE') as RE2.
    assert (P : proper_csr z). { apply (had_proper HH x' q' gi' go' m' z sh PF); [exists v', di', do', m'; exact RE2|exact WF]. }
    destruct (regrid_applies zero add mul z n v do u g P R) as [-> AP]. split; [reflexivity|]. exists gi, go, z, sh, n. split; [exact RQ|]. split; [exact SH|]. split; [exact AP|].
    destruct (S3 q PL) as (P1 & P2 & _), (SC _ _ _ _ _ _ RE2) as (P3 & P4 & _).
    destruct (key_spec sha float_text FT di do di' do' gi go gi' go' m m' P1 P2 P3 P4 RQ RQ' (eq_sym KE)) as [(SI & SG & ->)|[NE CO]].
    - right. exists x', q', v', di', do', gi', go'. auto 7.
    - left. exists x', q', v', di', do', m', gi', go'. auto.
  Qed.

  Lemma array_origin c H0 H x db kw values di do m r g :
    forall HH, (forall d, In d (H0 ++ H ++ [PArray x values (Some di) (Some do) (VStr m) (VStr "precomputed") kw]) -> In d HH) ->
    (forall b, 0 <= n_size (weigh b)) -> fixed_length sha -> float_texts float_text -> names HH -> proper_all load_npz (called HH) ->
    cleared H0 -> known_between (H0 ++ H) -> sound_calls HH HH -> only_inventory "inventory" kw db ->
    snd (array_regrid x values (Some di) (Some do) (VStr m) (VStr "precomputed") kw (pafter (einit c) (H0 ++ H))) = Ok (r, g) ->
    g = do /\ origin HH (H ++ [PArray x values (Some di) (Some do) (VStr m) (VStr "precomputed") kw]) values di do m r.
  Proof.
    set (call := PArray x values (Some di) (Some do) (VStr m) (VStr "precomputed") kw).
    intros HH EH WP FL FT NM PF CL KE SC OI Q. destruct (history2 c H0 H CL KE) as (h0 & h & PS & FG & A0 & A1).
    pose proof (after_fine zero add mul efind mir_array mir_grib field_values field_grid field_with field_message message_field (einit c) (H0 ++ H)) as F.
    destruct (pafter (einit c) (H0 ++ H)) as [y mk] eqn:PA. cbn [p_sys p_maker] in *.
    destruct (array_direct zero add mul efind mir_array x db values di do (VStr m) kw OI y mk mk F F) as (_ & _ & _ & R).
    rewrite Q in R. unfold direct in R. cbn [p_sys] in R.
    destruct (efind x db di do (VStr m) y) as [t' found] eqn:DF. cbn [snd related] in R. destruct (regrid_from zero add mul found values do) as [rg|e|] eqn:RF; [|contradiction..]. subst rg. rewrite PS in DF.
    assert (I0 : forall d, In d H0 -> In d HH) by (intros d I; apply EH, in_or_app; auto).
    assert (I1 : forall d, In d (H ++ [call]) -> In d HH) by (intros d I; apply EH, in_or_app; auto).
    assert (A2 : Forall (asked_op (H ++ [call])) (h ++ [ECall x db values di do m])).
    { apply Forall_app. split; [eapply Forall_impl; [|exact A1]|constructor; [|constructor]].
      - intros o. apply asked_more. intros d I. apply in_or_app. auto.
      - exists call. split; [apply in_or_app; right; left; reflexivity|]. constructor. destruct OI as [|v db N]; [reflexivity|]. unfold picks. cbn [alookup]. rewrite String.eqb_refl. exact N. }
    refine (found_origin HH c h0 h (H ++ [call]) x db values di do m t' found r g WP FL FT NM PF FG I1 SC _ A2 DF RF).
    eapply Forall_impl; [|exact A0]. intros o. apply asked_more. exact I0.
  Qed.
  (** An answered call for an array applies weights that an inventory, asked for the same, had. *)
  Theorem C106_array_origin c H0 H x db kw values di do m r g :
    forall HH, HH = H0 ++ H ++ [PArray x values (Some di) (Some do) (VStr m) (VStr "precomputed") kw] ->
    (forall b, 0 <= n_size (weigh b)) -> fixed_length sha -> float_texts float_text -> names HH -> proper_all load_npz (called HH) ->
    cleared H0 -> known_between (H0 ++ H) -> sound_calls HH HH -> only_inventory "inventory" kw db ->
    snd (array_regrid x values (Some di) (Some do) (VStr m) (VStr "precomputed") kw (pafter (einit c) (H0 ++ H))) = Ok (r, g) ->
    g = do /\ origin HH (H ++ [PArray x values (Some di) (Some do) (VStr m) (VStr "precomputed") kw]) values di do m r.
  Proof. intros HH EH. apply (array_origin c H0 H). rewrite EH. auto. Qed.
  (** What an answered request comes to, if it was made to no other inventory: weights that the
      inventory had during a call since the start. *)
  Definition answered HH H q (v : array A) (di do : dict) (m : string) (u : array A) : Prop :=
    exists gi go, IndexSpec.request di do gi go /\
      (collides_with H gi go m \/ exists x z sh n, called H x q /\ had HH x q gi go m z sh /\ is_shape sh n /\ applies zero add mul z n v u).
  Lemma had_same HH x q gi go gi' go' m z sh : same_spec gi gi' -> same_spec go go' -> had HH x q gi go m z sh -> had HH x q gi' go' m z sh.
  Proof.
    intros SI SG. destruct q as [path|base]; cbn [EverySpec.had].
    - intros (i & pre & n & e & post & p & SE & -> & Y & N & MP & AL & SH).
      assert (F : IndexProofs.first py_str key_order fuel (pre ++ (n, e) :: post) gi go (method_alias m) = Ok (Some e)) by (apply first_some; exists pre, n, post; auto).
      rewrite (first_same py_str key_order fuel _ gi gi' go go' _ SI SG) in F. apply first_some in F. destruct F as (pre' & n' & post' & E & Y' & N').
      exists (pre ++ (n, e) :: post), pre', n', e, post', p. auto 8.
    - exact (weights_from_same parse gunzip load_npz sha ext_of py_str key_order fuel _ _ base gi go gi' go' m z sh SI SG).
  Qed.
  Lemma origin_answered HH H q v di do m u : (forall gi go, IndexSpec.request di do gi go -> only_to q H gi go m) -> origin HH H v di do m u -> answered HH H q v di do m u.
  Proof.
    intros AO (gi & go & z & sh & n & RQ & SH & AP & [CO|(x' & q' & v' & di' & do' & gi' & go' & AA & RQ' & SI & SG & WF)]); exists gi, go; (split; [exact RQ|]); [left; exact CO|right].
    assert (q' = q) as -> by exact (AO gi go RQ x' q' v' di' do' gi' go' AA RQ' SI SG). exists x', z, sh, n. split; [exists v', di', do', m; exact AA|]. split; [|auto].
    refine (had_same HH x' q gi' go' gi go m z sh _ _ WF).
    - exact (same_result_sym (Ok gi) (Ok gi') SI).
    - exact (same_result_sym (Ok go) (Ok go') SG).
  Qed.
  Theorem C106_array_partial c H0 H x db q kw values di do m r g :
    forall HH, HH = H0 ++ H ++ [PArray x values (Some di) (Some do) (VStr m) (VStr "precomputed") kw] ->
    (forall b, 0 <= n_size (weigh b)) -> fixed_length sha -> float_texts float_text -> names HH -> proper_all load_npz (called HH) ->
    cleared H0 -> known_between (H0 ++ H) -> sound_calls HH HH -> only_inventory "inventory" kw db -> placed db q ->
    (forall gi go, IndexSpec.request di do gi go -> only_to q (H ++ [PArray x values (Some di) (Some do) (VStr m) (VStr "precomputed") kw]) gi go m) ->
    snd (array_regrid x values (Some di) (Some do) (VStr m) (VStr "precomputed") kw (pafter (einit c) (H0 ++ H))) = Ok (r, g) ->
    g = do /\ answered HH (H ++ [PArray x values (Some di) (Some do) (VStr m) (VStr "precomputed") kw]) q values di do m r.
  Proof.
    intros HH EH WP FL FT NM PF CL KE SC OI LO AO Q. destruct (C106_array_origin c H0 H x db kw values di do m r g HH EH WP FL FT NM PF CL KE SC OI Q) as [-> OR]. split; [reflexivity|]. exact (origin_answered _ _ _ _ _ _ _ _ AO OR).
  Qed.
  (** A directory whose files did not change: its weights, whatever happens to other inventories. *)
  Theorem C106_unchanged_partial c H0 H x p kw values di do m r g files :
    forall HH, HH = H0 ++ H ++ [PArray x values (Some di) (Some do) (VStr m) (VStr "precomputed") kw] ->
    (forall b, 0 <= n_size (weigh b)) -> fixed_length sha -> float_texts float_text -> names HH -> proper_all load_npz (called HH) ->
    cleared H0 -> known_between (H0 ++ H) -> sound_calls HH HH -> only_inventory "inventory" kw (FromPath p) ->
    (forall gi go, IndexSpec.request di do gi go -> only_to (Here p) (H ++ [PArray x values (Some di) (Some do) (VStr m) (VStr "precomputed") kw]) gi go m) ->
    (forall x', called HH x' (Here p) -> forall f, alookup (join_path p f) (em_files x') = alookup (join_path p f) files) ->
    snd (array_regrid x values (Some di) (Some do) (VStr m) (VStr "precomputed") kw (pafter (einit c) (H0 ++ H))) = Ok (r, g) ->
    g = do /\ exists gi go, IndexSpec.request di do gi go /\
      (collides_with (H ++ [PArray x values (Some di) (Some do) (VStr m) (VStr "precomputed") kw]) gi go m \/
       exists z sh n, weights_for py_str key_order fuel files p gi go m z sh /\ is_shape sh n /\ applies zero add mul z n values r).
  Proof.
    intros HH EH WP FL FT NM PF CL KE SC OI AO SA Q.
    destruct (C106_array_partial c H0 H x (FromPath p) (Here p) kw values di do m r g HH EH WP FL FT NM PF CL KE SC OI (pl_path p) AO Q) as (-> & gi & go & RQ & [CO|(x' & z & sh & n & CX & WH & SH & AP)]);
      (split; [reflexivity|]; exists gi, go; split; [exact RQ|]); [left; exact CO|right]. exists z, sh, n. split; [|auto].
    destruct WH as (i & pre & nm & e & post & f & (x1 & C1 & LI) & E & Y & N & MP & AL & S0).
    assert (IN : forall d, In d (H ++ [PArray x values (Some di) (Some do) (VStr m) (VStr "precomputed") kw]) -> In d HH) by (intros d I; rewrite EH; apply in_or_app; auto).
    assert (CX' : called HH x' (Here p)). { destruct CX as (v' & di' & do' & m' & K). exists v', di', do', m'. exact (requested_more _ _ _ _ _ _ _ _ IN K). }
    exists i, pre, nm, e, post, f. split; [|split; [exact E|split; [exact Y|split; [exact N|split; [exact MP|split; [rewrite <- (SA x' CX' f); exact AL|exact S0]]]]]].
    unfold local_index, read_index in *. rewrite <- (SA x1 C1 "index.json"). exact LI.
  Qed.
  (** Nothing is found in a directory only if no entry of its index answers, as the index is during
      the call. *)
  Theorem C106_nothing c H x p di do m t' :
    (forall b, 0 <= n_size (weigh b)) -> fixed_length sha -> forall HH, (forall d, In d H -> In d HH) -> names HH ->
    known_between H -> sound_calls HH HH -> called HH x (Here p) -> sound_request HH (Here p) di do m ->
    efind x (FromPath p) di do (VStr m) (p_sys (pafter (einit c) H)) = (t', Ok None) ->
    exists gi go i, IndexSpec.request di do gi go /\ local_index p (em_files x) = Ok i /\ Forall (fun ne => does_not_answer py_str key_order fuel (snd ne) gi go (method_alias m)) i.
  Proof.
    intros WP FL HH IN NM KE SC CX SR Q. destruct (history (einit c) (mkMaker [] 0) H fine_none KE) as (h & PS & FH). unfold Api.pafter in Q. rewrite PS in Q.
    pose proof (ops_made HH H h IN FH) as M. pose proof (ops_sound HH H h IN SC FH) as SO.
    pose proof (after_every parse gunzip digest read_sha load_npz weigh sha dir limit usage check fetch ext_of py_str key_order fuel memory_of float_text (called HH) WP NM FL c [] h (or_introl eq_refl) M SO) as HS.
    exact (nothing_here parse gunzip digest read_sha load_npz weigh sha dir limit usage check fetch ext_of py_str key_order fuel memory_of float_text (called HH) h _ x p di do m t' HS CX SR Q).
  Qed.

  (** Lists of fields: each field is regridded on its own. *)
  Definition field_done HH H q (do : dict) (m : string) (f f' : field) : Prop :=
    exists v di u, of_field field_values field_grid f None v di /\ field_with f u do = Ok f' /\ answered HH H q v di do m u.
  Lemma fields_origin HH c H x (o : obj) db q do m :
    (forall b, 0 <= n_size (weigh b)) -> fixed_length sha -> float_texts float_text -> names HH -> proper_all load_npz (called HH) ->
    is_mir o = false -> db_of_obj o = Ok db -> placed db q -> forall h0, fresh_start h0 -> Forall (asked_op HH) h0 -> (forall d, In d H -> In d HH) -> sound_calls HH HH ->
    forall fs done mk h, Forall (asked_op H) h ->
    (forall f v di, In f fs -> of_field field_values field_grid f None v di -> asked_op H (ECall x db v di do m) /\ forall gi go, IndexSpec.request di do gi go -> only_to q H gi go m) -> forall rs,
    snd (array_fields x o [("interpolation", VStr m)] fs do done (mkApi (eafter c (h0 ++ h)) mk)) = Ok rs ->
    exists rs', rs = done ++ rs' /\ Forall2 (field_done HH H q do m) fs rs'.
  Proof.
    intros WP FL FT NM PF IM DB LO h0 FG A0 IN SC. induction fs as [|f fs IH]; intros done mk h FH EV rs Q.
    { cbn in Q. injection Q as <-. exists []. rewrite app_nil_r. auto. }
    cbn [Api.array_fields] in Q. unfold seq_act at 1 in Q. unfold lift at 1 in Q. destruct (field_values f) as [v|e|] eqn:V; [|discriminate Q..].
    unfold seq_act at 1 in Q. unfold lift at 1 in Q. destruct (input_gridspec field_grid f) as [di|e|] eqn:G; [|discriminate Q..].
    assert (OF : of_field field_values field_grid f None v di). { split; [exact V|]. unfold input_gridspec in G. destruct (field_grid f) as [[d|]|e|]; try discriminate G. cbn in G. congruence. }
    destruct (EV f v di (or_introl eq_refl) OF) as [AK AO]. unfold seq_act at 1, Api.backend_regrid in Q. rewrite IM, (tail_eq zero add mul efind o x db v di do (VStr m) DB) in Q. unfold direct in Q. cbn [p_sys p_maker] in Q.
    assert (NX : fst (efind x db di do (VStr m) (eafter c (h0 ++ h))) = eafter c (h0 ++ (h ++ [ECall x db v di do m]))).
    { unfold Every.eafter. rewrite app_assoc, (fold_left_app _ (h0 ++ h)). reflexivity. }
    destruct (efind x db di do (VStr m) (eafter c (h0 ++ h))) as [y' found] eqn:DF. cbn [fst snd] in *. destruct (regrid_from zero add mul found v do) as [[u g]|e|] eqn:R; [|discriminate Q..].
    assert (FH' : Forall (asked_op H) (h ++ [ECall x db v di do m])) by (apply Forall_app; split; [exact FH|repeat constructor; exact AK]).
    destruct (found_origin HH c h0 h H x db v di do m y' found u g WP FL FT NM PF FG IN SC A0 FH' DF R) as [-> OR].
    cbn [fst snd] in Q. unfold seq_act at 1 in Q. unfold lift at 1 in Q. destruct (field_with f u do) as [f'|e|] eqn:W; [|discriminate Q..]. subst y'.
    destruct (IH (done ++ [f']) mk (h ++ [ECall x db v di do m])) with (rs := rs) as (rs' & -> & F2); [exact FH'|intros f1 v1 di1 I1; apply EV; right; exact I1|exact Q|].
    exists (f' :: rs'). rewrite <- app_assoc. split; [reflexivity|]. constructor; [|exact F2]. exists v, di, u. split; [exact OF|]. split; [exact W|]. exact (origin_answered _ _ _ _ _ _ _ _ AO OR).
  Qed.
  Theorem C106_fields_partial c H0 H x db q kw fs g gs m d :
    forall HH, HH = H0 ++ H ++ [PRegrid x (DFields fs) (Some g) (VStr m) (VStr "precomputed") kw] ->
    (forall b, 0 <= n_size (weigh b)) -> fixed_length sha -> float_texts float_text -> names HH -> proper_all load_npz (called HH) ->
    cleared H0 -> known_between (H0 ++ H) -> sound_calls HH HH -> only_inventory "inventory" kw db -> placed db q -> from_dict g = Ok gs ->
    (forall f v di, In f fs -> of_field field_values field_grid f None v di -> forall gi go, IndexSpec.request di (gd gs) gi go ->
       only_to q (H ++ [PRegrid x (DFields fs) (Some g) (VStr m) (VStr "precomputed") kw]) gi go m) ->
    snd (regrid_call x (DFields fs) (Some g) (VStr m) (VStr "precomputed") kw (pafter (einit c) (H0 ++ H))) = Ok d ->
    is_regular_ll gs = true /\ exists rs, d = DFields rs /\
      Forall2 (field_done HH (H ++ [PRegrid x (DFields fs) (Some g) (VStr m) (VStr "precomputed") kw]) q (gd gs) m) fs rs.
  Proof.
    set (call := PRegrid x (DFields fs) (Some g) (VStr m) (VStr "precomputed") kw).
    intros HH EH WP FL FT NM PF CL KE SC OI LO GS AO Q. destruct (history2 c H0 H CL KE) as (h0 & h & PS & FG & A0 & A1).
    pose proof (after_fine zero add mul efind mir_array mir_grib field_values field_grid field_with field_message message_field (einit c) (H0 ++ H)) as F.
    destruct (pafter (einit c) (H0 ++ H)) as [y mk] eqn:PA. cbn [p_sys p_maker] in *.
    assert (PK : picks "inventory" kw db). { destruct OI as [|v db N]; [reflexivity|]. unfold picks. cbn [alookup]. rewrite String.eqb_refl. exact N. }
    unfold Api.regrid_call, Api.fields_regrid in Q. unfold seq_act at 1 2 in Q.
    destruct (backend_of (("interpolation", VStr m) :: ("backend", VStr "precomputed") :: kw) (mkApi y mk)) as [s1 [[o k]|e|]] eqn:B; [|discriminate Q..].
    destruct (backend_of_ok _ (mkApi y mk) s1 o k F B) as (PY & F1 & b_kw & BK & _ & KO & _).
    assert (X : o_name o = "precomputed" /\ k = [("interpolation", VStr m)] /\ b_kw = kw). { destruct OI; cbn in BK; injection BK as ON <- <-; auto. } destruct X as (ON & -> & ->). clear BK. cbn [fst snd] in Q.
    assert (IM : is_mir o = false) by (unfold is_mir; rewrite ON; reflexivity). rewrite IM in Q. specialize (KO IM). rewrite GS in Q. unfold seq_act at 1, lift at 1 in Q.
    destruct (is_regular_ll gs) eqn:LL; [|discriminate Q]. split; [reflexivity|]. destruct s1 as [y1 mk1]. cbn [p_sys] in PY. subst y1.
    assert (DB : db_of_obj o = Ok db). { unfold db_of_obj. rewrite KO. unfold picks in PK. destruct (alookup "inventory" kw) as [v|]; [apply names_get; exact PK|subst db; reflexivity]. }
    destruct (array_fields x o [("interpolation", VStr m)] fs (gd gs) [] (mkApi y mk1)) as [s2 [rs|e|]] eqn:L; [|discriminate Q..]. cbn in Q. injection Q as <-. exists rs. split; [reflexivity|].
    assert (I0 : forall d, In d H0 -> In d HH) by (intros d I; rewrite EH; apply in_or_app; auto).
    assert (I1 : forall d, In d (H ++ [call]) -> In d HH) by (intros d I; rewrite EH; apply in_or_app; auto).
    destruct (fields_origin HH c (H ++ [call]) x o db q (gd gs) m WP FL FT NM PF IM DB LO h0 FG) with (fs := fs) (done := @nil field) (mk := mk1) (h := h) (rs := rs) as (rs' & -> & F2).
    - eapply Forall_impl; [|exact A0]. intros o'. apply asked_more. exact I0.
    - exact I1.
    - exact SC.
    - eapply Forall_impl; [|exact A1]. intros o'. apply asked_more. intros d I. apply in_or_app. auto.
    - intros f v di I OF. split; [|exact (AO f v di I OF)]. exists call. split; [apply in_or_app; right; left; reflexivity|]. eapply d_fields; eassumption.
    - rewrite <- PS, L. reflexivity.
    - exact F2.
  Qed.
End Every.
