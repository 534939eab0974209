(** C103: the public functions with remote inventories, from the arguments to the weights. *)
From Verif Require Import PyBase ListLemmas PyStr Float64 GridSpec GridVocab GridProofs Index IndexSpec IndexProofs IndexProofs2
  Db MemCache MemCacheProofs MemCacheProofs2 Inventory Regrid RegridSpec RegridProofs Props_Regrid System SystemSpec SystemProofs Props_System
  Disk DiskSpec DiskProofs DiskProofs2 Props_Disk Key KeySpec KeyProofs Props_Key CacheFile Props_CacheFile Remote RemoteSpec RemoteProofs RemoteProofs2 RemoteProofs3 RemoteProofs4 Props_Remote
  Dispatch Props_Dispatch Api ApiSpec ApiProofs Props_Api ApiTrace ApiRemote ApiRemoteSpec.
Set Default Proof Using "Type".
Local Open Scope string_scope.
Local Open Scope list_scope.
Local Open Scope Z_scope.

Lemma located_base db base : located db base <-> base_of db = Some base.
Proof.
  split.
  - intros [|u N]; [reflexivity|]. cbn. destruct (String.eqb_spec u SYSTEM_URL); [contradiction|reflexivity].
  - destruct db as [|u|p]; cbn; [intros Q; injection Q as <-; constructor| |discriminate]. destruct (String.eqb_spec u SYSTEM_URL) as [|N]; [discriminate|]. intros Q. injection Q as <-. constructor. exact N.
Qed.

Section Remote.
  Context {A rest blob field : Type}.
  Variables (zero : A) (add mul : A -> A -> A).
  Variable parse : blob -> result (file rest).
  Variable gunzip : blob -> result blob.
  Variable digest : blob -> result string.
  Variable read_sha : blob -> result string.
  Variable load_npz : blob -> result (csr A).
  Variable weigh : blob -> node.
  Variable sha : string -> string.
  Variable dir : string.
  Variables limit usage : option Z.
  Variables check fetch : bool.
  Variable ext_of : string -> string.
  Variables (py_str : val -> string) (key_order : list string) (fuel : nat).
  Variable memory_of : rest -> Z.
  Variable float_text : f64 -> string.
  Variable mir_array : array A -> option dict -> option dict -> dict -> result (array A * dict).
  Variable mir_grib : string -> option dict -> dict -> result string.
  Variable field_values : field -> result (array A).
  Variable field_grid : field -> result (option dict).
  Variable field_with : field -> array A -> dict -> result field.
  Variable field_message : field -> result string.
  Variable message_field : string -> result field.
  Notation S := (@rsys A rest blob).
  Notation meets := (@meets blob).
  Notation rop := (@rop A blob).
  Notation rfind := (remote_find parse gunzip digest read_sha load_npz weigh sha dir limit usage check fetch ext_of py_str key_order fuel memory_of float_text).
  Notation db_find := (Remote.db_find parse gunzip digest read_sha load_npz weigh sha dir limit usage check fetch ext_of py_str key_order fuel memory_of float_text).
  Notation rstep := (Remote.rstep parse gunzip digest read_sha load_npz weigh sha dir limit usage check fetch ext_of py_str key_order fuel zero add mul memory_of float_text).
  Notation rafter := (Remote.rafter parse gunzip digest read_sha load_npz weigh sha dir limit usage check fetch ext_of py_str key_order fuel zero add mul memory_of float_text).
  Notation array_regrid := (array_regrid zero add mul rfind mir_array).
  Notation backend_regrid := (backend_regrid zero add mul rfind mir_array).
  Notation array_fields := (array_fields zero add mul rfind mir_array field_values field_grid field_with).
  Notation regrid_call := (regrid_call zero add mul rfind mir_array mir_grib field_values field_grid field_with field_message message_field).
  Notation pafter := (pafter zero add mul rfind mir_array mir_grib field_values field_grid field_with field_message message_field).
  Notation pcall := (@pop_call A S meets field).
  Notation asked_at := (@asked_at A rest blob field field_values field_grid).
  Notation served_to := (@served_to A rest blob field field_values field_grid).
  Notation asked_from := (@asked_from A rest blob field field_values field_grid).
  Notation collides_at := (@collides_at A rest blob field field_values field_grid sha float_text).
  Notation only_at := (@only_at A rest blob field field_values field_grid).
  Notation weights_from H := (weights_from parse gunzip load_npz sha ext_of py_str key_order fuel (served_to H) (asked_from H)).
  Notation comparable_at H := (comparable_at (rest := rest) parse gunzip sha ext_of py_str key_order fuel (served_to H) (asked_from H)).
  Notation mstep := (mstep rfind).
  Notation move := (@move A S meets).
  Implicit Types (H : list pcall) (o : rop) (h : list rop) (x : meets) (y : S) (l : list move).

  (** What happens between the calls: the memory cache is changed or cleared, a new process starts
      (its backends are new, which does not matter: C99), the disk cache is purged, a file deleted. *)
  Definition between o : Prop := match o with RCall _ _ _ _ _ _ => False | _ => True end.
  Definition known_between H : Prop := forall f, In (PElse f) H -> exists o, between o /\ forall y, f y = rstep y o.

  (** The history of [Remote.v] for a history of requests. *)
  Inductive stands_for : list move -> list rop -> Prop :=
  | sf_nil : stands_for [] []
  | sf_ask l h x db base v di do m : stands_for l h -> located db base -> stands_for (l ++ [MAsk (mkDemand x db v di do (VStr m))]) (h ++ [RCall x base v di do m])
  | sf_none l h r : stands_for l h -> (forall y, fstep rfind y r = y) -> stands_for (l ++ [MAsk r]) h
  | sf_else l h f o : stands_for l h -> between o -> (forall y, f y = rstep y o) -> stands_for (l ++ [MElse f]) (h ++ [o]).
  Lemma ask_or_none (r : demand A meets) : (exists x db base v di do m, r = mkDemand x db v di do (VStr m) /\ located db base) \/ (forall y, fstep rfind y r = y).
  Proof.
    destruct r as [x db v di do m]. destruct (base_of db) as [base|] eqn:Q; [|right; intros y; unfold fstep, remote_find; cbn [dm_meets dm_db dm_in dm_out dm_method]; rewrite Q; reflexivity].
    destruct m as [| | | |m| |]; try (right; intros y; unfold fstep, remote_find; cbn [dm_meets dm_db dm_in dm_out dm_method]; rewrite Q; reflexivity).
    left. exists x, db, base, v, di, do, m. split; [reflexivity|apply located_base; exact Q].
  Qed.
  Lemma ask_step x db base v di do m y : located db base -> fstep rfind y (mkDemand x db v di do (VStr m)) = rstep y (RCall x base v di do m).
  Proof.
    intros L. apply located_base in L. unfold fstep, remote_find. cbn [dm_meets dm_db dm_in dm_out dm_method]. rewrite L. cbn [Remote.rstep]. unfold Remote.rsys_regrid.
    destruct (db_find x base di do m y). reflexivity.
  Qed.
  Lemma stands_same l h : stands_for l h -> forall y, fold_left mstep l y = fold_left rstep h y.
  Proof.
    induction 1 as [|l h x db base v di do m _ IH L|l h r _ IH N|l h f o _ IH B Q]; intros y; [reflexivity|rewrite !fold_left_app, IH; cbn [fold_left ApiTrace.mstep]..].
    - apply ask_step. exact L.
    - apply N.
    - apply Q.
  Qed.
  Lemma stands_exists l : (forall f, In (MElse f) l -> exists o, between o /\ forall y, f y = rstep y o) -> exists h, stands_for l h.
  Proof.
    induction l as [|v l IH] using rev_ind; intros K; [exists []; constructor|]. destruct IH as [h SF]. { intros f I. apply K, in_or_app. left. exact I. }
    destruct v as [r|f].
    - destruct (ask_or_none r) as [(x & db & base & v & di & do & m & -> & L)|N]; eexists; [apply sf_ask; eassumption|apply sf_none; eassumption].
    - destruct (K f) as (o & B & Q); [apply in_or_app; right; left; reflexivity|]. exists (h ++ [o]). constructor; assumption.
  Qed.
  Definition asked_op H o : Prop := match o with RCall x base v di do m => asked_at H x base v di do m | _ => True end.
  Lemma stands_asked H l h : stands_for l h -> (forall r, In (MAsk r) l -> exists d, In d H /\ demands field_values field_grid d r) -> Forall (asked_op H) h.
  Proof.
    induction 1 as [|l h x db base v di do m _ IH L|l h r _ IH N|l h f o _ IH B Q]; intros K; [constructor| | |].
    - apply Forall_app. split; [apply IH; intros r I; apply K, in_or_app; left; exact I|]. constructor; [|constructor]. destruct (K (mkDemand x db v di do (VStr m))) as (d & I & D); [apply in_or_app; right; left; reflexivity|]. exists d. split; [exact I|]. exists db. auto.
    - apply IH. intros r' I. apply K, in_or_app. left. exact I.
    - apply Forall_app. split; [apply IH; intros r I; apply K, in_or_app; left; exact I|]. constructor; [|constructor]. destruct o; [contradiction|exact Logic.I..].
  Qed.
  Lemma history y mk H : fine mk -> known_between H -> exists h, p_sys (fold_left (pstep zero add mul rfind mir_array mir_grib field_values field_grid field_with field_message message_field) H (mkApi y mk)) = fold_left rstep h y /\ Forall (asked_op H) h.
  Proof.
    intros F KE. destruct (history_comes zero add mul rfind mir_array mir_grib field_values field_grid field_with field_message message_field y mk H F) as (l & PS & C & _).
    pose proof (comes_in field_values field_grid H l C) as CI. destruct (stands_exists l) as [h SF]. { intros f I. apply KE. exact (CI _ I). }
    exists h. split; [rewrite PS; apply stands_same; exact SF|]. apply (stands_asked H l h SF). intros r I. exact (CI _ I).
  Qed.

  (** ** C103 *)
  (** Whatever public functions were called, the databases, the memory cache and the disk cache are
      as after requests to the inventories that these calls name. *)
  Theorem C103_trace c H : known_between H -> exists h, p_sys (pafter (rinit c) H) = rafter c h /\
    forall x base v di do m, In (RCall x base v di do m) h -> asked_at H x base v di do m.
  Proof.
    intros KE. destruct (history (rinit c) (mkMaker [] 0) H fine_none KE) as (h & PS & FH). exists h. split; [exact PS|]. intros x base v di do m I. rewrite Forall_forall in FH. exact (FH _ I).
  Qed.
  (** Nothing was called before, the memory cache was cleared last, or the process is new. *)
  Definition cleared H : Prop := H = [] \/ exists H' f, H = H' ++ [PElse f] /\ ((forall y, f y = rstep y RClearMemory) \/ exists c, forall y, f y = rstep y (RRestart c)).
  Lemma history2 c H0 H : cleared H0 -> known_between (H0 ++ H) -> exists h0 h, p_sys (pafter (rinit c) (H0 ++ H)) = rafter c (h0 ++ h) /\ forgotten_remote h0 /\
    Forall (asked_op H0) h0 /\ Forall (asked_op H) h.
  Proof.
    intros CL KE. assert (K0 : known_between H0) by (intros f I; apply KE, in_or_app; left; exact I). assert (K1 : known_between H) by (intros f I; apply KE, in_or_app; right; exact I).
    assert (X : exists h0, p_sys (pafter (rinit c) H0) = rafter c h0 /\ forgotten_remote h0 /\ Forall (asked_op H0) h0).
    { destruct CL as [->|(H' & f & -> & Q)]; [exists []; split; [reflexivity|]; split; [left; reflexivity|constructor]|].
      destruct (history (rinit c) (mkMaker [] 0) H' fine_none) as (h & PS & FH). { intros f' I. apply K0, in_or_app. left. exact I. }
      assert (Y : exists o, (forall y, f y = rstep y o) /\ (o = RClearMemory \/ exists c, o = RRestart c)) by (destruct Q as [Q|(c' & Q)]; eexists; (split; [exact Q|]); eauto). destruct Y as (o & Q' & OO).
      exists (h ++ [o]). unfold Api.pafter, Remote.rafter. rewrite !fold_left_app. cbn [fold_left Api.pstep p_sys]. rewrite PS. split; [apply Q'|]. split; [destruct OO as [->|(c' & ->)]; [right; left; eauto|right; right; eauto]|].
      apply Forall_app. split; [|constructor; [|constructor]; destruct OO as [->|(c' & ->)]; exact Logic.I]. eapply Forall_impl; [|exact FH]. intros [x base v di do m|c'| |c'|e la|p]; cbn; auto. intros (d & I & D). exists d. split; [apply in_or_app; left; exact I|exact D]. }
    destruct X as (h0 & PS & FG & A0). pose proof (after_fine zero add mul rfind mir_array mir_grib field_values field_grid field_with field_message message_field (rinit c) H0) as F.
    unfold Api.pafter in *. rewrite fold_left_app. set (s := fold_left _ H0 _) in *. clearbody s. destruct s as [y mk]. cbn [p_sys p_maker] in *.
    destruct (history y mk H F K1) as (h & PS' & FH). exists h0, h. split; [|auto]. unfold Remote.rafter. rewrite fold_left_app. rewrite PS'. rewrite PS. reflexivity.
  Qed.

  Definition sound_calls HH H : Prop := forall x base v di do m, asked_at H x base v di do m ->
    plain_dict di /\ plain_dict do /\ forall gi go, IndexSpec.request di do gi go -> comparable_at HH base gi go m.
  Lemma asked_at_more H H' x base v di do m : (forall d, In d H -> In d H') -> asked_at H x base v di do m -> asked_at H' x base v di do m.
  Proof. intros I (d & J & D). exists d. auto. Qed.
  Lemma ops_sound HH H h : sound_calls HH H -> Forall (asked_op H) h -> Forall (sound_remote parse gunzip sha ext_of py_str key_order fuel (served_to HH) (asked_from HH)) h.
  Proof. intros SC. apply Forall_impl. intros [x base v di do m|c| |c|e la|p]; cbn; auto. intros K. exact (SC x base v di do m K). Qed.
  Lemma ops_served HH H h : (forall d, In d H -> In d HH) -> Forall (asked_op H) h -> Forall (served_by (served_to HH) (asked_from HH)) h.
  Proof.
    intros I. apply Forall_impl. intros [x base v di do m|c| |c|e la|p]; cbn; auto. intros K. pose proof (asked_at_more _ _ _ _ _ _ _ _ I K) as K'. split; [intros u b Q; exists x, base, v, di, do, m; auto|exists x, v, di, do, m; exact K'].
  Qed.
  (** Where the weights that a request finds come from. *)
  Definition origin HH H (v : array A) (di do : dict) (m : string) (u : array A) : Prop :=
    exists gi go z sh n, IndexSpec.request di do gi go /\ is_shape sh n /\ applies zero add mul z n v u /\
      (collides_at H gi go m \/
       exists x' base' v' di' do' gi' go', asked_at H x' base' v' di' do' m /\ IndexSpec.request di' do' gi' go' /\ same_spec gi gi' /\ same_spec go go' /\ weights_from HH base' gi' go' m z sh).
  Lemma found_origin HH c h0 h H x base v di do m t' found u g :
    (forall b, 0 <= n_size (weigh b)) -> fixed_length sha -> float_texts float_text -> names parse gunzip sha ext_of (served_to HH) (asked_from HH) -> proper_matrices load_npz (served_to HH) ->
    forgotten_remote h0 -> Forall (served_by (served_to HH) (asked_from HH)) (h0 ++ h ++ [RCall x base v di do m]) ->
    Forall (sound_remote parse gunzip sha ext_of py_str key_order fuel (served_to HH) (asked_from HH)) (h0 ++ h ++ [RCall x base v di do m]) ->
    Forall (asked_op H) (h ++ [RCall x base v di do m]) ->
    db_find x base di do m (rafter c (h0 ++ h)) = (t', found) -> regrid_from zero add mul found v do = Ok (u, g) -> g = do /\ origin HH H v di do m u.
  Proof.
    intros WP FL FT NM PF FG SV SO AO Q R. assert (SO0 := SO). rewrite app_assoc in SV, SO. apply Forall_app in SV, SO. destruct SV as [V1 VC], SO as [S1 SC]. inversion VC as [|? ? VC' _]; inversion SC as [|? ? SC' _]; subst. clear VC SC.
    pose proof (after_remote parse gunzip digest read_sha load_npz weigh sha dir limit usage check fetch ext_of py_str key_order fuel (served_to HH) (asked_from HH) WP NM FL zero add mul memory_of float_text c h0 h FG V1 S1) as HS.
    apply regrid_from_ok in R. destruct R as (z & sh & n & -> & SH & R). apply shape_spec in SH.
    destruct (rfind_spec parse gunzip digest read_sha load_npz weigh sha dir limit usage check fetch ext_of py_str key_order fuel (served_to HH) (asked_from HH) WP NM FL memory_of float_text h _ x base v di do m t' _ HS VC' SC' Q) as (_ & K).
    destruct (K _ eq_refl) as (gi & go & RQ & x' & base' & v' & di' & do' & m' & gi' & go' & I & RQ' & KE & WF). cbn [fst snd] in WF.
    assert (P : proper_csr z). { destruct WF as (i & pre & nm & e & post & p & b & _ & _ & _ & _ & _ & (w & _ & SU) & LZ & _). exact (PF _ _ _ SU LZ). }
    destruct (regrid_applies zero add mul z n v do u g P R) as [-> AP]. split; [reflexivity|]. exists gi, go, z, sh, n. split; [exact RQ|]. split; [exact SH|]. split; [exact AP|].
    assert (SC2 : sound_remote parse gunzip sha ext_of py_str key_order fuel (served_to HH) (asked_from HH) (RCall x' base' v' di' do' m')). { rewrite Forall_forall in SO0. apply SO0. apply in_or_app. right. exact I. }
    assert (AA : asked_at H x' base' v' di' do' m'). { rewrite Forall_forall in AO. exact (AO _ I). }
    destruct SC' as (P1 & P2 & _), SC2 as (P3 & P4 & _).
    destruct (key_spec sha float_text FT di do di' do' gi go gi' go' m m' P1 P2 P3 P4 RQ RQ' (eq_sym KE)) as [(SI & SG & ->)|[NE CO]].
    - right. exists x', base', v', di', do', gi', go'. auto 7.
    - left. exists x', base', v', di', do', m', gi', go'. auto.
  Qed.

  (** An answered call for an array applies weights served for the same request. *)
  Theorem C103_array_origin c H0 H x db base kw values di do m r g :
    forall HH, HH = H0 ++ H ++ [PArray x values (Some di) (Some do) (VStr m) (VStr "precomputed") kw] ->
    (forall b, 0 <= n_size (weigh b)) -> fixed_length sha -> float_texts float_text -> names parse gunzip sha ext_of (served_to HH) (asked_from HH) -> proper_matrices load_npz (served_to HH) ->
    cleared H0 -> known_between (H0 ++ H) -> sound_calls HH HH -> only_inventory "inventory" kw db -> located db base ->
    snd (array_regrid x values (Some di) (Some do) (VStr m) (VStr "precomputed") kw (pafter (rinit c) (H0 ++ H))) = Ok (r, g) ->
    g = do /\ origin HH (H ++ [PArray x values (Some di) (Some do) (VStr m) (VStr "precomputed") kw]) values di do m r.
  Proof.
    set (call := PArray x values (Some di) (Some do) (VStr m) (VStr "precomputed") kw).
    intros HH EH WP FL FT NM PF CL KE SC OI LO Q. destruct (history2 c H0 H CL KE) as (h0 & h & PS & FG & A0 & A1).
    pose proof (after_fine zero add mul rfind mir_array mir_grib field_values field_grid field_with field_message message_field (rinit c) (H0 ++ H)) as F.
    destruct (pafter (rinit c) (H0 ++ H)) as [y mk] eqn:PA. cbn [p_sys p_maker] in *.
    destruct (array_direct zero add mul rfind mir_array x db values di do (VStr m) kw OI y mk mk F F) as (_ & _ & _ & R).
    rewrite Q in R. unfold direct in R. cbn [p_sys] in R. unfold remote_find in R. rewrite (proj1 (located_base _ _) LO) in R.
    destruct (db_find x base di do m y) as [t' found] eqn:DF. cbn [snd related] in R. destruct (regrid_from zero add mul found values do) as [rg|e|] eqn:RF; [|contradiction..]. subst rg. rewrite PS in DF.
    assert (AC : asked_at [call] x base values di do m). { exists call. split; [left; reflexivity|]. exists db. split; [exact LO|]. constructor. destruct OI as [|v db N]; [reflexivity|]. unfold picks. cbn [alookup]. rewrite String.eqb_refl. exact N. }
    assert (I0 : forall d, In d H0 -> In d HH) by (intros d I; rewrite EH; apply in_or_app; auto).
    assert (I1 : forall d, In d (H ++ [call]) -> In d HH) by (intros d I; rewrite EH; apply in_or_app; auto).
    assert (A2 : Forall (asked_op (H ++ [call])) (h ++ [RCall x base values di do m])).
    { apply Forall_app. split; [eapply Forall_impl; [|exact A1]|constructor; [|constructor]].
      - intros [x' b' v' di' do' m'|c'| |c'|e la|p]; cbn; auto. apply asked_at_more. intros d I. apply in_or_app. auto.
      - refine (asked_at_more _ _ _ _ _ _ _ _ _ AC). intros d I. apply in_or_app. auto. }
    refine (found_origin HH c h0 h (H ++ [call]) x base values di do m t' found r g WP FL FT NM PF FG _ _ A2 DF RF).
    - apply Forall_app. split; [exact (ops_served HH H0 h0 I0 A0)|exact (ops_served HH _ _ I1 A2)].
    - apply Forall_app. split; [refine (ops_sound HH H0 h0 _ A0)|refine (ops_sound HH _ _ _ A2)]; intros x' b' v' di' do' m' K; [exact (SC _ _ _ _ _ _ (asked_at_more _ _ _ _ _ _ _ _ I0 K))|exact (SC _ _ _ _ _ _ (asked_at_more _ _ _ _ _ _ _ _ I1 K))].
  Qed.
  (** What an answered request comes to, if it was made to no other inventory. *)
  Definition answered HH H base (v : array A) (di do : dict) (m : string) (u : array A) : Prop :=
    exists gi go, IndexSpec.request di do gi go /\
      (collides_at H gi go m \/ exists z sh n, weights_from HH base gi go m z sh /\ is_shape sh n /\ applies zero add mul z n v u).
  Lemma origin_answered HH H base v di do m u : (forall gi go, IndexSpec.request di do gi go -> only_at base H gi go m) -> origin HH H v di do m u -> answered HH H base v di do m u.
  Proof.
    intros AO (gi & go & z & sh & n & RQ & SH & AP & [CO|(x' & base' & v' & di' & do' & gi' & go' & AA & RQ' & SI & SG & WF)]); exists gi, go; (split; [exact RQ|]); [left; exact CO|right]. exists z, sh, n. split; [|auto].
    assert (base' = base) as -> by exact (AO gi go RQ x' base' v' di' do' gi' go' AA RQ' SI SG).
    refine (weights_from_same parse gunzip load_npz sha ext_of py_str key_order fuel (served_to HH) (asked_from HH) base gi' go' gi go m z sh _ _ WF).
    - exact (same_result_sym (Ok gi) (Ok gi') SI).
    - exact (same_result_sym (Ok go) (Ok go') SG).
  Qed.
  Theorem C103_array_partial c H0 H x db base kw values di do m r g :
    forall HH, HH = H0 ++ H ++ [PArray x values (Some di) (Some do) (VStr m) (VStr "precomputed") kw] ->
    (forall b, 0 <= n_size (weigh b)) -> fixed_length sha -> float_texts float_text -> names parse gunzip sha ext_of (served_to HH) (asked_from HH) -> proper_matrices load_npz (served_to HH) ->
    cleared H0 -> known_between (H0 ++ H) -> sound_calls HH HH -> only_inventory "inventory" kw db -> located db base ->
    (forall gi go, IndexSpec.request di do gi go -> only_at base (H ++ [PArray x values (Some di) (Some do) (VStr m) (VStr "precomputed") kw]) gi go m) ->
    snd (array_regrid x values (Some di) (Some do) (VStr m) (VStr "precomputed") kw (pafter (rinit c) (H0 ++ H))) = Ok (r, g) ->
    g = do /\ answered HH (H ++ [PArray x values (Some di) (Some do) (VStr m) (VStr "precomputed") kw]) base values di do m r.
  Proof.
    intros HH EH WP FL FT NM PF CL KE SC OI LO AO Q. destruct (C103_array_origin c H0 H x db base kw values di do m r g HH EH WP FL FT NM PF CL KE SC OI LO Q) as [-> OR]. split; [reflexivity|]. exact (origin_answered _ _ _ _ _ _ _ _ AO OR).
  Qed.

  (** Lists of fields: each field is regridded on its own. *)
  Definition field_done HH H base (do : dict) (m : string) (f f' : field) : Prop :=
    exists v di u, of_field field_values field_grid f None v di /\ field_with f u do = Ok f' /\ answered HH H base v di do m u.
  Lemma fields_origin HH c H x (o : obj) db base do m :
    (forall b, 0 <= n_size (weigh b)) -> fixed_length sha -> float_texts float_text -> names parse gunzip sha ext_of (served_to HH) (asked_from HH) -> proper_matrices load_npz (served_to HH) ->
    is_mir o = false -> db_of_obj o = Ok db -> located db base -> forall h0, forgotten_remote h0 ->
    Forall (served_by (served_to HH) (asked_from HH)) h0 -> Forall (sound_remote parse gunzip sha ext_of py_str key_order fuel (served_to HH) (asked_from HH)) h0 -> (forall d, In d H -> In d HH) -> sound_calls HH HH ->
    forall fs done mk h, Forall (asked_op H) h ->
    (forall f v di, In f fs -> of_field field_values field_grid f None v di -> asked_at H x base v di do m /\ forall gi go, IndexSpec.request di do gi go -> only_at base H gi go m) -> forall rs,
    snd (array_fields x o [("interpolation", VStr m)] fs do done (mkApi (rafter c (h0 ++ h)) mk)) = Ok rs ->
    exists rs', rs = done ++ rs' /\ Forall2 (field_done HH H base do m) fs rs'.
  Proof.
    intros WP FL FT NM PF IM DB LO h0 FG V0 S0 IN SC. induction fs as [|f fs IH]; intros done mk h FH EV rs Q.
    { cbn in Q. injection Q as <-. exists []. rewrite app_nil_r. auto. }
    cbn [Api.array_fields] in Q. unfold seq_act at 1 in Q. unfold lift at 1 in Q. destruct (field_values f) as [v|e|] eqn:V; [|discriminate Q..].
    unfold seq_act at 1 in Q. unfold lift at 1 in Q. destruct (input_gridspec field_grid f) as [di|e|] eqn:G; [|discriminate Q..].
    assert (OF : of_field field_values field_grid f None v di). { split; [exact V|]. unfold input_gridspec in G. destruct (field_grid f) as [[d|]|e|]; try discriminate G. cbn in G. congruence. }
    destruct (EV f v di (or_introl eq_refl) OF) as [AK AO]. unfold seq_act at 1, Api.backend_regrid in Q. rewrite IM, (tail_eq zero add mul rfind o x db v di do (VStr m) DB) in Q. unfold direct in Q. cbn [p_sys p_maker] in Q.
    unfold remote_find in Q at 1. rewrite (proj1 (located_base _ _) LO) in Q.
    assert (NX : fst (db_find x base di do m (rafter c (h0 ++ h))) = rafter c (h0 ++ (h ++ [RCall x base v di do m]))).
    { unfold Remote.rafter. rewrite app_assoc, (fold_left_app _ (h0 ++ h)). cbn [fold_left Remote.rstep]. unfold Remote.rsys_regrid. match goal with |- _ = fst (let '(_, _) := ?X in _) => destruct X end. reflexivity. }
    destruct (db_find x base di do m (rafter c (h0 ++ h))) as [y' found] eqn:DF. cbn [fst snd] in *. destruct (regrid_from zero add mul found v do) as [[u g]|e|] eqn:R; [|discriminate Q..].
    assert (FH' : Forall (asked_op H) (h ++ [RCall x base v di do m])) by (apply Forall_app; split; [exact FH|repeat constructor; exact AK]).
    destruct (found_origin HH c h0 h H x base v di do m y' found u g WP FL FT NM PF FG) as [-> OR]; [| |exact FH'|exact DF|exact R|].
    { apply Forall_app. split; [exact V0|exact (ops_served HH H _ IN FH')]. }
    { apply Forall_app. split; [exact S0|]. refine (ops_sound HH H _ _ FH'). intros x' b' v' di' do' m' K. exact (SC _ _ _ _ _ _ (asked_at_more _ _ _ _ _ _ _ _ IN K)). }
    cbn [fst snd] in Q. unfold seq_act at 1 in Q. unfold lift at 1 in Q. destruct (field_with f u do) as [f'|e|] eqn:W; [|discriminate Q..]. subst y'.
    destruct (IH (done ++ [f']) mk (h ++ [RCall x base v di do m])) with (rs := rs) as (rs' & -> & F2); [exact FH'|intros f1 v1 di1 I1; apply EV; right; exact I1|exact Q|].
    exists (f' :: rs'). rewrite <- app_assoc. split; [reflexivity|]. constructor; [|exact F2]. exists v, di, u. split; [exact OF|]. split; [exact W|]. exact (origin_answered _ _ _ _ _ _ _ _ AO OR).
  Qed.
  Theorem C103_fields_partial c H0 H x db base kw fs g gs m d :
    forall HH, HH = H0 ++ H ++ [PRegrid x (DFields fs) (Some g) (VStr m) (VStr "precomputed") kw] ->
    (forall b, 0 <= n_size (weigh b)) -> fixed_length sha -> float_texts float_text -> names parse gunzip sha ext_of (served_to HH) (asked_from HH) -> proper_matrices load_npz (served_to HH) ->
    cleared H0 -> known_between (H0 ++ H) -> sound_calls HH HH -> only_inventory "inventory" kw db -> located db base -> from_dict g = Ok gs ->
    (forall f v di, In f fs -> of_field field_values field_grid f None v di -> forall gi go, IndexSpec.request di (gd gs) gi go ->
       only_at base (H ++ [PRegrid x (DFields fs) (Some g) (VStr m) (VStr "precomputed") kw]) gi go m) ->
    snd (regrid_call x (DFields fs) (Some g) (VStr m) (VStr "precomputed") kw (pafter (rinit c) (H0 ++ H))) = Ok d ->
    is_regular_ll gs = true /\ exists rs, d = DFields rs /\
      Forall2 (field_done HH (H ++ [PRegrid x (DFields fs) (Some g) (VStr m) (VStr "precomputed") kw]) base (gd gs) m) fs rs.
  Proof.
    set (call := PRegrid x (DFields fs) (Some g) (VStr m) (VStr "precomputed") kw).
    intros HH EH WP FL FT NM PF CL KE SC OI LO GS AO Q. destruct (history2 c H0 H CL KE) as (h0 & h & PS & FG & A0 & A1).
    pose proof (after_fine zero add mul rfind mir_array mir_grib field_values field_grid field_with field_message message_field (rinit c) (H0 ++ H)) as F.
    destruct (pafter (rinit c) (H0 ++ H)) as [y mk] eqn:PA. cbn [p_sys p_maker] in *.
    assert (PK : picks "inventory" kw db). { destruct OI as [|v db N]; [reflexivity|]. unfold picks. cbn [alookup]. rewrite String.eqb_refl. exact N. }
    unfold Api.regrid_call, Api.fields_regrid in Q. unfold seq_act at 1 2 in Q.
    destruct (backend_of (("interpolation", VStr m) :: ("backend", VStr "precomputed") :: kw) (mkApi y mk)) as [s1 [[o k]|e|]] eqn:B; [|discriminate Q..].
    destruct (backend_of_ok _ (mkApi y mk) s1 o k F B) as (PY & F1 & b_kw & BK & _ & KO & _).
    assert (X : o_name o = "precomputed" /\ k = [("interpolation", VStr m)] /\ b_kw = kw). { destruct OI; cbn in BK; injection BK as ON <- <-; auto. } destruct X as (ON & -> & ->). clear BK. cbn [fst snd] in Q.
    assert (IM : is_mir o = false) by (unfold is_mir; rewrite ON; reflexivity). rewrite IM in Q. specialize (KO IM). rewrite GS in Q. unfold seq_act at 1, lift at 1 in Q.
    destruct (is_regular_ll gs) eqn:LL; [|discriminate Q]. split; [reflexivity|]. destruct s1 as [y1 mk1]. cbn [p_sys] in PY. subst y1.
    assert (DB : db_of_obj o = Ok db). { unfold db_of_obj. rewrite KO. unfold picks in PK. destruct (alookup "inventory" kw) as [v|]; [apply names_get; exact PK|subst db; reflexivity]. }
    destruct (array_fields x o [("interpolation", VStr m)] fs (gd gs) [] (mkApi y mk1)) as [s2 [rs|e|]] eqn:L; [|discriminate Q..]. cbn in Q. injection Q as <-. exists rs. split; [reflexivity|].
    assert (I0 : forall d, In d H0 -> In d HH) by (intros d I; rewrite EH; apply in_or_app; auto).
    assert (I1 : forall d, In d (H ++ [call]) -> In d HH) by (intros d I; rewrite EH; apply in_or_app; auto).
    destruct (fields_origin HH c (H ++ [call]) x o db base (gd gs) m WP FL FT NM PF IM DB LO h0 FG) with (fs := fs) (done := @nil field) (mk := mk1) (h := h) (rs := rs) as (rs' & -> & F2).
    - exact (ops_served HH H0 h0 I0 A0).
    - refine (ops_sound HH H0 h0 _ A0). intros x' b' v' di' do' m' K. exact (SC _ _ _ _ _ _ (asked_at_more _ _ _ _ _ _ _ _ I0 K)).
    - exact I1.
    - exact SC.
    - eapply Forall_impl; [|exact A1]. intros [x' b' v' di' do' m'|c'| |c'|e la|p]; cbn; auto. apply asked_at_more. intros d I. apply in_or_app. auto.
    - intros f v di I OF. split; [|exact (AO f v di I OF)]. exists call. split; [apply in_or_app; right; left; reflexivity|]. exists db. split; [exact LO|]. eapply d_fields; eassumption.
    - rewrite <- PS, L. reflexivity.
    - exact F2.
  Qed.
End Remote.
