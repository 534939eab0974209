(** C128: public calls with inventories of all kinds in one process, from what these have and the
    dictionaries of the caller to the numbers of the result. *)
From Coq Require Import Reals Psatz.
From Verif Require Import PyBase MemCacheProofs MemCacheProofs2 ListLemmas PyStr Float64 GridSpec GridVocab GridProofs FloatReal GridMatchSpec GridReal GridMatch3 GridDecide
  Index IndexSpec Db MemCache Inventory Regrid RegridSpec Key KeySpec KeyProofs System SystemSpec SystemProofs EndSpec EndProofs Props_System Props_End
  Disk DiskSpec Props_Key CacheFile Remote RemoteSpec RemoteProofs3 Props_Remote Dispatch Api ApiSpec ApiProofs Props_Api Props_ApiLocal EndRemoteSpec Props_EndRemote Props_ApiRemote2 EndApiSpec Props_EndApi EndLocalSpec Props_EndLocal
  Every EverySpec EveryProofs Props_Every EndEverySpec.
Set Default Proof Using "Type".
Local Open Scope string_scope.
Local Open Scope list_scope.
Local Open Scope Z_scope.

Section Any.
  Context {A rest blob field : Type}.
  Variables (zero : A) (add mul : A -> A -> A).
  Variable parse : blob -> result (file rest).
  Variable gunzip : blob -> result blob.
  Variable digest : blob -> result string.
  Variable read_sha : blob -> result string.
  Variable load_npz : blob -> result (csr A).
  Variable weigh : blob -> node.
  Variable sha : string -> string.
  Variable dir : string.
  Variables limit usage : option Z.
  Variables check fetch : bool.
  Variable ext_of : string -> string.
  Variables (py_str : val -> string) (key_order : list string) (fuel : nat).
  Variable memory_of : rest -> Z.
  Variable float_text : f64 -> string.
  Variable mir_array : array A -> option dict -> option dict -> dict -> result (array A * dict).
  Variable mir_grib : string -> option dict -> dict -> result string.
  Variable field_values : field -> result (array A).
  Variable field_grid : field -> result (option dict).
  Variable field_with : field -> array A -> dict -> result field.
  Variable field_message : field -> result string.
  Variable message_field : string -> result field.
  Variable files : fs rest (csr A).
  Variable G : string -> result blob.
  Notation S := (@esys A rest blob).
  Notation meets := (@emeets A rest blob).
  Notation efind := (any_find parse gunzip digest read_sha load_npz weigh sha dir limit usage check fetch ext_of py_str key_order fuel memory_of float_text).
  Notation array_regrid := (array_regrid zero add mul efind mir_array).
  Notation regrid_call := (regrid_call zero add mul efind mir_array mir_grib field_values field_grid field_with field_message message_field).
  Notation pafter := (pafter zero add mul efind mir_array mir_grib field_values field_grid field_with field_message message_field).
  Notation pcall := (@pop_call A S meets field).
  Notation requests := (@requests A rest blob field field_values field_grid).
  Notation requested := (@requested A rest blob field field_values field_grid).
  Notation called := (@called A rest blob field field_values field_grid).
  Notation collides_with := (@collides_with A rest blob field field_values field_grid sha float_text).
  Notation only_to := (@only_to A rest blob field field_values field_grid).
  Notation sound_calls := (@Props_Every.sound_calls A rest blob field parse gunzip sha ext_of py_str key_order fuel field_values field_grid).
  Notation known_between := (@Props_Every.known_between A rest blob field parse gunzip digest read_sha load_npz weigh sha dir limit usage check fetch ext_of py_str key_order fuel memory_of float_text).
  Notation cleared := (@Props_Every.cleared A rest blob field parse gunzip digest read_sha load_npz weigh sha dir limit usage check fetch ext_of py_str key_order fuel memory_of float_text).
  Notation inventory_at := (inventory_at parse gunzip digest read_sha sha ext_of fuel files G).
  Notation has_weights := (has_weights load_npz fuel files G).
  Notation unchanged := (@unchanged A rest blob files G).
  Notation asks_known := (@asks_known A rest blob field parse gunzip digest read_sha sha ext_of field_values field_grid fuel files G).
  Notation asked_only_at := (@asked_only_at A rest blob field field_values field_grid fuel).
  Notation proper_everywhere := (@proper_everywhere A rest blob load_npz files G).
  Notation means := (means fuel).
  Implicit Types (H : list pcall) (values r : array A) (l : list (string * raw rest)) (x : meets) (q : place).

  Hypotheses (K1 : incl COMPARE_KEYS key_order) (K2 : incl key_order COMPARE_KEYS).
  Hypotheses (WP : forall b, 0 <= n_size (weigh b)) (FL : fixed_length sha) (FT : float_texts float_text).
  Hypothesis NM : forall t u, cache_name ("url-" ++ sha t ++ ext_of u) /\ cache_name ("regrid-" ++ sha t ++ ".cache").

  Section Calls.
    Variable HH : list pcall.
    Hypothesis AS : Forall asks_known HH.
    Lemma all_known x q v di do m : requested HH x q v di do m -> unchanged x q /\ (exists l, inventory_at q l) /\ exists a b, means di a /\ means do b.
    Proof using AS. intros (d & I & RQ). rewrite Forall_forall in AS. exact (AS d I x q v di do m RQ). Qed.
    Lemma call_known x q : called HH x q -> unchanged x q /\ exists l, inventory_at q l.
    Proof using AS. intros (v & di & do & m & RQ). destruct (all_known _ _ _ _ _ _ RQ) as (U & L & _). auto. Qed.
    Lemma served_known u b : served_in (called HH) u b -> G u = Ok b.
    Proof using AS. intros (x & base & C & E). destruct (call_known _ _ C) as [U _]. cbn in U. rewrite U in E. exact E. Qed.
    Lemma every_apart base l : inventory_at (There base) l -> apart_here parse gunzip sha ext_of (asked_in (called HH)) G base.
    Proof using AS.
      intros IV. inversion IV as [|? ? SV ON OI]; subst. destruct (served_index parse gunzip digest read_sha fuel G base l SV) as (i & CU & LD). split.
      - intros u v b IF E. exact (ON u v b (file_here parse gunzip digest read_sha fuel G base l i u SV CU LD IF) E).
      - intros base' (x & C). destruct (call_known _ _ C) as (_ & l' & IV'). inversion IV' as [|? ? SV' _ _]; subst. exact (OI base' l' SV').
    Qed.
    Lemma every_proper : proper_everywhere -> proper_all load_npz (called HH).
    Proof using AS.
      intros [P1 P2]. split.
      - intros x path p z C E. destruct (call_known _ _ C) as [U _]. cbn in U. rewrite U in E. exact (P1 p z E).
      - intros u b z SE LZ. exact (P2 u b z (served_known _ _ SE) LZ).
    Qed.
    Lemma seen_known path i : seen_in (called HH) path i -> local_index path files = Ok i.
    Proof using AS.
      intros (x & C & E). destruct (call_known _ _ C) as [U _]. cbn in U. unfold local_index, read_index in *. rewrite U in E. exact E.
    Qed.
    Lemma every_sound : sound_calls HH HH.
    Proof using K1 K2 AS.
      intros x q v di do m RQ. destruct (all_known _ _ _ _ _ _ RQ) as (_ & (l & IV) & a & b & MA & MB).
      destruct (means_reading _ _ _ MA) as (P1 & N1 & B1 & _), (means_reading _ _ _ MB) as (P2 & N2 & B2 & _).
      split; [exact P1|]. split; [exact P2|]. intros gi go [G1 G2]. destruct q as [path|base]; cbn [comparable_with].
      - inversion IV as [? ? IV'|]; subst. intros i n e SE J. apply seen_known in SE. destruct (indexed fuel files path l IV') as (i' & LI' & LD). rewrite SE in LI'. injection LI' as <-.
        exact (entries_compared py_str key_order fuel K1 K2 di do gi go a b m G1 G2 N1 N2 (means_of _ _ _ _ MA G1) (means_of _ _ _ _ MB G2) B1 B2 l i LD (i_entries _ _ _ _ IV') n e J).
      - pose proof (every_apart _ _ IV) as AP. inversion IV as [|? ? SV ON OI]; subst. intros i' n e IA J. destruct (served_index parse gunzip digest read_sha fuel G base l SV) as (i & CU & LD).
        pose proof (its_index parse gunzip sha ext_of (served_in (called HH)) (asked_in (called HH)) G served_known base i' AP IA) as CU'.
        rewrite <- (current_one parse gunzip G base i i' CU CU') in J.
        exact (entries_compared py_str key_order fuel K1 K2 di do gi go a b m G1 G2 N1 N2 (means_of _ _ _ _ MA G1) (means_of _ _ _ _ MB G2) B1 B2 l i LD (v_entries _ _ _ _ _ _ _ _ SV) n e J).
    Qed.
    Lemma every_only q H di do a0 b0 m : (forall d, In d H -> In d HH) -> asked_only_at q H a0 b0 m -> means di a0 -> means do b0 ->
      forall gi go, IndexSpec.request di do gi go -> only_to q H gi go m.
    Proof using K1 K2 AS py_str.
      intros IN OH MA MB gi go [G1 G2] x q' v di' do' gi' go' RQ [G1' G2'] S1 S2.
      destruct (all_known _ _ _ _ _ _ (requested_more field_values field_grid H HH x q' v di' do' m IN RQ)) as (_ & _ & a & b & MA' & MB').
      apply (OH x q' v di' do' a b RQ MA' MB'); [exact (means_same py_str key_order fuel K1 K2 di di' a0 a gi gi' MA MA' G1 G1' S1)|exact (means_same py_str key_order fuel K1 K2 do do' b0 b go go' MB MB' G2 G2' S2)].
    Qed.
    Lemma had_entry x q l di do a0 b0 m gi go z sh n : called HH x q -> inventory_at q l -> means di a0 -> means do b0 -> IndexSpec.request di do gi go ->
      had parse gunzip load_npz sha ext_of py_str key_order fuel (called HH) x q gi go m z sh -> is_shape sh n ->
      exists pre e post, l = pre ++ e :: post /\ perhaps fuel a0 b0 m e /\ Forall (fun e => ~ surely fuel a0 b0 m e) pre /\ has_weights q e z n.
    Proof using K1 K2 AS.
      intros C IV MA MB RQ HW IS. destruct (call_known _ _ C) as [U _]. destruct q as [path|base]; cbn [had] in HW.
      - inversion IV as [? ? IV'|]; subst. cbn in U. apply (here_entry py_str key_order fuel files K1 K2 path l IV' di do a0 b0 m MA MB gi go z sh n RQ); [|exact IS].
        destruct HW as (i & pre & nm & e & post & f & SE & E & Y & N & MP & AL & S0). exists i, pre, nm, e, post, f. split; [exact (seen_known _ _ SE)|]. rewrite <- U. auto 8.
      - pose proof (every_apart _ _ IV) as AP. inversion IV as [|? ? SV ON OI]; subst.
        apply (now_entry parse gunzip digest read_sha load_npz py_str key_order fuel G K1 K2 base l SV di do a0 b0 m MA MB gi go z sh n RQ); [|exact IS].
        exact (from_now parse gunzip load_npz sha ext_of py_str key_order fuel _ _ G base gi go m z sh served_known AP HW).
    Qed.
  End Calls.

  (** What an answered request gives: the weights of an entry of the index of the inventory asked, from
      the file of that entry; its method is the one asked for, its grids may be the ones asked for, and
      no entry before it certainly has these grids and this method. *)
  Definition answered_at q l a0 b0 m values r : Prop :=
    exists pre e post z n, l = pre ++ e :: post /\ perhaps fuel a0 b0 m e /\ Forall (fun e => ~ surely fuel a0 b0 m e) pre /\ has_weights q e z n /\ applies zero add mul z n values r.
  Definition same_hash H di do m : Prop := exists gi go, IndexSpec.request di do gi go /\ collides_with H gi go m.

  Lemma place_one db q q' : placed db q -> placed db q' -> q' = q.
  Proof. intros P P'. inversion P; subst; inversion P'; subst; reflexivity. Qed.
  Lemma only_picks kw db db' : only_inventory "inventory" kw db -> picks "inventory" kw db' -> db' = db.
  Proof.
    intros [|v d N] P; [exact P|]. unfold picks in P. cbn [alookup] in P. rewrite String.eqb_refl in P. apply names_get in N, P. congruence.
  Qed.
  Lemma array_place x values di do m kw db q x' q' v di' do' m' : only_inventory "inventory" kw db -> placed db q ->
    requests (PArray x values (Some di) (Some do) (VStr m) (VStr "precomputed") kw) x' q' v di' do' m' -> q' = q.
  Proof. intros OI PL (db' & PL' & D). inversion D; subst. match goal with P : picks _ _ _ |- _ => rewrite (only_picks _ _ _ OI P) in PL' end. exact (place_one _ _ _ PL PL'). Qed.
  Lemma fields_place x fs g m kw db q x' q' v di' do' m' : only_inventory "inventory" kw db -> placed db q ->
    requests (PRegrid x (DFields fs) (Some g) (VStr m) (VStr "precomputed") kw) x' q' v di' do' m' -> q' = q.
  Proof. intros OI PL (db' & PL' & D). inversion D; subst. match goal with P : picks _ _ _ |- _ => rewrite (only_picks _ _ _ OI P) in PL' end. exact (place_one _ _ _ PL PL'). Qed.
  Lemma only_also q H d a0 b0 m : asked_only_at q H a0 b0 m -> (forall x' q' v di do m', requests d x' q' v di do m' -> q' = q) -> asked_only_at q (H ++ [d]) a0 b0 m.
  Proof.
    intros OH ON x q' v di do a b (d' & I & RQ) M1 M2 N1 N2. apply in_app_or in I. destruct I as [I|[<-|[]]]; [|exact (ON _ _ _ _ _ _ RQ)].
    apply (OH x q' v di do a b); [exists d'; auto|assumption..].
  Qed.
  (** An answered call of regrid for arrays. *)
  Theorem C128_array c H0 H x db q l kw values di do a0 b0 m r g :
    forall cl, cl = PArray x values (Some di) (Some do) (VStr m) (VStr "precomputed") kw ->
    inventory_at q l -> proper_everywhere -> only_inventory "inventory" kw db -> placed db q ->
    cleared H0 -> known_between (H0 ++ H) -> Forall asks_known (H0 ++ H ++ [cl]) -> asked_only_at q H a0 b0 m -> means di a0 -> means do b0 ->
    snd (array_regrid x values (Some di) (Some do) (VStr m) (VStr "precomputed") kw (pafter (einit c) (H0 ++ H))) = Ok (r, g) ->
    g = do /\ (same_hash (H ++ [cl]) di do m \/ answered_at q l a0 b0 m values r).
  Proof using K1 K2 WP FL FT NM.
    intros cl Ecl IV PF OI PL CL KE AS OH MA MB R. subst cl. set (cl := PArray x values (Some di) (Some do) (VStr m) (VStr "precomputed") kw) in *.
    pose proof (only_also q H cl a0 b0 m OH (fun _ _ _ _ _ _ => array_place _ _ _ _ _ _ _ _ _ _ _ _ _ _ OI PL)) as OH'.
    assert (IN : forall d, In d (H ++ [cl]) -> In d (H0 ++ H ++ [cl])) by (intros d I; apply in_or_app; auto).
    destruct (C106_array_partial zero add mul parse gunzip digest read_sha load_npz weigh sha dir limit usage check fetch ext_of py_str key_order fuel memory_of float_text mir_array mir_grib field_values field_grid field_with field_message message_field
      c H0 H x db q kw values di do m r g _ eq_refl WP FL FT (all_names parse gunzip sha ext_of NM _ _) (every_proper _ AS PF) CL KE (every_sound _ AS) OI PL
      (every_only _ AS q (H ++ [cl]) di do a0 b0 m IN OH' MA MB) R) as (-> & gi & go & RQ & [C|(x' & z & sh & n & CX & HW & IS & AP)]); (split; [reflexivity|]); [left; exists gi, go; auto|right].
    assert (CX' : called (H0 ++ H ++ [cl]) x' q). { destruct CX as (v' & di' & do' & m' & K). exists v', di', do', m'. exact (requested_more field_values field_grid _ _ _ _ _ _ _ _ IN K). }
    destruct (had_entry _ AS x' q l di do a0 b0 m gi go z sh n CX' IV MA MB RQ HW IS) as (pre & e & post & EL & PQ & NS & OF). exists pre, e, post, z, n. auto 8.
  Qed.
  (** The same for fields: each is answered so; the output grid in the new metadata is the completed
      dictionary; it is regular. *)
  Theorem C128_fields c H0 H x db q l kw fs g gs b0 m d :
    forall cl, cl = PRegrid x (DFields fs) (Some g) (VStr m) (VStr "precomputed") kw ->
    inventory_at q l -> proper_everywhere -> only_inventory "inventory" kw db -> placed db q ->
    cleared H0 -> known_between (H0 ++ H) -> Forall asks_known (H0 ++ H ++ [cl]) ->
    (forall f v di a0, In f fs -> of_field field_values field_grid f None v di -> means di a0 -> asked_only_at q H a0 b0 m) -> for_grid fuel g b0 -> from_dict g = Ok gs ->
    snd (regrid_call x (DFields fs) (Some g) (VStr m) (VStr "precomputed") kw (pafter (einit c) (H0 ++ H))) = Ok d ->
    (exists dx dy n w s e dec, geometry b0 = LatLon dx dy n w s e dec) /\
    exists rs, d = DFields rs /\
      Forall2 (fun f f' => exists v di u a0, of_field field_values field_grid f None v di /\ means di a0 /\ field_with f u (gd gs) = Ok f' /\
        (same_hash (H ++ [cl]) di (gd gs) m \/ answered_at q l a0 b0 m v u)) fs rs.
  Proof using K1 K2 WP FL FT NM.
    intros cl Ecl IV PF OI PL CL KE AS OH MB GS R. subst cl. set (cl := PRegrid x (DFields fs) (Some g) (VStr m) (VStr "precomputed") kw) in *.
    assert (MG : means (gd gs) b0) by (exists g; split; [exact MB|right; eauto]).
    assert (IN : forall d, In d (H ++ [cl]) -> In d (H0 ++ H ++ [cl])) by (intros d' I; apply in_or_app; auto).
    assert (PK : picks "inventory" kw db) by (destruct OI as [|w db N]; [reflexivity|]; unfold picks; cbn [alookup]; rewrite String.eqb_refl; exact N).
    assert (AT : forall f v di, In f fs -> of_field field_values field_grid f None v di -> requested (H ++ [cl]) x q v di (gd gs) m).
    { intros f v di I OF. exists cl. split; [apply in_or_app; right; left; reflexivity|]. exists db. split; [exact PL|]. exact (d_fields field_values field_grid x fs f v di g gs (VStr m) kw db I OF GS PK). }
    assert (DF : forall f v di, In f fs -> of_field field_values field_grid f None v di -> exists a0, means di a0).
    { intros f v di I OF. destruct (all_known _ AS _ _ _ _ _ _ (requested_more field_values field_grid _ _ _ _ _ _ _ _ IN (AT f v di I OF))) as (_ & _ & a & _ & MA & _). eauto. }
    destruct (C106_fields_partial zero add mul parse gunzip digest read_sha load_npz weigh sha dir limit usage check fetch ext_of py_str key_order fuel memory_of float_text mir_array mir_grib field_values field_grid field_with field_message message_field
      c H0 H x db q kw fs g gs m d _ eq_refl WP FL FT (all_names parse gunzip sha ext_of NM _ _) (every_proper _ AS PF) CL KE (every_sound _ AS) OI PL GS) as (LL & rs & -> & F2).
    { intros f v di I OF. destruct (DF f v di I OF) as (a0 & MA).
      exact (every_only _ AS q (H ++ [cl]) di (gd gs) a0 b0 m IN (only_also q H cl a0 b0 m (OH f v di a0 I OF MA) (fun _ _ _ _ _ _ => fields_place _ _ _ _ _ _ _ _ _ _ _ _ _ OI PL)) MA MG). }
    { exact R. }
    split.
    - pose proof (dg_geometry _ _ (reading_of g b0 gs (proj1 (proj2 MB)) GS)) as D. unfold is_regular_ll in LL. destruct (geometry b0) as [[] nm o|dx dy n w s e dec|nm dx n w s e dec]; cbn in D; [| |eauto 10|].
      + destruct D as (_ & CC & _). rewrite CC in LL. discriminate LL.
      + destruct D as (_ & CC & _). rewrite CC in LL. discriminate LL.
      + destruct D as (CC & _). rewrite CC in LL. discriminate LL.
    - exists rs. split; [reflexivity|]. refine (Forall2_in_impl _ _ _ _ _ F2). intros f f' I (v & di & u & OF & FW & gi & go & RQ & K).
      destruct (DF f v di I OF) as (a0 & MA). exists v, di, u, a0. split; [exact OF|]. split; [exact MA|]. split; [exact FW|].
      destruct K as [C|(x' & z & sh & n & CX & HW & IS & AP)]; [left; exists gi, go; auto|right].
      assert (CX' : called (H0 ++ H ++ [cl]) x' q). { destruct CX as (v' & di' & do' & m' & K). exists v', di', do', m'. exact (requested_more field_values field_grid _ _ _ _ _ _ _ _ IN K). }
      destruct (had_entry _ AS x' q l di (gd gs) a0 b0 m gi go z sh n CX' IV MA MG RQ HW IS) as (pre & e & post & EL & PQ & NS & OFF). exists pre, e, post, z, n. auto 8.
  Qed.
End Any.
