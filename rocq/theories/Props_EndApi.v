(** C126: public calls with an inventory on a server, from what it has and the dictionaries of the
    caller to the numbers of the result. *)
From Coq Require Import Reals Psatz.
From Verif Require Import PyBase MemCacheProofs MemCacheProofs2 ListLemmas PyStr Float64 GridSpec GridVocab GridProofs FloatReal GridMatchSpec GridReal GridMatch3 GridDecide
  Index IndexSpec Db MemCache Inventory Regrid RegridSpec Key KeySpec KeyProofs System SystemSpec SystemProofs EndSpec EndProofs Props_System Props_End
  Disk DiskSpec Props_Key CacheFile Remote RemoteSpec RemoteProofs3 Props_Remote Dispatch Api ApiSpec ApiProofs Props_Api ApiTrace ApiRemote ApiRemoteSpec Props_ApiLocal Props_ApiRemote Props_ApiRemote2
  EndRemoteSpec Props_EndRemote EndApiSpec.
Set Default Proof Using "Type".
Local Open Scope string_scope.
Local Open Scope list_scope.
Local Open Scope Z_scope.

(** A specification that is the same describes the same grid. *)
Lemma describes_same g h a : same_spec g h -> describes_grid g a -> describes_grid h a.
Proof.
  intros (C & D & _ & _) [GE SC SZ]. unfold same_dict in D.
  assert (LM : forall n w s e, limits g n w s e -> limits h n w s e) by (intros n w s e (vn & vw & vs & ve & Q & R); exists vn, vw, vs, ve; rewrite <- D; auto).
  assert (DC : declared g <-> declared h) by (split; intros (v & Q & R); exists v; [rewrite <- D|rewrite D]; auto).
  constructor.
  - destruct (geometry a) as [orca name o|dx dy n w s e dec|name dx n w s e dec]; cbn in GE |- *.
    + destruct GE as [Q R]. split; [rewrite <- D; exact Q|]. rewrite <- C. destruct orca; [exact R|]. unfold order_name in *. rewrite <- D. exact R.
    + destruct GE as (Q1 & (x & y & Q2 & Q2') & Q3 & Q4 & Q5 & Q6). split; [congruence|]. split; [exists x, y; rewrite <- D; auto|]. split; [exact Q3|]. split; [exact Q4|]. split; [apply LM, Q5|]. rewrite <- DC. exact Q6.
    + destruct GE as (Q1 & Q2 & Q3 & Q5 & Q6). split; [congruence|]. split; [rewrite <- D; exact Q2|]. split; [|split; [apply LM, Q5|rewrite <- DC; exact Q6]].
      unfold increment in *. rewrite <- C. rewrite Q1 in *. destruct Q3 as (c & ds & Q & R). exists c, ds. rewrite <- D. auto.
  - intros k I. destruct (SC k I) as (v & Q & R). exists v. rewrite <- D. auto.
  - destruct (sizes a); rewrite <- D; exact SZ.
Qed.
Lemma same_of e g : NoDup (akeys e) -> from_dict e = Ok g -> exists g', from_dict (gd g) = Ok g' /\ same_spec g g'.
Proof.
  intros N E. pose proof (idempotent e g N E) as I. destruct (from_dict (gd g)) as [g'|x|]; cbn in I; try contradiction. exists g'. split; [reflexivity|]. exact (same_result_sym (Ok g') (Ok g) I).
Qed.
Lemma plain_spec e g : plain_dict e -> from_dict e = Ok g -> plain_dict (gd g).
Proof.
  intros P E. destruct (spec_tidy e g P E) as [N T]. split; [exact N|]. intros k v L. specialize (T k v L). destruct v; cbn in *; try exact T; try discriminate T.
Qed.
Lemma means_reading fuel d a : means fuel d a -> plain_dict d /\ NoDup (akeys d) /\ bounded fuel a /\ exists g, from_dict d = Ok g /\ describes_grid g a.
Proof.
  intros (e & (P & R & B) & [->|(g & E & ->)]).
  - split; [exact P|]. split; [apply P|]. split; [exact B|]. exact (EndProofs.reading e a R).
  - pose proof (plain_spec e g P E) as P'. split; [exact P'|]. split; [apply P'|]. split; [exact B|]. destruct (same_of e g (proj1 P) E) as (g' & E' & S). exists g'. split; [exact E'|]. apply (describes_same g g' a S). exact (reading_of e a g R E).
Qed.
Lemma means_of fuel d a g : means fuel d a -> from_dict d = Ok g -> describes_grid g a.
Proof. intros M E. destruct (means_reading fuel d a M) as (_ & _ & _ & g' & E' & D). congruence. Qed.

Lemma Forall2_in_impl {X Y} (P Q : X -> Y -> Prop) l l' : (forall x y, In x l -> P x y -> Q x y) -> Forall2 P l l' -> Forall2 Q l l'.
Proof. intros I F. induction F as [|x y l l' R F IH]; [constructor|]. constructor; [apply I; [left; reflexivity|exact R]|]. apply IH. intros a b J. apply I. right. exact J. Qed.

Section Any.
  Context {A rest blob field : Type}.
  Variables (zero : A) (add mul : A -> A -> A).
  Variable parse : blob -> result (file rest).
  Variable gunzip : blob -> result blob.
  Variable digest : blob -> result string.
  Variable read_sha : blob -> result string.
  Variable load_npz : blob -> result (csr A).
  Variable weigh : blob -> node.
  Variable sha : string -> string.
  Variable dir : string.
  Variables check fetch : bool.
  Variable ext_of : string -> string.
  Variables (py_str : val -> string) (key_order : list string) (fuel : nat).
  Variable memory_of : rest -> Z.
  Variable float_text : f64 -> string.
  Variable mir_array : array A -> option dict -> option dict -> dict -> result (array A * dict).
  Variable mir_grib : string -> option dict -> dict -> result string.
  Variable field_values : field -> result (array A).
  Variable field_grid : field -> result (option dict).
  Variable field_with : field -> array A -> dict -> result field.
  Variable field_message : field -> result string.
  Variable message_field : string -> result field.
  Variable G : string -> result blob.
  Notation S := (@rsys A rest blob).
  Notation meets := (@meets blob).
  Notation rfind := (remote_find parse gunzip digest read_sha load_npz weigh sha dir None None check fetch ext_of py_str key_order fuel memory_of float_text).
  Notation array_regrid := (array_regrid zero add mul rfind mir_array).
  Notation regrid_call := (regrid_call zero add mul rfind mir_array mir_grib field_values field_grid field_with field_message message_field).
  Notation pafter := (pafter zero add mul rfind mir_array mir_grib field_values field_grid field_with field_message message_field).
  Notation pcall := (@pop_call A S meets field).
  Notation asked_at := (@asked_at A rest blob field field_values field_grid).
  Notation served_to := (@served_to A rest blob field field_values field_grid).
  Notation asked_from := (@asked_from A rest blob field field_values field_grid).
  Notation collides_at := (@collides_at A rest blob field field_values field_grid sha float_text).
  Notation only_at := (@only_at A rest blob field field_values field_grid).
  Notation steady_at := (@steady_at A rest blob field field_values field_grid G).
  Notation apart_at := (@apart_at A rest blob field field_values field_grid parse gunzip sha ext_of G).
  Notation sound_calls := (@sound_calls A rest blob field parse gunzip sha ext_of py_str key_order fuel field_values field_grid).
  Notation known_between := (@known_between A rest blob field zero add mul parse gunzip digest read_sha load_npz weigh sha dir None None check fetch ext_of py_str key_order fuel memory_of float_text).
  Notation cleared := (@cleared A rest blob field zero add mul parse gunzip digest read_sha load_npz weigh sha dir None None check fetch ext_of py_str key_order fuel memory_of float_text).
  Notation settings_accepted := (@settings_accepted A rest blob field zero add mul parse gunzip digest read_sha load_npz weigh sha dir check fetch ext_of py_str key_order fuel memory_of float_text
    mir_array mir_grib field_values field_grid field_with field_message message_field).
  Notation serves := (serves parse gunzip digest read_sha fuel G).
  Notation own_names := (own_names sha ext_of fuel G).
  Notation offers := (offers load_npz fuel G).
  Notation proper_there := (proper_there load_npz G).
  Notation asks_publicly := (@asks_publicly A rest blob field field_values field_grid fuel G).
  Notation means := (means fuel).
  Implicit Types (H : list pcall) (values r : array A) (l : list (string * raw rest)).

  Hypotheses (K1 : incl COMPARE_KEYS key_order) (K2 : incl key_order COMPARE_KEYS).
  Hypotheses (WP : forall b, 0 <= n_size (weigh b)) (FL : fixed_length sha) (FT : float_texts float_text).
  Hypothesis NM : forall t u, cache_name ("url-" ++ sha t ++ ext_of u) /\ cache_name ("regrid-" ++ sha t ++ ".cache").

  Section Calls.
    Variables (base : string) (l : list (string * raw rest)).
    Hypotheses (SV : serves base l) (ON : own_names base l).
    Variable HH : list pcall.
    Hypothesis AS : Forall (asks_publicly base) HH.

    Lemma publicly x base' v di do m : asked_at HH x base' v di do m -> base' = base /\ (forall u, sv_get (m_server x) u = G u) /\ exists a b, means di a /\ means do b.
    Proof using AS. intros (d & I & AT). rewrite Forall_forall in AS. exact (AS d I x base' v di do m AT). Qed.
    Lemma public_steady : steady_at HH.
    Proof using AS. intros x base' v di do m AT. apply (publicly _ _ _ _ _ _ AT). Qed.
    Lemma public_apart : apart_at HH base.
    Proof using SV ON AS.
      destruct (served_index parse gunzip digest read_sha fuel G base l SV) as (i & CU & LD). split.
      - intros u v b IF E. exact (ON u v b (file_here parse gunzip digest read_sha fuel G base l i u SV CU LD IF) E).
      - intros b (x & v & di & do & m & AT) [N _]. destruct (publicly _ _ _ _ _ _ AT) as (-> & _). exact (N eq_refl).
    Qed.
    Lemma public_proper : proper_there -> proper_matrices load_npz (served_to HH).
    Proof using AS. intros PF u b z (x & base' & v & di & do & m & AT & E) LZ. destruct (publicly _ _ _ _ _ _ AT) as (_ & Q & _). rewrite Q in E. exact (PF u b z E LZ). Qed.
    Lemma public_sound : sound_calls HH HH.
    Proof using K1 K2 SV ON AS.
      intros x base' v di do m AT. destruct (publicly _ _ _ _ _ _ AT) as (-> & _ & a & b & MA & MB). destruct (means_reading _ _ _ MA) as (P1 & N1 & B1 & _), (means_reading _ _ _ MB) as (P2 & N2 & B2 & _).
      split; [exact P1|]. split; [exact P2|]. intros gi go [G1 G2] i' n e IA J. destruct (served_index parse gunzip digest read_sha fuel G base l SV) as (i & CU & LD).
      pose proof (its_index parse gunzip sha ext_of (served_to HH) (asked_from HH) G (fun u b => steady_served_to field_values field_grid G HH u b public_steady) base i' public_apart IA) as CU'.
      rewrite <- (current_one parse gunzip G base i i' CU CU') in J.
      exact (entries_compared py_str key_order fuel K1 K2 di do gi go a b m G1 G2 N1 N2 (means_of _ _ _ _ MA G1) (means_of _ _ _ _ MB G2) B1 B2 l i LD (v_entries _ _ _ _ _ _ _ _ SV) n e J).
    Qed.
    Lemma public_only H gi go m : (forall d, In d H -> In d HH) -> only_at base H gi go m.
    Proof using AS. intros I x base' v di do gi' go' (d & J & AT) _ _ _. apply (publicly x base' v di do m). exists d. auto. Qed.
    Lemma public_healthy : healthy parse gunzip digest G base.
    Proof using SV.
      destruct (served_index parse gunzip digest read_sha fuel G base l SV) as (i & CU & _). split; [eauto|]. intros z' t' Ez Et. destruct (v_index _ _ _ _ _ _ _ _ SV) as (u & z0 & t & d & AU & Eu & GZ & PA & DI).
      apply address_join in AU; [|apply SV|reflexivity]. subst u. rewrite Ez in Eu. injection Eu as <-. rewrite Et in GZ. injection GZ as <-. eauto.
    Qed.
    Lemma public_summed : summed read_sha G base.
    Proof using SV. destruct (v_sum _ _ _ _ _ _ _ _ SV) as (u & b & d & AU & Eu & ED). apply address_join in AU; [|apply SV|reflexivity]. subst u. exists b, d. auto. Qed.

    Variables (di do : dict) (a0 b0 : grid) (m : string).
    Hypotheses (MA : means di a0) (MB : means do b0).
    Lemma now_entry gi go z sh n : IndexSpec.request di do gi go -> weights_now parse gunzip load_npz py_str key_order fuel G base gi go m z sh -> is_shape sh n ->
      exists pre q post, l = pre ++ q :: post /\ perhaps fuel a0 b0 m q /\ Forall (fun q => ~ surely fuel a0 b0 m q) pre /\ offers base q z n.
    Proof using K1 K2 SV MA MB.
      intros [G1 G2] (i & pre & nm & e & post & p & w & CU & EI & AN & DN & MP & GW & LZ & SH) IS.
      destruct (means_reading _ _ _ MA) as (_ & N1 & B1 & _), (means_reading _ _ _ MB) as (_ & N2 & B2 & _).
      destruct (served_index parse gunzip digest read_sha fuel G base l SV) as (i' & CU' & LD). rewrite (current_one parse gunzip G base i' i CU' CU) in LD.
      destruct (entries_first py_str key_order fuel K1 K2 di do gi go a0 b0 m G1 G2 N1 N2 (means_of _ _ _ _ MA G1) (means_of _ _ _ _ MB G2) B1 B2 l i LD (v_entries _ _ _ _ _ _ _ _ SV) pre nm e post EI AN DN) as (pre' & r0 & post' & EL & RD & PQ & NS).
      exists pre', (nm, r0), post'. split; [exact EL|]. split; [exact PQ|]. split; [exact NS|].
      destruct (v_entries _ _ _ _ _ _ _ _ SV nm r0) as (a & b & m' & p' & LS). { rewrite EL. apply in_or_app. right. left. reflexivity. }
      rewrite (listed_file fuel nm r0 a b m' p' e LS RD) in MP. injection MP as ->.
      exists a, b, m', p, (join_path base p), w. split; [exact LS|]. split; [apply address_join; [apply SV|exact (listed_relative fuel nm r0 a b m' p LS)|reflexivity]|].
      split; [exact GW|]. split; [exact LZ|]. apply (entry_shape fuel nm r0 e a b m' p sh n LS RD SH), IS.
    Qed.
    Lemma entry_now gi go pre q post z n : IndexSpec.request di do gi go -> l = pre ++ q :: post -> surely fuel a0 b0 m q -> Forall (fun q => ~ perhaps fuel a0 b0 m q) pre -> offers base q z n ->
      weights_now parse gunzip load_npz py_str key_order fuel G base gi go m z (VList (map VInt (map Z.of_nat n))).
    Proof using K1 K2 SV MA MB.
      intros [G1 G2] EL SQ NP (a & b & m' & p & u & w & LS & AD & GW & LZ & SZ).
      destruct (means_reading _ _ _ MA) as (_ & N1 & B1 & _), (means_reading _ _ _ MB) as (_ & N2 & B2 & _).
      destruct (served_index parse gunzip digest read_sha fuel G base l SV) as (i & CU & LD).
      destruct (entries_found py_str key_order fuel K1 K2 di do gi go a0 b0 m G1 G2 N1 N2 (means_of _ _ _ _ MA G1) (means_of _ _ _ _ MB G2) B1 B2 l i LD (v_entries _ _ _ _ _ _ _ _ SV) pre q post EL SQ NP) as (ipre & e & ipost & EI & RD & AN & DN).
      apply address_join in AD; [|apply SV|exact (listed_relative fuel _ _ a b m' p LS)]. subst u.
      exists i, ipre, (fst q), e, ipost, p, w. split; [exact CU|]. split; [exact EI|]. split; [exact AN|]. split; [exact DN|]. split; [exact (listed_file fuel _ _ a b m' p e LS RD)|]. split; [exact GW|]. split; [exact LZ|].
      destruct LS as [(i0 & o & R1 & R2 & RA' & RB') _ _]. destruct RD as (_ & ER & i1 & o1 & R1' & F1 & R2' & FO). rewrite R2 in R2'. injection R2' as <-.
      pose proof (dg_sizes _ _ (reading_of o b (e_output e) RB' FO)) as Q. rewrite SZ in Q. exact Q.
    Qed.
    Lemma none_now gi go : IndexSpec.request di do gi go -> Forall (fun q => ~ perhaps fuel a0 b0 m q) l -> nothing_now parse gunzip py_str key_order fuel G base gi go m.
    Proof using K1 K2 SV MA MB.
      intros [G1 G2] NP. destruct (means_reading _ _ _ MA) as (_ & N1 & B1 & _), (means_reading _ _ _ MB) as (_ & N2 & B2 & _).
      destruct (served_index parse gunzip digest read_sha fuel G base l SV) as (i & CU & LD). exists i. split; [exact CU|].
      exact (entries_none py_str key_order fuel K1 K2 di do gi go a0 b0 m G1 G2 N1 N2 (means_of _ _ _ _ MA G1) (means_of _ _ _ _ MB G2) B1 B2 l (v_entries _ _ _ _ _ _ _ _ SV) l i LD (fun _ Q => Q) NP).
    Qed.
  End Calls.

  (** What an answered request gives: the weights of an entry of the index, from the file of that entry;
      its method is the one asked for, its grids may be the ones asked for, and no entry before it
      certainly has these grids and this method. *)
  Definition answered_by base l a0 b0 m values r : Prop :=
    exists pre q post z n, l = pre ++ q :: post /\ perhaps fuel a0 b0 m q /\ Forall (fun q => ~ surely fuel a0 b0 m q) pre /\ offers base q z n /\ applies zero add mul z n values r.
  Definition collision H di do m : Prop := exists gi go, IndexSpec.request di do gi go /\ collides_at H gi go m.
  Notation call := (fun x values di do m kw => PArray (S := S) (field := field) x values (Some di) (Some do) (VStr m) (VStr "precomputed") kw).

  (** An answered call of regrid for arrays. *)
  Theorem C126_array c H0 H x db base l kw values di do a0 b0 m r g :
    serves base l -> own_names base l -> proper_there -> only_inventory "inventory" kw db -> located db base ->
    cleared H0 -> known_between (H0 ++ H) -> Forall (asks_publicly base) (H0 ++ H ++ [call x values di do m kw]) -> means di a0 -> means do b0 ->
    snd (array_regrid x values (Some di) (Some do) (VStr m) (VStr "precomputed") kw (pafter (rinit c) (H0 ++ H))) = Ok (r, g) ->
    g = do /\ (collision (H ++ [call x values di do m kw]) di do m \/ answered_by base l a0 b0 m values r).
  Proof using K1 K2 WP FL FT NM.
    intros SV ON PF OI LO CL KE AS MA MB R. set (cl := call x values di do m kw) in *.
    destruct (C103_steady_array_partial zero add mul parse gunzip digest read_sha load_npz weigh sha dir check fetch ext_of py_str key_order fuel memory_of float_text mir_array mir_grib field_values field_grid field_with field_message message_field G
      c H0 H x db base kw values di do m r g _ eq_refl WP FL FT (all_names parse gunzip sha ext_of NM _ _) (public_proper base _ AS PF) CL KE (public_sound base l SV ON _ AS) OI LO (public_steady base _ AS) (public_apart base l SV ON _ AS)
      (fun gi go _ => public_only base _ AS _ gi go m (fun d I => in_or_app _ _ _ (or_intror I))) R) as (-> & gi & go & RQ & [C|(z & sh & n & WN & IS & AP)]); (split; [reflexivity|]); [left; exists gi, go; auto|right].
    destruct (now_entry base l SV di do a0 b0 m MA MB gi go z sh n RQ WN IS) as (pre & q & post & EL & PQ & NS & OF). exists pre, q, post, z, n. auto 8.
  Qed.

  (** The same for fields: each is answered so; the output grid in the new metadata is the completed
      dictionary; it is regular. *)
  Theorem C126_fields c H0 H x db base l kw fs g gs b0 m d :
    forall cl, cl = PRegrid x (DFields fs) (Some g) (VStr m) (VStr "precomputed") kw ->
    serves base l -> own_names base l -> proper_there -> only_inventory "inventory" kw db -> located db base ->
    cleared H0 -> known_between (H0 ++ H) -> Forall (asks_publicly base) (H0 ++ H ++ [cl]) -> for_grid fuel g b0 -> from_dict g = Ok gs ->
    snd (regrid_call x (DFields fs) (Some g) (VStr m) (VStr "precomputed") kw (pafter (rinit c) (H0 ++ H))) = Ok d ->
    (exists dx dy n w s e dec, geometry b0 = LatLon dx dy n w s e dec) /\
    exists rs, d = DFields rs /\
      Forall2 (fun f f' => exists v di u a0, of_field field_values field_grid f None v di /\ means di a0 /\ field_with f u (gd gs) = Ok f' /\
        (collision (H ++ [cl]) di (gd gs) m \/ answered_by base l a0 b0 m v u)) fs rs.
  Proof using K1 K2 WP FL FT NM.
    intros cl Ecl SV ON PF OI LO CL KE AS MB GS R. subst cl. set (cl := PRegrid x (DFields fs) (Some g) (VStr m) (VStr "precomputed") kw) in *.
    destruct (C103_steady_fields_partial zero add mul parse gunzip digest read_sha load_npz weigh sha dir check fetch ext_of py_str key_order fuel memory_of float_text mir_array mir_grib field_values field_grid field_with field_message message_field G
      c H0 H x db base kw fs g gs m d _ eq_refl WP FL FT (all_names parse gunzip sha ext_of NM _ _) (public_proper base _ AS PF) CL KE (public_sound base l SV ON _ AS) OI LO GS (public_steady base _ AS) (public_apart base l SV ON _ AS)
      (fun _ _ _ _ _ gi go _ => public_only base _ AS _ gi go m (fun d I => in_or_app _ _ _ (or_intror I))) R) as (LL & rs & -> & F2).
    assert (MG : means (gd gs) b0) by (exists g; split; [exact MB|right; eauto]).
    split.
    - pose proof (dg_geometry _ _ (reading_of g b0 gs (proj1 (proj2 MB)) GS)) as D. unfold is_regular_ll in LL. destruct (geometry b0) as [[] nm o|dx dy n w s e dec|nm dx n w s e dec]; cbn in D; [| |eauto 10|].
      + destruct D as (_ & CC & _). rewrite CC in LL. discriminate LL.
      + destruct D as (_ & CC & _). rewrite CC in LL. discriminate LL.
      + destruct D as (CC & _). rewrite CC in LL. discriminate LL.
    - exists rs. split; [reflexivity|]. refine (Forall2_in_impl _ _ _ _ _ F2). intros f f' I (v & di & u & OF & FW & gi & go & RQ & K).
      assert (AT : asked_at (H0 ++ H ++ [cl]) x base v di (gd gs) m).
      { exists cl. split; [apply in_or_app; right; apply in_or_app; right; left; reflexivity|]. exists db. split; [exact LO|]. apply (d_fields field_values field_grid x fs f v di g gs (VStr m) kw db I OF GS).
        destruct OI as [|w db N]; [reflexivity|]. unfold picks. cbn [alookup]. rewrite String.eqb_refl. exact N. }
      destruct (publicly base _ AS _ _ _ _ _ _ AT) as (_ & _ & a0 & _ & MA & _). exists v, di, u, a0. split; [exact OF|]. split; [exact MA|]. split; [exact FW|].
      destruct K as [C|(z & sh & n & WN & IS & AP)]; [left; exists gi, go; auto|right].
      destruct (now_entry base l SV di (gd gs) a0 b0 m MA MG gi go z sh n RQ WN IS) as (pre & q & post & EL & PQ & NS & OFF). exists pre, q, post, z, n. auto 8.
  Qed.

  (** If an entry certainly has the grids and the method asked for, none before it may, and the sizes
      fit: answered with its weights (unless they are too large for a strict memory cache). *)
  Theorem C126_answered c H0 H x db base l pre q post kw values di do a0 b0 m z n :
    serves base l -> own_names base l -> proper_there -> only_inventory "inventory" kw db -> located db base ->
    cleared H0 -> known_between (H0 ++ H) -> settings_accepted c (H0 ++ H) -> tells_age check x ->
    Forall (asks_publicly base) (H0 ++ H ++ [call x values di do m kw]) -> means di a0 -> means do b0 ->
    l = pre ++ q :: post -> surely fuel a0 b0 m q -> Forall (fun q => ~ perhaps fuel a0 b0 m q) pre -> offers base q z n ->
    prod (shape values) = n_cols z -> prod n = n_rows z ->
    (exists r, snd (array_regrid x values (Some di) (Some do) (VStr m) (VStr "precomputed") kw (pafter (rinit c) (H0 ++ H))) = Ok (r, do) /\ applies zero add mul z n values r) \/
    (snd (array_regrid x values (Some di) (Some do) (VStr m) (VStr "precomputed") kw (pafter (rinit c) (H0 ++ H))) = Raise WeightsTooLarge /\ strict (z_mem (p_sys (pafter (rinit c) (H0 ++ H)))) = true) \/
    collision (H ++ [call x values di do m kw]) di do m.
  Proof using K1 K2 WP FL FT NM.
    intros SV ON PF OI LO CL KE AC TA AS MA MB EL SQ NP OF E1 E2. set (cl := call x values di do m kw) in *.
    destruct (means_reading _ _ _ MA) as (_ & _ & _ & gi & G1 & _), (means_reading _ _ _ MB) as (_ & _ & _ & go & G2 & _).
    assert (AK : askable parse gunzip G check x base) by (destruct TA as [T|T]; [left; exact T|right; intros u _; apply T]).
    assert (IS : is_shape (VList (map VInt (map Z.of_nat n))) n) by (right; left; rewrite map_map; reflexivity).
    destruct (C103_answered_partial zero add mul parse gunzip digest read_sha load_npz weigh sha dir check fetch ext_of py_str key_order fuel memory_of float_text mir_array mir_grib field_values field_grid field_with field_message message_field G
      c H0 H x db base kw values di do m gi go z _ n _ eq_refl WP FL FT (all_names parse gunzip sha ext_of NM _ _) (public_proper base _ AS PF) CL KE (public_sound base l SV ON _ AS) OI LO (public_steady base _ AS) (public_apart base l SV ON _ AS)
      (public_healthy base l SV) AK AC (conj G1 G2) (public_only base _ AS _ gi go m (fun d I => in_or_app _ _ _ (or_intror I)))
      (entry_now base l SV di do a0 b0 m MA MB gi go pre q post z n (conj G1 G2) EL SQ NP OF) IS E1 E2) as [R|[[R [T _]]|C]]; [left; exact R|right; left; auto|right; right; exists gi, go; split; [split; assumption|exact C]].
  Qed.
  (** If no entry may have the grids and the method asked for, ValueError. *)
  Theorem C126_refused c H0 H x db base l kw values di do a0 b0 m :
    serves base l -> own_names base l -> only_inventory "inventory" kw db -> located db base ->
    cleared H0 -> known_between (H0 ++ H) -> Forall (asks_publicly base) (H0 ++ H ++ [call x values di do m kw]) -> means di a0 -> means do b0 ->
    Forall (fun q => ~ perhaps fuel a0 b0 m q) l ->
    snd (array_regrid x values (Some di) (Some do) (VStr m) (VStr "precomputed") kw (pafter (rinit c) (H0 ++ H))) = Raise ValueError \/ collision (H ++ [call x values di do m kw]) di do m.
  Proof using K1 K2 WP FL FT NM.
    intros SV ON OI LO CL KE AS MA MB NP. set (cl := call x values di do m kw) in *.
    destruct (means_reading _ _ _ MA) as (_ & _ & _ & gi & G1 & _), (means_reading _ _ _ MB) as (_ & _ & _ & go & G2 & _).
    destruct (C103_refused_partial zero add mul parse gunzip digest read_sha load_npz weigh sha dir check fetch ext_of py_str key_order fuel memory_of float_text mir_array mir_grib field_values field_grid field_with field_message message_field G
      c H0 H x db base kw values di do m gi go _ eq_refl WP FL FT (all_names parse gunzip sha ext_of NM _ _) CL KE (public_sound base l SV ON _ AS) OI LO (public_steady base _ AS) (public_apart base l SV ON _ AS)
      (public_healthy base l SV) (public_summed base l SV) (conj G1 G2) (public_only base _ AS _ gi go m (fun d I => in_or_app _ _ _ (or_intror I)))
      (none_now base l SV di do a0 b0 m MA MB gi go (conj G1 G2) NP)) as [R|C]; [left; exact R|right; exists gi, go; split; [split; assumption|exact C]].
  Qed.
End Any.

(** ** The hypotheses are met by the small server of Props_ApiRemote2.v *)
Definition end_ll (sh : option (list Z)) : grid := mkGrid (LatLon 10 10 90 0 (-90) 350 True) (fun _ => 0) sh.
Lemma end_reads_ll d sh : NoDup (akeys d) -> untyped d -> alookup "grid" d = Some (VList [VInt 10; VInt 10]) -> alookup "area" d = None -> alookup "global" d = None ->
  its_shape d sh -> (forall k, In k flags -> alookup k d = None) -> reads_as d (end_ll sh).
Proof.
  intros N U GR AR GL SH FL. assert (GG : given d "grid" = Some (VList [VInt 10; VInt 10])) by (unfold given; rewrite GR; reflexivity).
  assert (GA : given d "area" = None) by (unfold given; rewrite AR; reflexivity). assert (GB : given d "global" = None) by (unfold given; rewrite GL; reflexivity).
  split; [exact N|]. split; [|split; [exact SH|intros k I; unfold its_scanning, given; rewrite (FL k I); reflexivity]].
  assert (B : (Rabs 10 <= 360)%R) by (rewrite Rabs_pos_eq; lra).
  split; [right; split; [exact U|]; exists (VList [VInt 10; VInt 10]); split; [exact GR|constructor]|].
  split; [exists (VInt 10), (VInt 10); split; [exact GG|]; split; apply EndProofs.number_int; lia|]. split; [exact B|]. split; [exact B|]. split.
  - apply (by_increments _ _ _ _ _ _ _ 10000); [exact GA|exact GB|cbn; tauto|apply EndProofs.number_int; cbn; lia|apply EndProofs.number_int; cbn; lia|]. exists (VInt 90), (VInt 0), (VInt (-90)), (VInt 350).
    split; [reflexivity|]. split; [apply EndProofs.number_int; lia|]. split; [apply EndProofs.number_int; lia|]. split; apply EndProofs.number_int; lia.
  - split; [|intros _; exact I]. intros _. right. auto.
Qed.
Lemma net_reads_in : for_grid 10 demo_out (end_b None).
Proof. split; [exact (proj2 demo_plain)|]. split; [exact end_reads_out|apply end_bounded]. Qed.
Lemma net_bounded sh : bounded 10 (end_ll sh).
Proof. split; unfold enough; cbn; rewrite Rabs_pos_eq; lra. Qed.
Lemma net_reads_out : for_grid 10 ll_out (end_ll None).
Proof.
  split; [apply net_plain; left; reflexivity|]. split; [|apply net_bounded].
  apply end_reads_ll; try reflexivity; [repeat constructor; intros []|left; reflexivity|intros k [<-|[<-|[<-|[]]]]; reflexivity].
Qed.
Lemma net_lists : lists 10 "w" ll_raw (end_b None) (end_ll (Some [2])) "linear" "mir_16_linear/w.npz".
Proof.
  constructor.
  - eexists; eexists. split; [reflexivity|]. split; [reflexivity|]. split; [exact end_reads_out|].
    apply end_reads_ll; try reflexivity; [cbn; repeat (apply NoDup_cons; [cbn; intuition discriminate|]); apply NoDup_nil|left; reflexivity|intros k [<-|[<-|[<-|[]]]]; reflexivity].
  - split; [apply end_bounded|apply net_bounded].
  - exists "mir", "16", (MName "linear"). split; [reflexivity|]. split; [left; reflexivity|]. split; [reflexivity|]. split; [discriminate|]. split; [exists "linea", "r"%char; split; [reflexivity|discriminate]|discriminate].
Qed.
Lemma net_address p u : address_of "http://s" p u -> u = ("http://s/" ++ p)%string.
Proof. intros [[_ ->]|[(t & E) _]]; [reflexivity|]. exfalso. apply (f_equal ends_with_slash) in E. unfold ends_with_slash in E. rewrite chars_app, rev_app_distr in E. discriminate E. Qed.
Lemma net_surely : surely 10 (end_b None) (end_ll None) "linear" ("w", ll_raw).
Proof.
  exists (end_b None), (end_ll (Some [2])), "linear", "mir_16_linear/w.npz". split; [exact net_lists|]. split; [right; split; [discriminate|]; split; [discriminate|reflexivity]|].
  assert (Z0 : forall x, (Rabs (x - x) <= 0.0000000001)%R) by (intros x; rewrite Rminus_eq_0, Rabs_R0; lra).
  pose proof (Z0 90%R). pose proof (Z0 0%R). pose proof (Z0 (-90)%R). pose proof (Z0 360%R). pose proof (Z0 10%R). pose proof (Z0 350%R). split.
  - split; [reflexivity|]. split; [intros; discriminate|]. cbn. split; [reflexivity|]. left. lra.
  - split; [reflexivity|]. split; [intros; discriminate|]. cbn. rewrite (Rabs_pos_eq 10) by lra. split; [lra|]. split; [lra|]. left. lra.
Qed.
Definition net_list : list (string * raw Z) := [("w", ll_raw)].
(** A call, a new process, two calls. *)
Definition net_before : list net_call := [net_fields "http://s" "linear"; PElse net_restart].
Example C126_met : forall d, d = net_fields "http://s" "linear" \/ d = net_values "http://s" "linear" \/ d = net_values "http://s" "nn" ->
  serves page_parse page_gunzip page_digest page_sha 10 net_site "http://s" net_list /\ own_names toy_sha toy_ext 10 net_site "http://s" net_list /\ proper_there page_npz net_site /\
  only_inventory "inventory" [("inventory", VStr "http://s")] (FromUrl "http://s") /\ located (FromUrl "http://s") "http://s" /\ net_cleared net_before /\ net_between (net_before ++ net_rest) /\
  Forall (asks_publicly ll_values ll_grid 10 net_site "http://s") (net_before ++ net_rest ++ [d]) /\ tells_age true (visit net_site) /\
  means 10 demo_out (end_b None) /\ for_grid 10 ll_out (end_ll None) /\
  surely 10 (end_b None) (end_ll None) "linear" ("w", ll_raw) /\ ~ perhaps 10 (end_b None) (end_ll None) "nn" ("w", ll_raw) /\ offers page_npz 10 net_site "http://s" ("w", ll_raw) matrix_a [2%nat] /\
  settings_accepted 0 Z.add Z.mul page_parse page_gunzip page_digest page_sha page_npz page_weigh toy_sha "/c" true false toy_ext demo_py COMPARE_KEYS 10 (fun x : Z => x) demo_text
    ll_mir ll_grib ll_values ll_grid ll_with ll_message ll_of_message roomy (net_before ++ net_rest).
Proof.
  intros d D.
  assert (PE : plain_end "http://s") by (exists "http://", "s"%char; split; [reflexivity|discriminate]).
  assert (IE : forall n r, In (n, r) net_list -> exists a b m p, lists 10 n r a b m p) by (intros n r [E|[]]; injection E as <- <-; do 4 eexists; exact net_lists).
  assert (FO : forall u, file_of 10 "http://s" net_list u -> In u net_urls).
  { intros u [AD|[AD|(n & r & a & b & m & p & [E|[]] & LS & AD)]]; apply net_address in AD; subst u; [left; reflexivity|right; left; reflexivity|]. injection E as <- <-.
    destruct LS as [_ _ (en & ve & how & EI & HM & -> & _)]. cbn in EI. injection EI as <- <- <-. destruct HM as [HM|HM]; [injection HM as <-|discriminate HM]. right. right. left. reflexivity. }
  assert (MA : means 10 demo_out (end_b None)) by (exists demo_out; split; [exact net_reads_in|auto]).
  assert (KD : net_kind d) by (destruct D as [->|[->| ->]]; [left; exists "http://s", "linear"|left; exists "http://s", "linear"|left; exists "http://s", "nn"]; unfold net_url, net_method; auto 8).
  split. { constructor.
    - left. exact PE.
    - exists "http://s/index.json.gz", (PackedIndex "1" net_index), (TextIndex "1" net_index), "1". split; [left; auto|]. repeat split.
    - exists "http://s/index.json.sha256", (Checksum "1"), "1". split; [left; auto|]. split; reflexivity.
    - cbn. repeat constructor. intros [].
    - exact IE. }
  split; [intros u v b F E; apply net_apart; [exact (FO u F)|exact (proj1 (net_served v b E))]|].
  split. { intros u b z E LZ. destruct (net_served u b E) as (_ & [(v & ->)|[(v & ->)|(z' & -> & P)]]); cbn in LZ; try discriminate LZ. injection LZ as <-. exact P. }
  split; [apply oi_some, net_names; left; reflexivity|]. split; [apply net_located; left; reflexivity|].
  split; [right; exists [net_fields "http://s" "linear"], net_restart; split; [reflexivity|right; exists roomy; reflexivity]|].
  split. { intros f I. cbn in I. destruct I as [I|[I|[I|[I|[]]]]]; try discriminate I. injection I as <-. exists (RRestart roomy). split; [exact Logic.I|reflexivity]. }
  split. { assert (X : forall d', net_kind d' -> (forall u m, d' = net_fields u m \/ d' = net_values u m -> u = "http://s") -> asks_publicly ll_values ll_grid 10 net_site "http://s" d').
    { intros d' K U x base' v di do m AT. pose proof AT as (db & LO & DM).
      destruct (net_asked [d'] x base' v di do m) as (-> & BU & -> & NO & MM); [constructor; [exact K|constructor]|exists d'; split; [left; reflexivity|exact AT]|].
      split. { destruct K as [(u & m' & NU & _ & E)| ->]; [|inversion DM]. pose proof (U u m' E) as ->. destruct E as [-> | ->]; inversion DM; subst; match goal with P : picks _ _ _ |- _ => apply (net_picks "http://s" db NU) in P; subst db end; inversion LO; reflexivity. }
      split; [reflexivity|]. exists (end_b None), (end_ll None). split; [exact MA|]. exists ll_out. split; [exact net_reads_out|]. destruct NO as [->| ->]; [left; reflexivity|right]. exists ll_gs. split; vm_compute; reflexivity. }
    assert (Y1 : asks_publicly ll_values ll_grid 10 net_site "http://s" (net_fields "http://s" "linear")).
    { apply X; [left; exists "http://s", "linear"; unfold net_url, net_method; auto|]. intros u m [E|E]; [injection E as <- <-; reflexivity|discriminate E]. }
    assert (Y2 : forall m, net_method m -> asks_publicly ll_values ll_grid 10 net_site "http://s" (net_values "http://s" m)).
    { intros m M. apply X; [left; exists "http://s", m; unfold net_url; auto|]. intros u m' [E|E]; [discriminate E|injection E as <- <-; reflexivity]. }
    assert (Y3 : asks_publicly ll_values ll_grid 10 net_site "http://s" (PElse net_restart)) by (intros x base' v di do m (db & _ & DM); inversion DM).
    assert (Y4 : asks_publicly ll_values ll_grid 10 net_site "http://s" d) by (destruct D as [->|[->| ->]]; [exact Y1|apply Y2; left; reflexivity|apply Y2; right; reflexivity]).
    repeat (apply Forall_cons; [first [exact Y1|exact Y3|exact Y4|apply Y2; unfold net_method; auto]|]). apply Forall_nil. }
  split; [right; intros u; exists true; reflexivity|]. split; [exact MA|]. split; [exact net_reads_out|]. split; [exact net_surely|].
  split. { intros (a & b & m' & p & LS & KM & _). destruct LS as [_ _ (en & ve & how & EI & HM & _)]. cbn in EI. injection EI as <- <- <-. destruct HM as [HM|HM]; [injection HM as <-|discriminate HM].
    destruct KM as [[_ E]|(E & _)]; [discriminate E|exact (E eq_refl)]. }
  split. { exists (end_b None), (end_ll (Some [2])), "linear", "mir_16_linear/w.npz", "http://s/mir_16_linear/w.npz", (Npz matrix_a). split; [exact net_lists|]. split; [left; auto|]. repeat split. }
  split; [reflexivity|]. intros pre f post E. assert (I : In (PElse f) (net_before ++ net_rest)) by (rewrite E; apply in_or_app; right; left; reflexivity). cbn in I. destruct I as [I|[I|[I|[I|[]]]]]; try discriminate I. injection I as <-.
  exists (RRestart roomy). split; [exact Logic.I|]. split; reflexivity.
Qed.
(** And these are the results: the values of the array, ... *)
Theorem C126_example : exists r,
  snd (net_array (visit net_site) demo_values (Some demo_out) (Some ll_out) (VStr "linear") (VStr "precomputed") [("inventory", VStr "http://s")] (net_after (net_before ++ net_rest))) = Ok (r, ll_out) /\
  applies 0 Z.add Z.mul matrix_a [2%nat] demo_values r.
Proof.
  destruct (C126_met (net_values "http://s" "linear")) as (SV & ON & PF & OI & LO & CL & KB & AS & TA & MA & MB & SU & _ & OF & AC); [auto|]. destruct C93_met as (WP & _).
  assert (MB' : means 10 ll_out (end_ll None)) by (exists ll_out; auto).
  destruct (C126_answered 0 Z.add Z.mul page_parse page_gunzip page_digest page_sha page_npz page_weigh toy_sha "/c" true false toy_ext demo_py COMPARE_KEYS 10 (fun x : Z => x) demo_text
      ll_mir ll_grib ll_values ll_grid ll_with ll_message ll_of_message net_site (incl_refl _) (incl_refl _) WP toy_length demo_texts toy_cache_names roomy net_before net_rest (visit net_site) (FromUrl "http://s") "http://s"
      net_list [] ("w", ll_raw) [] [("inventory", VStr "http://s")] demo_values demo_out ll_out (end_b None) (end_ll None) "linear" matrix_a [2%nat] SV ON PF OI LO CL KB AC TA AS MA MB' eq_refl SU (Forall_nil _) OF eq_refl eq_refl) as [R|[[R _]|C]].
  - exact R.
  - exfalso. vm_compute in R. discriminate R.
  - exfalso. destruct C as (gi & go & RQ & x & base' & v & di & do & m' & gi' & go' & AT & RQ' & NE & E).
    assert (T : Forall net_kind (net_rest ++ [net_values "http://s" "linear"])).
    { repeat (apply Forall_cons; [apply net_kinds; unfold net_method; auto|]). apply Forall_nil. }
    destruct (net_asked _ x base' v di do m' T AT) as (_ & _ & -> & NO & MM).
    assert (gi' = gi) as -> by (destruct RQ as [Q1 _], RQ' as [Q1' _]; rewrite Q1 in Q1'; apply ok_inj in Q1'; auto).
    assert (gi = ll_gi) as -> by (destruct RQ as [Q1 _]; assert (X : from_dict demo_out = Ok ll_gi) by (vm_compute; reflexivity); rewrite X in Q1; apply ok_inj in Q1; auto).
    assert (go = ll_gs) as -> by (destruct RQ as [_ Q1]; assert (X : from_dict ll_out = Ok ll_gs) by (vm_compute; reflexivity); rewrite X in Q1; apply ok_inj in Q1; auto).
    assert (go' = ll_gs \/ go' = ll_go) as GO.
    { destruct RQ' as [_ Q1]. destruct NO as [->| ->]; [left|right]; [assert (X : from_dict ll_out = Ok ll_gs) by (vm_compute; reflexivity)|assert (X : from_dict (gd ll_gs) = Ok ll_go) by (vm_compute; reflexivity)]; rewrite X in Q1; apply ok_inj in Q1; auto. }
    destruct GO as [->| ->], MM as [->| ->].
    + exact (NE eq_refl).
    + vm_compute in E. discriminate E.
    + apply NE. vm_compute. reflexivity.
    + vm_compute in E. discriminate E.
Qed.
(** ... and the refusal of another method. *)
Example C126_refused_met : snd (net_array (visit net_site) demo_values (Some demo_out) (Some ll_out) (VStr "nn") (VStr "precomputed") [("inventory", VStr "http://s")] (net_after (net_before ++ net_rest))) = Raise ValueError.
Proof. vm_compute. reflexivity. Qed.
Example C126_fields_met : exists r r',
  snd (net_regrid (visit net_site) (DFields [ll_one; ll_two]) (Some ll_out) (VStr "linear") (VStr "precomputed") [("inventory", VStr "http://s")] (net_after (net_before ++ net_rest))) = Ok (DFields [r; r']).
Proof. do 2 eexists. vm_compute. reflexivity. Qed.

Print Assumptions C126_array.
Print Assumptions C126_fields.
Print Assumptions C126_answered.
Print Assumptions C126_refused.
Print Assumptions C126_example.
