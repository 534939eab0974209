(** C128: public calls with inventories of all kinds in one process, the disk cache without limits: what
    certainly is in the inventory asked is answered with, what certainly is not is refused. *)
From Coq Require Import Reals Psatz.
From Verif Require Import PyBase MemCacheProofs MemCacheProofs2 ListLemmas PyStr Float64 GridSpec GridVocab GridProofs FloatReal GridMatchSpec GridReal GridMatch3 GridDecide
  Index IndexSpec Db MemCache Inventory Regrid RegridSpec Key KeySpec KeyProofs System SystemSpec SystemProofs EndSpec EndProofs Props_System Props_End
  Disk DiskSpec Props_Key CacheFile Remote RemoteSpec RemoteProofs3 Props_Remote Dispatch Api ApiSpec ApiProofs Props_Api Props_ApiLocal EndRemoteSpec Props_EndRemote Props_ApiRemote2 EndApiSpec Props_EndApi EndLocalSpec Props_EndLocal
  Every EverySpec EveryProofs EveryProofs2 Props_Every Props_Every2 Props_Every3 EndEverySpec Props_EndEvery Props_EndEvery2.
Set Default Proof Using "Type".
Local Open Scope string_scope.
Local Open Scope list_scope.
Local Open Scope Z_scope.

Section Any.
  Context {A rest blob field : Type}.
  Variables (zero : A) (add mul : A -> A -> A).
  Variable parse : blob -> result (file rest).
  Variable gunzip : blob -> result blob.
  Variable digest : blob -> result string.
  Variable read_sha : blob -> result string.
  Variable load_npz : blob -> result (csr A).
  Variable weigh : blob -> node.
  Variable sha : string -> string.
  Variable dir : string.
  Variables check fetch : bool.
  Variable ext_of : string -> string.
  Variables (py_str : val -> string) (key_order : list string) (fuel : nat).
  Variable memory_of : rest -> Z.
  Variable float_text : f64 -> string.
  Variable mir_array : array A -> option dict -> option dict -> dict -> result (array A * dict).
  Variable mir_grib : string -> option dict -> dict -> result string.
  Variable field_values : field -> result (array A).
  Variable field_grid : field -> result (option dict).
  Variable field_with : field -> array A -> dict -> result field.
  Variable field_message : field -> result string.
  Variable message_field : string -> result field.
  Variable files : fs rest (csr A).
  Variable G : string -> result blob.
  Notation S := (@esys A rest blob).
  Notation meets := (@emeets A rest blob).
  Notation efind := (any_find parse gunzip digest read_sha load_npz weigh sha dir None None check fetch ext_of py_str key_order fuel memory_of float_text).
  Notation array_regrid := (array_regrid zero add mul efind mir_array).
  Notation regrid_call := (regrid_call zero add mul efind mir_array mir_grib field_values field_grid field_with field_message message_field).
  Notation pafter := (pafter zero add mul efind mir_array mir_grib field_values field_grid field_with field_message message_field).
  Notation pcall := (@pop_call A S meets field).
  Notation requests := (@requests A rest blob field field_values field_grid).
  Notation requested := (@requested A rest blob field field_values field_grid).
  Notation called := (@called A rest blob field field_values field_grid).
  Notation collides_with := (@collides_with A rest blob field field_values field_grid sha float_text).
  Notation only_to := (@only_to A rest blob field field_values field_grid).
  Notation sound_calls := (@Props_Every.sound_calls A rest blob field parse gunzip sha ext_of py_str key_order fuel field_values field_grid).
  Notation known_between := (@Props_Every.known_between A rest blob field parse gunzip digest read_sha load_npz weigh sha dir None None check fetch ext_of py_str key_order fuel memory_of float_text).
  Notation cleared := (@Props_Every.cleared A rest blob field parse gunzip digest read_sha load_npz weigh sha dir None None check fetch ext_of py_str key_order fuel memory_of float_text).
  Notation inventory_at := (inventory_at parse gunzip digest read_sha sha ext_of fuel files G).
  Notation has_weights := (has_weights load_npz fuel files G).
  Notation unchanged := (@unchanged A rest blob files G).
  Notation asks_known := (@asks_known A rest blob field parse gunzip digest read_sha sha ext_of field_values field_grid fuel files G).
  Notation asked_only_at := (@asked_only_at A rest blob field field_values field_grid fuel).
  Notation proper_everywhere := (@proper_everywhere A rest blob load_npz files G).
  Notation means := (means fuel).
  Implicit Types (H : list pcall) (values r : array A) (l : list (string * raw rest)) (x : meets) (q : place).

  Hypotheses (K1 : incl COMPARE_KEYS key_order) (K2 : incl key_order COMPARE_KEYS).
  Hypotheses (WP : forall b, 0 <= n_size (weigh b)) (FL : fixed_length sha) (FT : float_texts float_text).
  Hypothesis NM : forall t u, cache_name ("url-" ++ sha t ++ ext_of u) /\ cache_name ("regrid-" ++ sha t ++ ".cache").


  Notation same_hash := (@same_hash A rest blob field sha float_text field_values field_grid).
  Notation settings_right := (@settings_right A rest blob field zero add mul parse gunzip digest read_sha load_npz weigh sha dir check fetch ext_of py_str key_order fuel memory_of float_text mir_array mir_grib field_values field_grid field_with field_message message_field).
  (** An entry certainly has the grids and the method asked for, none before it may; its weights. *)
  Definition surely_at q l a0 b0 m (z : csr A) (n : list nat) : Prop :=
    exists pre e post, l = pre ++ e :: post /\ surely fuel a0 b0 m e /\ Forall (fun e => ~ perhaps fuel a0 b0 m e) pre /\ has_weights q e z n.
  (** No entry may have them. *)
  Definition surely_not l a0 b0 m : Prop := Forall (fun e : string * raw rest => ~ perhaps fuel a0 b0 m e) l.
  (** A server asked tells the age of its files, or this is not asked for. *)
  Definition age_known x q : Prop := match q with Here _ => True | There _ => tells_age check (em_net x) end.

  Lemma surely_weights q l di do a0 b0 m z n gi go : inventory_at q l -> means di a0 -> means do b0 -> IndexSpec.request di do gi go -> surely_at q l a0 b0 m z n ->
    weights_at parse gunzip load_npz py_str key_order fuel files G q gi go m z (VList (map VInt (map Z.of_nat n))).
  Proof using K1 K2.
    intros IV MA MB RQ (pre & e & post & EL & SE & NP & HW). destruct IV as [path l IV|base l SV ON OI]; cbn [weights_at EndEverySpec.has_weights] in *.
    - exact (entry_here py_str key_order fuel files K1 K2 path l IV di do a0 b0 m MA MB gi go pre e post z n RQ EL SE NP HW).
    - exact (entry_now parse gunzip digest read_sha load_npz py_str key_order fuel G K1 K2 base l SV di do a0 b0 m MA MB gi go pre e post z n RQ EL SE NP HW).
  Qed.
  Lemma surely_nothing q l di do a0 b0 m gi go : inventory_at q l -> means di a0 -> means do b0 -> IndexSpec.request di do gi go -> surely_not l a0 b0 m ->
    nothing_at parse gunzip py_str key_order fuel files G q gi go m.
  Proof using K1 K2.
    intros IV MA MB RQ NP. destruct IV as [path l IV|base l SV ON OI]; cbn [nothing_at].
    - exact (none_here py_str key_order fuel files K1 K2 path l IV di do a0 b0 m MA MB gi go RQ NP).
    - exact (none_now parse gunzip digest read_sha py_str key_order fuel G K1 K2 base l SV di do a0 b0 m MA MB gi go RQ NP).
  Qed.
  Lemma known_well HH q l : Forall asks_known HH -> inventory_at q l -> well parse gunzip digest sha ext_of (called HH) G q.
  Proof using K1.
    intros AS IV. destruct q as [path|base]; cbn [well]; [exact Logic.I|]. split; [exact (every_apart parse gunzip digest read_sha sha ext_of fuel field_values field_grid files G HH AS base l IV)|].
    inversion IV; subst. eapply public_healthy; eassumption.
  Qed.
  Lemma known_checked q l : inventory_at q l -> checked read_sha G q.
  Proof using K1. intros IV. destruct IV as [path l IV|base l SV ON OI]; cbn [checked]; [exact Logic.I|]. eapply public_summed; eassumption. Qed.
  Lemma known_readable x q : age_known x q -> readable parse gunzip check G q x.
  Proof. destruct q as [path|base]; cbn; [auto|]. intros [T|T]; [left; exact T|right; intros u _; apply T]. Qed.
  Lemma known_steady HH : Forall asks_known HH -> forall x q, called HH x q -> steady files G x q.
  Proof. intros AS x q C. exact (proj1 (call_known parse gunzip digest read_sha sha ext_of fuel field_values field_grid files G HH AS x q C)). Qed.

  Theorem C128_answered c H0 H x db q l kw values di do a0 b0 m z n :
    forall cl, cl = PArray x values (Some di) (Some do) (VStr m) (VStr "precomputed") kw ->
    inventory_at q l -> proper_everywhere -> only_inventory "inventory" kw db -> placed db q -> age_known x q ->
    cleared H0 -> known_between (H0 ++ H) -> settings_right c (H0 ++ H) -> Forall asks_known (H0 ++ H ++ [cl]) -> asked_only_at q H a0 b0 m -> means di a0 -> means do b0 ->
    surely_at q l a0 b0 m z n -> prod (shape values) = n_cols z -> prod n = n_rows z ->
    let r := snd (array_regrid x values (Some di) (Some do) (VStr m) (VStr "precomputed") kw (pafter (einit c) (H0 ++ H))) in
    (exists u, r = Ok (u, do) /\ applies zero add mul z n values u) \/
    (r = Raise WeightsTooLarge /\ strict (e_mem (p_sys (pafter (einit c) (H0 ++ H)))) = true) \/ same_hash (H ++ [cl]) di do m.
  Proof using K1 K2 WP FL FT NM.
    intros cl Ecl IV PF OI PL AG CL KE AC AS OH MA MB SA E1 E2 r. subst cl r. set (cl := PArray x values (Some di) (Some do) (VStr m) (VStr "precomputed") kw) in *.
    pose proof (only_also fuel field_values field_grid q H cl a0 b0 m OH (fun _ _ _ _ _ _ => array_place field_values field_grid _ _ _ _ _ _ _ _ _ _ _ _ _ _ OI PL)) as OH'.
    assert (IN : forall d, In d (H ++ [cl]) -> In d (H0 ++ H ++ [cl])) by (intros d I; apply in_or_app; auto).
    destruct (means_reading _ _ _ MA) as (_ & _ & _ & gi & G1 & _), (means_reading _ _ _ MB) as (_ & _ & _ & go & G2 & _).
    assert (IS : is_shape (VList (map VInt (map Z.of_nat n))) n) by (right; left; rewrite map_map; reflexivity).
    destruct (C106_answered_partial zero add mul parse gunzip digest read_sha load_npz weigh sha dir check fetch ext_of py_str key_order fuel memory_of float_text mir_array mir_grib field_values field_grid field_with field_message message_field files G
      c H0 H x db q kw values di do m gi go z _ n _ eq_refl WP FL FT (all_names parse gunzip sha ext_of NM _ _) (every_proper parse gunzip digest read_sha load_npz sha ext_of fuel field_values field_grid files G _ AS PF) CL KE
      (every_sound parse gunzip digest read_sha sha ext_of py_str key_order fuel field_values field_grid files G K1 K2 _ AS) OI PL (known_steady _ AS) (known_well _ q l AS IV) (known_readable x q AG) AC (conj G1 G2)
      (every_only parse gunzip digest read_sha sha ext_of py_str key_order fuel field_values field_grid files G K1 K2 _ AS q (H ++ [cl]) di do a0 b0 m IN OH' MA MB gi go (conj G1 G2))
      (surely_weights q l di do a0 b0 m z n gi go IV MA MB (conj G1 G2) SA) IS E1 E2) as [R|[R|C]]; [left; exact R|right; left; exact R|right; right; exists gi, go; split; [split; assumption|exact C]].
  Qed.
  Theorem C128_refused c H0 H x db q l kw values di do a0 b0 m :
    forall cl, cl = PArray x values (Some di) (Some do) (VStr m) (VStr "precomputed") kw ->
    inventory_at q l -> only_inventory "inventory" kw db -> placed db q ->
    cleared H0 -> known_between (H0 ++ H) -> Forall asks_known (H0 ++ H ++ [cl]) -> asked_only_at q H a0 b0 m -> means di a0 -> means do b0 -> surely_not l a0 b0 m ->
    snd (array_regrid x values (Some di) (Some do) (VStr m) (VStr "precomputed") kw (pafter (einit c) (H0 ++ H))) = Raise ValueError \/ same_hash (H ++ [cl]) di do m.
  Proof using K1 K2 WP FL FT NM.
    intros cl Ecl IV OI PL CL KE AS OH MA MB SN. subst cl. set (cl := PArray x values (Some di) (Some do) (VStr m) (VStr "precomputed") kw) in *.
    pose proof (only_also fuel field_values field_grid q H cl a0 b0 m OH (fun _ _ _ _ _ _ => array_place field_values field_grid _ _ _ _ _ _ _ _ _ _ _ _ _ _ OI PL)) as OH'.
    assert (IN : forall d, In d (H ++ [cl]) -> In d (H0 ++ H ++ [cl])) by (intros d I; apply in_or_app; auto).
    destruct (means_reading _ _ _ MA) as (_ & _ & _ & gi & G1 & _), (means_reading _ _ _ MB) as (_ & _ & _ & go & G2 & _).
    destruct (C106_refused_partial zero add mul parse gunzip digest read_sha load_npz weigh sha dir check fetch ext_of py_str key_order fuel memory_of float_text mir_array mir_grib field_values field_grid field_with field_message message_field files G
      c H0 H x db q kw values di do m gi go _ eq_refl WP FL FT (all_names parse gunzip sha ext_of NM _ _) CL KE
      (every_sound parse gunzip digest read_sha sha ext_of py_str key_order fuel field_values field_grid files G K1 K2 _ AS) OI PL (known_steady _ AS) (known_well _ q l AS IV) (known_checked q l IV) (conj G1 G2)
      (every_only parse gunzip digest read_sha sha ext_of py_str key_order fuel field_values field_grid files G K1 K2 _ AS q (H ++ [cl]) di do a0 b0 m IN OH' MA MB gi go (conj G1 G2))
      (surely_nothing q l di do a0 b0 m gi go IV MA MB (conj G1 G2) SN)) as [R|C]; [left; exact R|right; exists gi, go; split; [split; assumption|exact C]].
  Qed.

  (** For a field: the weights certainly are there, the sizes fit, and the new field can be made. *)
  Definition field_sure H q l b0 m (do : dict) (f : field) v di a0 (z : csr A) (n : list nat) : Prop :=
    of_field field_values field_grid f None v di /\ means di a0 /\ asked_only_at q H a0 b0 m /\ surely_at q l a0 b0 m z n /\ prod (shape v) = n_cols z /\ prod n = n_rows z /\
    forall u, applies zero add mul z n v u -> exists f', field_with f u do = Ok f'.
  Lemma regular g gs b0 dx dy n w s e dec : for_grid fuel g b0 -> from_dict g = Ok gs -> geometry b0 = LatLon dx dy n w s e dec -> is_regular_ll gs = true.
  Proof. intros MB GS GE. pose proof (dg_geometry _ _ (reading_of g b0 gs (proj1 (proj2 MB)) GS)) as D. rewrite GE in D. cbn in D. destruct D as [D _]. unfold is_regular_ll. rewrite D. reflexivity. Qed.
  Lemma sure_ready HH H x fs g gs m kw db q l b0 f v di a0 z n : forall cl, cl = PRegrid x (DFields fs) (Some g) (VStr m) (VStr "precomputed") kw ->
    Forall asks_known HH -> (forall d, In d (H ++ [cl]) -> In d HH) -> only_inventory "inventory" kw db -> placed db q -> inventory_at q l -> means (gd gs) b0 ->
    field_sure H q l b0 m (gd gs) f v di a0 z n -> exists gi go, field_ready zero add mul parse gunzip load_npz py_str key_order fuel field_values field_grid field_with files G (H ++ [cl]) q (gd gs) m f v di gi go z n.
  Proof using K1 K2.
    intros cl -> AS IN OI PL IV MG (OF & MA & OH & SA & E1 & E2 & FW).
    destruct (means_reading _ _ _ MA) as (_ & _ & _ & gi & G1 & _), (means_reading _ _ _ MG) as (_ & _ & _ & go & G2 & _). exists gi, go.
    split; [exact OF|]. split; [split; assumption|]. split.
    { refine (every_only parse gunzip digest read_sha sha ext_of py_str key_order fuel field_values field_grid files G K1 K2 _ AS q _ di (gd gs) a0 b0 m IN _ MA MG gi go (conj G1 G2)).
      exact (only_also fuel field_values field_grid q H _ a0 b0 m OH (fun _ _ _ _ _ _ => fields_place field_values field_grid _ _ _ _ _ _ _ _ _ _ _ _ _ OI PL)). }
    split; [exists (VList (map VInt (map Z.of_nat n))); split; [exact (surely_weights q l di (gd gs) a0 b0 m z n gi go IV MA MG (conj G1 G2) SA)|right; left; rewrite map_map; reflexivity]|auto].
  Qed.
  Theorem C128_fields_answered c H0 H x db q l kw fs g gs b0 m dx dy nn ww ss ee dec :
    forall cl, cl = PRegrid x (DFields fs) (Some g) (VStr m) (VStr "precomputed") kw ->
    inventory_at q l -> proper_everywhere -> only_inventory "inventory" kw db -> placed db q -> age_known x q ->
    cleared H0 -> known_between (H0 ++ H) -> settings_right c (H0 ++ H) -> Forall asks_known (H0 ++ H ++ [cl]) ->
    for_grid fuel g b0 -> from_dict g = Ok gs -> geometry b0 = LatLon dx dy nn ww ss ee dec ->
    (forall f, In f fs -> exists v di a0 z n, field_sure H q l b0 m (gd gs) f v di a0 z n) ->
    let r := snd (regrid_call x (DFields fs) (Some g) (VStr m) (VStr "precomputed") kw (pafter (einit c) (H0 ++ H))) in
    (exists rs, r = Ok (DFields rs) /\
      Forall2 (fun f f' => exists v di a0 z n u, of_field field_values field_grid f None v di /\ means di a0 /\ surely_at q l a0 b0 m z n /\ applies zero add mul z n v u /\ field_with f u (gd gs) = Ok f') fs rs) \/
    (r = Raise WeightsTooLarge /\ strict (e_mem (p_sys (pafter (einit c) (H0 ++ H)))) = true) \/
    exists f v di, In f fs /\ of_field field_values field_grid f None v di /\ same_hash (H ++ [cl]) di (gd gs) m.
  Proof using K1 K2 WP FL FT NM.
    intros cl Ecl IV PF OI PL AG CL KE AC AS FG GS GE EV r. subst r.
    assert (MG : means (gd gs) b0) by (exists g; split; [exact FG|right; eauto]).
    assert (IN : forall d, In d (H ++ [cl]) -> In d (H0 ++ H ++ [cl])) by (intros d I; apply in_or_app; auto).
    destruct (C106_fields_answered_partial zero add mul parse gunzip digest read_sha load_npz weigh sha dir check fetch ext_of py_str key_order fuel memory_of float_text mir_array mir_grib field_values field_grid field_with field_message message_field files G
      c H0 H x db q kw fs g gs m cl Ecl _ eq_refl WP FL FT (all_names parse gunzip sha ext_of NM _ _) (every_proper parse gunzip digest read_sha load_npz sha ext_of fuel field_values field_grid files G _ AS PF) CL KE
      (every_sound parse gunzip digest read_sha sha ext_of py_str key_order fuel field_values field_grid files G K1 K2 _ AS) OI PL (known_steady _ AS) (known_well _ q l AS IV) (known_readable x q AG) AC GS (regular g gs b0 _ _ _ _ _ _ _ FG GS GE)) as [(rs & R & F2)|[R|(f & v & di & gi & go & I & OF & RQ & C)]].
    - intros f I. destruct (EV f I) as (v & di & a0 & z & n & FS). destruct (sure_ready _ H x fs g gs m kw db q l b0 f v di a0 z n cl Ecl AS IN OI PL IV MG FS) as (gi & go & FR). exists v, di, gi, go, z, n. exact FR.
    - left. exists rs. split; [exact R|]. refine (Forall2_in_impl _ _ _ _ _ F2). intros f f' I (v & di & gi & go & z & n & u & (OF & RQ & _ & (sh & WA & IS) & _) & AP & FW).
      destruct (EV f I) as (v' & di' & a0 & z' & n' & OF' & MA & OH & SA & _). destruct OF as [O1 O2], OF' as [O1' O2']. rewrite O1 in O1'. injection O1' as <-. rewrite O2 in O2'. injection O2' as <-.
      destruct (weights_one parse gunzip load_npz py_str key_order fuel files G q gi go m _ _ _ _ WA (surely_weights q l di (gd gs) a0 b0 m z' n' gi go IV MA MG RQ SA)) as [-> ->].
      assert (EN : n = n'). { assert (IS' : is_shape (VList (map VInt (map Z.of_nat n'))) n') by (right; left; rewrite map_map; reflexivity). apply shape_spec in IS, IS'. congruence. } subst n'.
      exists v, di, a0, z', n, u. split; [split; assumption|auto].
    - right. left. exact R.
    - right. right. exists f, v, di. split; [exact I|]. split; [exact OF|]. exists gi, go. auto.
  Qed.
  (** The first field that certainly has no weights refuses the list. *)
  Theorem C128_fields_refused c H0 H x db q l kw pre f post g gs b0 m v di a0 dx dy nn ww ss ee dec :
    forall cl, cl = PRegrid x (DFields (pre ++ f :: post)) (Some g) (VStr m) (VStr "precomputed") kw ->
    inventory_at q l -> proper_everywhere -> only_inventory "inventory" kw db -> placed db q -> age_known x q ->
    cleared H0 -> known_between (H0 ++ H) -> settings_right c (H0 ++ H) -> Forall asks_known (H0 ++ H ++ [cl]) ->
    for_grid fuel g b0 -> from_dict g = Ok gs -> geometry b0 = LatLon dx dy nn ww ss ee dec ->
    (forall f, In f pre -> exists v di a0 z n, field_sure H q l b0 m (gd gs) f v di a0 z n) ->
    of_field field_values field_grid f None v di -> means di a0 -> asked_only_at q H a0 b0 m -> surely_not l a0 b0 m ->
    let r := snd (regrid_call x (DFields (pre ++ f :: post)) (Some g) (VStr m) (VStr "precomputed") kw (pafter (einit c) (H0 ++ H))) in
    r = Raise ValueError \/ (r = Raise WeightsTooLarge /\ strict (e_mem (p_sys (pafter (einit c) (H0 ++ H)))) = true) \/
    exists f' v di, In f' (pre ++ [f]) /\ of_field field_values field_grid f' None v di /\ same_hash (H ++ [cl]) di (gd gs) m.
  Proof using K1 K2 WP FL FT NM.
    intros cl Ecl IV PF OI PL AG CL KE AC AS FG GS GE EV OF MA OH SN r. subst r.
    assert (MG : means (gd gs) b0) by (exists g; split; [exact FG|right; eauto]).
    assert (IN : forall d, In d (H ++ [cl]) -> In d (H0 ++ H ++ [cl])) by (intros d I; apply in_or_app; auto).
    destruct (means_reading _ _ _ MA) as (_ & _ & _ & gi & G1 & _), (means_reading _ _ _ MG) as (_ & _ & _ & go & G2 & _).
    assert (OH' : asked_only_at q (H ++ [cl]) a0 b0 m) by (rewrite Ecl; exact (only_also fuel field_values field_grid q H _ a0 b0 m OH (fun _ _ _ _ _ _ => fields_place field_values field_grid _ _ _ _ _ _ _ _ _ _ _ _ _ OI PL))).
    destruct (C106_fields_refused_partial zero add mul parse gunzip digest read_sha load_npz weigh sha dir check fetch ext_of py_str key_order fuel memory_of float_text mir_array mir_grib field_values field_grid field_with field_message message_field files G
      c H0 H x db q kw pre f post g gs m v di gi go cl Ecl _ eq_refl WP FL FT (all_names parse gunzip sha ext_of NM _ _) (every_proper parse gunzip digest read_sha load_npz sha ext_of fuel field_values field_grid files G _ AS PF) CL KE
      (every_sound parse gunzip digest read_sha sha ext_of py_str key_order fuel field_values field_grid files G K1 K2 _ AS) OI PL (known_steady _ AS) (known_well _ q l AS IV) (known_readable x q AG) (known_checked q l IV) AC GS (regular g gs b0 _ _ _ _ _ _ _ FG GS GE)) as [R|[R|(f' & v' & di' & gi' & go' & I & OF' & RQ & C)]].
    - intros f' I. destruct (EV f' I) as (v' & di' & a' & z & n & FS). destruct (sure_ready _ H x (pre ++ f :: post) g gs m kw db q l b0 f' v' di' a' z n cl Ecl AS IN OI PL IV MG FS) as (gi' & go' & FR). exists v', di', gi', go', z, n. exact FR.
    - exact OF.
    - exact (conj G1 G2).
    - exact (every_only parse gunzip digest read_sha sha ext_of py_str key_order fuel field_values field_grid files G K1 K2 _ AS q _ di (gd gs) a0 b0 m IN OH' MA MG gi go (conj G1 G2)).
    - exact (surely_nothing q l di (gd gs) a0 b0 m gi go IV MA MG (conj G1 G2) SN).
    - left. exact R.
    - right. left. exact R.
    - right. right. exists f', v', di'. split; [exact I|]. split; [exact OF'|]. exists gi', go'. auto.
  Qed.
End Any.

(** ** The hypotheses are met by the directory and the server of Props_EndEvery2.v *)
Definition mx_lone : ll_field := (demo_values, ll_out).
Definition mx_list (fs : list ll_field) (u m : string) : mx_call := PRegrid (mx_meets matrix_b) (DFields fs) (Some ll_out) (VStr m) (VStr "precomputed") [("inventory", VStr u)].
Notation mx_settings := (settings_right 0 Z.add Z.mul page_parse page_gunzip page_digest page_sha page_npz page_weigh toy_sha "/c" true false toy_ext demo_py COMPARE_KEYS 10 (fun x : Z => x) demo_text
  ll_mir ll_grib ll_values ll_grid ll_with ll_message ll_of_message).
Notation mx_sure := (surely_at page_npz 10 (mx_files matrix_b) net_site).
Lemma not_nn : ~ perhaps 10 (end_b None) (end_ll None) "nn" ("w", ll_raw).
Proof. destruct (C126_met (net_fields "http://s" "linear")) as (_ & _ & _ & _ & _ & _ & _ & _ & _ & _ & _ & _ & N & _); [auto|exact N]. Qed.
Lemma not_lone m : ~ perhaps 10 (end_ll None) (end_ll None) m ("w", ll_raw).
Proof.
  intros (a & b & m' & p & [(i & o & E & _ & RA & _) _ _] & _ & (_ & _ & NG) & _). cbn in E. injection E as <-.
  destruct (from_dict demo_out) as [g|e|] eqn:GD; [|vm_compute in GD; discriminate GD..]. pose proof (dg_geometry _ _ (reading_of demo_out a g RA GD)) as D.
  assert (CG : cls g = RGG) by (vm_compute in GD; injection GD as <-; reflexivity).
  destruct (geometry a) as [orca name o'|dx dy n w s e dec|name dx n w s e dec]; cbn in D, NG; try contradiction. destruct D as [D _]. rewrite CG in D. discriminate D.
Qed.
Lemma mx_list_known fs m : (forall f, In f fs -> f = ll_one \/ f = ll_two \/ f = mx_lone) -> mx_known (mx_list fs "d" m).
Proof.
  intros FS x q v di do m' (db & PL & DM). destruct here_means as (M1 & M2 & M3).
  inversion DM as [|? ? f ? ? ? gs ? ? ? IF [_ G] GS P| | |]; subst. apply (mx_picks "d" _ _ _ mi_d) in P. subst db. rewrite (placed_one _ _ _ (proj2 (mx_names _ _ _ mi_d)) PL).
  split; [intros p; reflexivity|]. split; [exists net_list; exact mx_here|]. assert (X : from_dict ll_out = Ok ll_gs) by (vm_compute; reflexivity). rewrite X in GS. apply ok_inj in GS. subst gs.
  assert (DI : di = demo_out \/ di = ll_out) by (destruct (FS f IF) as [->|[->| ->]]; injection G as <-; auto).
  destruct DI as [->| ->]; [exists (end_b None)|exists (end_ll None)]; exists (end_ll None); auto.
Qed.
Lemma every_settings : mx_settings roomy (every_start ++ every_rest).
Proof.
  split; [reflexivity|]. intros pre f post E. assert (I : In (PElse f) (every_start ++ every_rest)) by (rewrite E; apply in_or_app; right; left; reflexivity).
  cbn in I. destruct I as [I|[I|[I|[I|[I|[]]]]]]; try discriminate I. injection I as <-. exists (ERestart roomy). split; [exact Logic.I|]. split; reflexivity.
Qed.
Lemma here_sure : mx_sure (Here "d") net_list (end_b None) (end_ll None) "linear" matrix_b [2%nat].
Proof. destruct (C128_met (mx_values matrix_b "d" "linear")) as (_ & _ & _ & _ & _ & _ & _ & _ & _ & _ & _ & _ & S & W); [auto|]. exists [], ("w", ll_raw), []. split; [reflexivity|]. split; [exact S|]. split; [constructor|exact W]. Qed.
Lemma there_only a0 b0 : asked_only_at ll_values ll_grid 10 (There "http://s") every_rest a0 b0 "nn".
Proof.
  intros x q' v di do a b (d' & I & db & L & DM) _ _ _ _. cbn in I. destruct I as [<-|[<-|[<-|[]]]]; [|inversion DM|inversion DM].
  inversion DM; subst; match goal with P : picks _ _ _ |- _ => apply (mx_picks "http://s" _ _ _ mi_s) in P; subst end. exact (placed_one _ _ _ (proj2 (mx_names _ _ _ mi_s)) L).
Qed.
(** The two fields on the directory's grid are ready, a third on another grid is not; the server has no
    weights for "nn". *)
Example C128_sure_met :
  mx_settings roomy (every_start ++ every_rest) /\ age_known true (mx_meets matrix_b) (Here "d") /\ age_known true (mx_meets matrix_b) (There "http://s") /\
  mx_sure (Here "d") net_list (end_b None) (end_ll None) "linear" matrix_b [2%nat] /\ prod (shape demo_values) = n_cols matrix_b /\ prod [2%nat] = n_rows matrix_b /\
  Forall mx_known (every_start ++ every_rest ++ [mx_list [ll_one; ll_two; mx_lone; ll_two] "d" "linear"]) /\ Forall mx_known (every_start ++ every_rest ++ [mx_values matrix_b "http://s" "nn"]) /\
  (forall f, In f [ll_one; ll_two] -> exists v di a0 z n, field_sure 0 Z.add Z.mul page_npz 10 ll_values ll_grid ll_with (mx_files matrix_b) net_site every_rest (Here "d") net_list (end_ll None) "linear" (gd ll_gs) f v di a0 z n) /\
  of_field ll_values ll_grid mx_lone None demo_values ll_out /\ (forall a0 b0, asked_only_at ll_values ll_grid 10 (Here "d") every_rest a0 b0 "linear") /\ surely_not 10 net_list (end_ll None) (end_ll None) "linear" /\
  (forall a0 b0, asked_only_at ll_values ll_grid 10 (There "http://s") every_rest a0 b0 "nn") /\ surely_not 10 net_list (end_b None) (end_ll None) "nn" /\
  for_grid 10 ll_out (end_ll None) /\ from_dict ll_out = Ok ll_gs /\ means 10 ll_out (end_ll None) /\ geometry (end_ll None) = LatLon 10 10 90 0 (-90) 350 True.
Proof.
  destruct (C128_met (mx_values matrix_b "d" "linear")) as (_ & _ & _ & _ & _ & _ & _ & AS & OH & MA & MB & FG & _); [auto|].
  assert (AF : forall d, mx_known d -> Forall mx_known (every_start ++ every_rest ++ [d])).
  { intros d K. rewrite app_assoc in *. apply Forall_app in AS. apply Forall_app. split; [apply AS|apply Forall_cons; [exact K|apply Forall_nil]]. }
  split; [exact every_settings|]. split; [exact Logic.I|]. split; [right; intros u; exists true; reflexivity|]. split; [exact here_sure|]. split; [reflexivity|]. split; [reflexivity|].
  split; [apply AF, mx_list_known; intros f I; cbn in I; intuition|]. split; [apply AF, (mx_asks "http://s" _ _ "nn" _ mi_s); [discriminate|right; reflexivity|right; eexists; reflexivity]|].
  split. { intros f [<-|[<-|[]]]; do 5 eexists; (split; [split; reflexivity|]); (split; [exact MA|]); (split; [exact (OH _ _)|]); (split; [exact here_sure|]); (split; [reflexivity|]); (split; [reflexivity|]); intros u _; eexists; reflexivity. }
  split; [split; reflexivity|]. split; [exact OH|]. split; [constructor; [apply not_lone|constructor]|]. split; [exact there_only|]. split; [constructor; [exact not_nn|constructor]|].
  split; [exact FG|]. split; [vm_compute; reflexivity|]. split; [exact MB|reflexivity].
Qed.
(** The theorems applied: this list is refused; so is the request to the server. *)
Example C128_refused_used :
  let cl := mx_list [ll_one; ll_two; mx_lone; ll_two] "d" "linear" in
  let r := snd (mx_regrid (mx_meets matrix_b) (DFields [ll_one; ll_two; mx_lone; ll_two]) (Some ll_out) (VStr "linear") (VStr "precomputed") [("inventory", VStr "d")] (mx_after (every_start ++ every_rest))) in
  (r = Raise ValueError \/ (r = Raise WeightsTooLarge /\ strict (e_mem (p_sys (mx_after (every_start ++ every_rest)))) = true) \/
   exists f' v di, In f' [ll_one; ll_two; mx_lone] /\ of_field ll_values ll_grid f' None v di /\ same_hash toy_sha demo_text ll_values ll_grid (every_rest ++ [cl]) di (gd ll_gs) "linear") /\ r = Raise ValueError.
Proof.
  intros cl r. split; [|vm_compute; reflexivity]. destruct C93_met as (WP & _). destruct C128_sure_met as (SR & AG & _ & _ & _ & _ & AS & _ & EV & OF & OH & SN & _ & _ & FG & GS & MB & GE).
  destruct (C128_met (mx_values matrix_b "d" "linear")) as (IV & _ & PF & OI & PL & CL & KB & _); [auto|].
  exact (C128_fields_refused 0 Z.add Z.mul page_parse page_gunzip page_digest page_sha page_npz page_weigh toy_sha "/c" true false toy_ext demo_py COMPARE_KEYS 10 (fun x : Z => x) demo_text
    ll_mir ll_grib ll_values ll_grid ll_with ll_message ll_of_message (mx_files matrix_b) net_site (incl_refl _) (incl_refl _) WP toy_length demo_texts toy_cache_names
    roomy every_start every_rest (mx_meets matrix_b) (FromPath "d") (Here "d") net_list _ [ll_one; ll_two] mx_lone [ll_two] ll_out ll_gs (end_ll None) "linear" demo_values ll_out (end_ll None) _ _ _ _ _ _ _
    _ eq_refl IV PF OI PL AG CL KB SR AS FG GS GE EV OF MB (OH _ _) SN).
Qed.
Example C128_answered_used :
  let r := snd (mx_array (mx_meets matrix_b) demo_values (Some demo_out) (Some ll_out) (VStr "linear") (VStr "precomputed") [("inventory", VStr "d")] (mx_after (every_start ++ every_rest))) in
  (exists u, r = Ok (u, ll_out) /\ applies 0 Z.add Z.mul matrix_b [2%nat] demo_values u) \/
  (r = Raise WeightsTooLarge /\ strict (e_mem (p_sys (mx_after (every_start ++ every_rest)))) = true) \/ same_hash toy_sha demo_text ll_values ll_grid (every_rest ++ [mx_values matrix_b "d" "linear"]) demo_out ll_out "linear".
Proof.
  intros r. destruct C93_met as (WP & _). destruct C128_sure_met as (SR & AG & _ & SA & E1 & E2 & _).
  destruct (C128_met (mx_values matrix_b "d" "linear")) as (IV & _ & PF & OI & PL & CL & KB & AS & OH & MA & MB & _); [auto|].
  exact (C128_answered 0 Z.add Z.mul page_parse page_gunzip page_digest page_sha page_npz page_weigh toy_sha "/c" true false toy_ext demo_py COMPARE_KEYS 10 (fun x : Z => x) demo_text
    ll_mir ll_grib ll_values ll_grid ll_with ll_message ll_of_message (mx_files matrix_b) net_site (incl_refl _) (incl_refl _) WP toy_length demo_texts toy_cache_names
    roomy every_start every_rest (mx_meets matrix_b) (FromPath "d") (Here "d") net_list _ demo_values demo_out ll_out (end_b None) (end_ll None) "linear" matrix_b [2%nat] _ eq_refl IV PF OI PL AG CL KB SR AS (OH _ _) MA MB SA E1 E2).
Qed.

Print Assumptions C106_answered_partial.
Print Assumptions C106_refused_partial.
Print Assumptions C106_fields_answered_partial.
Print Assumptions C106_fields_refused_partial.
Print Assumptions C128_answered.
Print Assumptions C128_refused.
Print Assumptions C128_fields_answered.
Print Assumptions C128_fields_refused.
