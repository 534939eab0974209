(** C129: xarray objects, from what the inventories have and the dictionaries of the caller to the
    numbers of the result. *)
From Coq Require Import Reals Psatz.
From Verif Require Import PyBase MemCacheProofs MemCacheProofs2 ListLemmas PyStr Float64 GridSpec GridVocab GridProofs FloatReal GridMatchSpec GridReal GridMatch3 GridDecide
  Index IndexSpec Db MemCache Inventory Regrid RegridSpec Key KeySpec KeyProofs System SystemSpec SystemProofs EndSpec EndProofs Props_System Props_End
  Disk DiskSpec Props_Key CacheFile Remote RemoteSpec RemoteProofs3 Props_Remote Dispatch Xarray XarraySpec XarrayProofs XarrayProofs2 Props_Xarray Api ApiSpec ApiProofs Props_Api Props_ApiLocal EndRemoteSpec Props_EndRemote Props_ApiRemote2 EndApiSpec Props_EndApi EndLocalSpec Props_EndLocal
  Every EverySpec EveryProofs EveryProofs2 Props_Every Props_Every2 Props_Every3 EndEverySpec Props_EndEvery Props_EndEvery2 Props_EndEvery3 XarrayApi Props_XarrayApi Props_XarrayEvery.
Set Default Proof Using "Type".
Local Open Scope string_scope.
Local Open Scope list_scope.
Local Open Scope Z_scope.

Section Any.
  Context {A rest blob field dtype other : Type}.
  Variable cast : dtype -> A -> A.
  Variable mir_grid : dict -> result (Xarray.geometry dict).
  Variable accessor : xobj A dtype dict other -> option (option dict).
  Variable grid_val : dict -> val.
  Variables (zero : A) (add mul : A -> A -> A).
  Variable parse : blob -> result (file rest).
  Variable gunzip : blob -> result blob.
  Variable digest : blob -> result string.
  Variable read_sha : blob -> result string.
  Variable load_npz : blob -> result (csr A).
  Variable weigh : blob -> node.
  Variable sha : string -> string.
  Variable dir : string.
  Variables limit usage : option Z.
  Variables check fetch : bool.
  Variable ext_of : string -> string.
  Variables (py_str : val -> string) (key_order : list string) (fuel : nat).
  Variable memory_of : rest -> Z.
  Variable float_text : f64 -> string.
  Variable mir_array : array A -> option dict -> option dict -> dict -> result (array A * dict).
  Variable mir_grib : string -> option dict -> dict -> result string.
  Variable field_values : field -> result (array A).
  Variable field_grid : field -> result (option dict).
  Variable field_with : field -> array A -> dict -> result field.
  Variable field_message : field -> result string.
  Variable message_field : string -> result field.
  Variable files : fs rest (csr A).
  Variable G : string -> result blob.
  Notation S := (@esys A rest blob).
  Notation meets := (@emeets A rest blob).
  Notation efind := (any_find parse gunzip digest read_sha load_npz weigh sha dir limit usage check fetch ext_of py_str key_order fuel memory_of float_text).
  Notation array_regrid := (array_regrid zero add mul efind mir_array).
  Notation xarray_regrid := (xarray_regrid cast mir_grid accessor zero add mul efind mir_array grid_val).
  Notation regrid_call := (regrid_call zero add mul efind mir_array mir_grib field_values field_grid field_with field_message message_field).
  Notation pafter := (pafter zero add mul efind mir_array mir_grib field_values field_grid field_with field_message message_field).
  Notation pcall := (@pop_call A S meets field).
  Notation requests := (@requests A rest blob field field_values field_grid).
  Notation requested := (@requested A rest blob field field_values field_grid).
  Notation called := (@called A rest blob field field_values field_grid).
  Notation collides_with := (@collides_with A rest blob field field_values field_grid sha float_text).
  Notation only_to := (@only_to A rest blob field field_values field_grid).
  Notation sound_calls := (@Props_Every.sound_calls A rest blob field parse gunzip sha ext_of py_str key_order fuel field_values field_grid).
  Notation known_between := (@Props_Every.known_between A rest blob field parse gunzip digest read_sha load_npz weigh sha dir limit usage check fetch ext_of py_str key_order fuel memory_of float_text).
  Notation cleared := (@Props_Every.cleared A rest blob field parse gunzip digest read_sha load_npz weigh sha dir limit usage check fetch ext_of py_str key_order fuel memory_of float_text).
  Notation inventory_at := (inventory_at parse gunzip digest read_sha sha ext_of fuel files G).
  Notation has_weights := (has_weights load_npz fuel files G).
  Notation unchanged := (@unchanged A rest blob files G).
  Notation asks_known := (@asks_known A rest blob field parse gunzip digest read_sha sha ext_of field_values field_grid fuel files G).
  Notation asked_only_at := (@asked_only_at A rest blob field field_values field_grid fuel).
  Notation proper_everywhere := (@proper_everywhere A rest blob load_npz files G).
  Notation means := (means fuel).
  Notation the_call := (@the_call A rest blob field).
  Notation same_hash := (@same_hash A rest blob field sha float_text field_values field_grid).
  Notation answered_at := (answered_at zero add mul load_npz fuel files G).
  Implicit Types (w : args (spec := dict)) (H : list pcall) (values : array A) (l : list (string * raw rest)) (x : meets) (q : place).

  Hypotheses (K1 : incl COMPARE_KEYS key_order) (K2 : incl key_order COMPARE_KEYS).
  Hypotheses (WP : forall b, 0 <= n_size (weigh b)) (FL : fixed_length sha) (FT : float_texts float_text).
  Hypothesis NM : forall t u, cache_name ("url-" ++ sha t ++ ext_of u) /\ cache_name ("regrid-" ++ sha t ++ ".cache").


  (** The weights that the inventory may have for the request are for the shape of the target grid. *)
  Definition fitting q l a0 b0 m (s : list nat) : Prop := forall e z n, In e l -> perhaps fuel a0 b0 m e -> has_weights q e z n -> n = s.

  Section Object.
    Variables (c : mconf) (H0 H : list pcall) (x : meets) (db : database) (q : place) (l : list (string * raw rest)) (w : args (spec := dict)) (m : string).
    Variables (attr : option dict) (acc : option (option dict)) (src : dict) (gin : Xarray.geometry dict) (out : dict) (gout : Xarray.geometry dict) (a0 b0 : grid) (v0 : array A).
    Notation cl := (the_call x m (x_rest w) (g_spec gin) out v0).
    Hypotheses (SO : source attr (x_grid_spec w) acc src None) (GI : mir_grid src = Ok gin) (XG : x_grid w = Some out) (GO : mir_grid out = Ok gout).
    Hypotheses (IV : inventory_at q l) (PF : proper_everywhere) (OI : only_inventory "inventory" (x_rest w) db) (PL : placed db q) (CL : cleared H0) (KE : known_between (H0 ++ H)).
    Hypotheses (AS : Forall asks_known (H0 ++ H ++ [cl])) (OH : asked_only_at q H a0 b0 m) (MA : means (g_spec gin) a0) (MB : means out b0).
    Hypotheses (NC : ~ same_hash (H ++ [cl]) (g_spec gin) out m) (FI : fitting q l a0 b0 m (g_shape gout)).
    Hypothesis OD : forall out_dims, output_dims (x_out_dims w) (g_shape gout) out_dims -> NoDup out_dims /\ List.length out_dims = List.length (g_shape gout).
    Lemma x_only gi go : IndexSpec.request (g_spec gin) out gi go -> only_to q (H ++ [cl]) gi go m.
    Proof using K1 K2 AS OH MA MB OI PL py_str.
      apply (every_only parse gunzip digest read_sha sha ext_of py_str key_order fuel field_values field_grid files G K1 K2 _ AS q (H ++ [cl]) (g_spec gin) out a0 b0 m); [intros d I; apply in_or_app; auto| |exact MA|exact MB].
      exact (only_also fuel field_values field_grid q H cl a0 b0 m OH (fun _ _ _ _ _ _ => array_place field_values field_grid _ _ _ _ _ _ _ _ _ _ _ _ _ _ OI PL)).
    Qed.
    Lemma x_entry x' gi go z sh n : IndexSpec.request (g_spec gin) out gi go -> called (H ++ [cl]) x' q -> had parse gunzip load_npz sha ext_of py_str key_order fuel (called (H0 ++ H ++ [cl])) x' q gi go m z sh -> is_shape sh n ->
      exists pre e post, l = pre ++ e :: post /\ perhaps fuel a0 b0 m e /\ Forall (fun e => ~ surely fuel a0 b0 m e) pre /\ has_weights q e z n.
    Proof using K1 K2 AS IV MA MB.
      intros RQ CX HW IS. assert (CX' : called (H0 ++ H ++ [cl]) x' q).
      { destruct CX as (v' & di' & do' & m' & K). exists v', di', do', m'. exact (requested_more field_values field_grid _ (H0 ++ H ++ [cl]) _ _ _ _ _ _ (fun d I => in_or_app _ _ _ (or_intror I)) K). }
      exact (had_entry parse gunzip digest read_sha load_npz sha ext_of py_str key_order fuel field_values field_grid files G K1 K2 _ AS x' q l (g_spec gin) out a0 b0 m gi go z sh n CX' IV MA MB RQ HW IS).
    Qed.
    Lemma x_answered v o : answered zero add mul parse gunzip load_npz sha ext_of py_str key_order fuel float_text field_values field_grid (H0 ++ H ++ [cl]) (H ++ [cl]) q v (g_spec gin) out m o -> answered_at q l a0 b0 m v o.
    Proof using K1 K2 AS IV MA MB NC.
      intros (gi & go & RQ & [C|(x' & z & sh & n & CX & HW & IS & AP)]); [destruct NC; exists gi, go; auto|].
      destruct (x_entry x' gi go z sh n RQ CX HW IS) as (pre & e & post & EL & PQ & NS & OF). exists pre, e, post, z, n. auto 8.
    Qed.
    Lemma x_delivered : delivered mir_grid zero add mul efind mir_array mir_grib field_values field_grid field_with field_message message_field grid_val (pafter (einit c) (H0 ++ H)) x (VStr m) (VStr "precomputed") w attr acc.
    Proof using K1 K2 WP FL FT NM SO GI XG GO IV PF OI PL CL KE AS OH MA MB NC FI OD v0.
      refine (C111_delivered mir_grid grid_val zero add mul parse gunzip digest read_sha load_npz weigh sha dir limit usage check fetch ext_of py_str key_order fuel memory_of float_text mir_array mir_grib field_values field_grid field_with field_message message_field
        c H0 H x db q w m src gin out gout v0 attr acc SO GI XG GO _ eq_refl WP FL FT (all_names parse gunzip sha ext_of NM _ _) (every_proper parse gunzip digest read_sha load_npz sha ext_of fuel field_values field_grid files G _ AS PF) CL KE
        (every_sound parse gunzip digest read_sha sha ext_of py_str key_order fuel field_values field_grid files G K1 K2 _ AS) OI _ OD).
      intros gi go RQ. split; [exact (x_only gi go RQ)|]. split; [intros C; apply NC; exists gi, go; auto|]. intros x' z sh n CX HW IS.
      destruct (x_entry x' gi go z sh n RQ CX HW IS) as (pre & e & post & EL & PQ & _ & OF). apply (FI e z n); [rewrite EL; apply in_or_app; right; left; reflexivity|exact PQ|exact OF].
    Qed.
  End Object.

  (** An answered call for a DataArray. *)
  Theorem C129_array c H0 H x db q l w (a : dataarray A dtype dict other) m src gin out gout a0 b0 v0 r :
    source (da_grid a) (x_grid_spec w) (accessor (XArray a)) src None -> mir_grid src = Ok gin -> x_grid w = Some out -> mir_grid out = Ok gout ->
    forall cl, cl = the_call x m (x_rest w) (g_spec gin) out v0 ->
    inventory_at q l -> proper_everywhere -> only_inventory "inventory" (x_rest w) db -> placed db q -> cleared H0 -> known_between (H0 ++ H) ->
    Forall asks_known (H0 ++ H ++ [cl]) -> asked_only_at q H a0 b0 m -> means (g_spec gin) a0 -> means out b0 -> ~ same_hash (H ++ [cl]) (g_spec gin) out m -> fitting q l a0 b0 m (g_shape gout) ->
    (forall out_dims, output_dims (x_out_dims w) (g_shape gout) out_dims -> NoDup out_dims /\ List.length out_dims = List.length (g_shape gout)) ->
    well_formed a -> (forall in_dims, input_dims (x_in_dims w) (da_dims a) in_dims -> nonempty a in_dims) ->
    snd (xarray_regrid x (VStr m) (VStr "precomputed") w (XArray a) (pafter (einit c) (H0 ++ H))) = Ok r ->
    exists b in_dims out_dims, r = XArray b /\ input_dims (x_in_dims w) (da_dims a) in_dims /\ output_dims (x_out_dims w) (g_shape gout) out_dims /\
      sliced cast (answered_at q l a0 b0 m) in_dims out_dims (g_shape gout) a b /\ located_on mir_grid out (da_coords b).
  Proof using K1 K2 WP FL FT NM.
    intros SO GI XG GO cl Ecl IV PF OI PL CL KE AS OH MA MB NC FI OD W NE Q. subst cl.
    pose proof (x_delivered c H0 H x db q l w m (da_grid a) (accessor (XArray a)) src gin out gout a0 b0 v0 SO GI XG GO IV PF OI PL CL KE AS OH MA MB NC FI OD) as D.
    destruct (xarray_regrid x (VStr m) (VStr "precomputed") w (XArray a) (pafter (einit c) (H0 ++ H))) as [s' r'] eqn:E. cbn [snd] in Q. subst r'.
    destruct (C111_array_partial cast mir_grid accessor grid_val zero add mul parse gunzip digest read_sha load_npz weigh sha dir limit usage check fetch ext_of py_str key_order fuel memory_of float_text mir_array mir_grib field_values field_grid field_with field_message message_field
      c H0 H x db q w a m src gin out v0 s' r SO GI XG _ eq_refl WP FL FT (all_names parse gunzip sha ext_of NM _ _) (every_proper parse gunzip digest read_sha load_npz sha ext_of fuel field_values field_grid files G _ AS PF) CL KE
        (every_sound parse gunzip digest read_sha sha ext_of py_str key_order fuel field_values field_grid files G K1 K2 _ AS) OI (x_only H0 H x db q w m gin out a0 b0 v0 OI PL AS OH MA MB) W NE D E) as (b & gout' & ind & outd & -> & GO' & ID & ODD & SL & LO).
    rewrite GO in GO'. injection GO' as <-. exists b, ind, outd. split; [reflexivity|]. split; [exact ID|]. split; [exact ODD|]. split; [|exact LO].
    eapply sliced_weaken; [|exact SL]. intros v o AN. exact (x_answered H0 H x q l w m gin out a0 b0 v0 IV AS MA MB NC v o AN).
  Qed.
  (** And for a Dataset. *)
  Theorem C129_set c H0 H x db q l w (u : dataset A dtype dict other) m src gin out gout a0 b0 v0 r :
    source (ds_grid u) (x_grid_spec w) (accessor (XSet u)) src None -> mir_grid src = Ok gin -> x_grid w = Some out -> mir_grid out = Ok gout ->
    forall cl, cl = the_call x m (x_rest w) (g_spec gin) out v0 ->
    inventory_at q l -> proper_everywhere -> only_inventory "inventory" (x_rest w) db -> placed db q -> cleared H0 -> known_between (H0 ++ H) ->
    Forall asks_known (H0 ++ H ++ [cl]) -> asked_only_at q H a0 b0 m -> means (g_spec gin) a0 -> means out b0 -> ~ same_hash (H ++ [cl]) (g_spec gin) out m -> fitting q l a0 b0 m (g_shape gout) ->
    (forall out_dims, output_dims (x_out_dims w) (g_shape gout) out_dims -> NoDup out_dims /\ List.length out_dims = List.length (g_shape gout)) ->
    NoDup (akeys (ds_vars u)) -> (forall n a, In (n, a) (ds_vars u) -> well_formed a) ->
    (forall in_dims n a, input_dims (x_in_dims w) (ds_sizes u) in_dims -> In (n, a) (ds_vars u) -> nonempty a in_dims) ->
    snd (xarray_regrid x (VStr m) (VStr "precomputed") w (XSet u) (pafter (einit c) (H0 ++ H))) = Ok r ->
    exists b in_dims out_dims, r = XSet b /\ input_dims (x_in_dims w) (ds_sizes u) in_dims /\ output_dims (x_out_dims w) (g_shape gout) out_dims /\
      Forall2 (fun v v' => fst v' = fst v /\ sliced cast (answered_at q l a0 b0 m) in_dims out_dims (g_shape gout) (snd v) (snd v')) (ds_vars u) (ds_vars b) /\ located_on mir_grid out (ds_coords b).
  Proof using K1 K2 WP FL FT NM.
    intros SO GI XG GO cl Ecl IV PF OI PL CL KE AS OH MA MB NC FI OD NK W NE Q. subst cl.
    pose proof (x_delivered c H0 H x db q l w m (ds_grid u) (accessor (XSet u)) src gin out gout a0 b0 v0 SO GI XG GO IV PF OI PL CL KE AS OH MA MB NC FI OD) as D.
    destruct (xarray_regrid x (VStr m) (VStr "precomputed") w (XSet u) (pafter (einit c) (H0 ++ H))) as [s' r'] eqn:E. cbn [snd] in Q. subst r'.
    destruct (C111_set_partial cast mir_grid accessor grid_val zero add mul parse gunzip digest read_sha load_npz weigh sha dir limit usage check fetch ext_of py_str key_order fuel memory_of float_text mir_array mir_grib field_values field_grid field_with field_message message_field
      c H0 H x db q w u m src gin out v0 s' r SO GI XG _ eq_refl WP FL FT (all_names parse gunzip sha ext_of NM _ _) (every_proper parse gunzip digest read_sha load_npz sha ext_of fuel field_values field_grid files G _ AS PF) CL KE
        (every_sound parse gunzip digest read_sha sha ext_of py_str key_order fuel field_values field_grid files G K1 K2 _ AS) OI (x_only H0 H x db q w m gin out a0 b0 v0 OI PL AS OH MA MB) NK W NE D E) as (b & gout' & ind & outd & -> & GO' & ID & ODD & SL & LO).
    rewrite GO in GO'. injection GO' as <-. exists b, ind, outd. split; [reflexivity|]. split; [exact ID|]. split; [exact ODD|]. split; [|exact LO].
    eapply Forall2_weaken; [|exact SL]. intros y y' [K S1]. split; [exact K|]. eapply sliced_weaken; [|exact S1]. intros v o AN. exact (x_answered H0 H x q l w m gin out a0 b0 v0 IV AS MA MB NC v o AN).
  Qed.
End Any.

(** ** The hypotheses are met by the directory and the server of Props_EndEvery2.v and the series of
    three fields of Props_XarrayEvery.v *)
Lemma xd_collides : ~ same_hash toy_sha demo_text ll_values ll_grid (every_rest ++ [mx_values matrix_b "d" "linear"]) demo_out ll_out "linear".
Proof.
  intros (gi & go & [E1 E2] & (x & q & u & di & do & m' & gi' & go' & R & [E3 E4] & N & E)).
  assert (X1 : from_dict demo_out = Ok ll_gi) by (vm_compute; reflexivity). assert (X2 : from_dict ll_out = Ok ll_gs) by (vm_compute; reflexivity). assert (X3 : from_dict (gd ll_gs) = Ok ll_go) by (vm_compute; reflexivity).
  assert (T : Forall mx_kind (every_rest ++ [mx_values matrix_b "d" "linear"])).
  { assert (M : forall u db q m, mx_inventory u db q -> net_method m -> mx_kind (mx_fields matrix_b u m) /\ mx_kind (mx_values matrix_b u m)).
    { intros u0 db0 q0 m0 MI NM. destruct (mx_kind_fields matrix_b u0 db0 q0 m0 (or_intror eq_refl) MI NM) as [Y1 Y2]. split; [exact Y1|apply Y2]. }
    pose proof (M _ _ _ "linear" mi_d (or_introl eq_refl)) as [Y1 Y2]. pose proof (M _ _ _ "nn" mi_s (or_intror eq_refl)) as [_ Y3]. repeat (apply Forall_cons; [assumption|]). apply Forall_nil. }
  destruct (mx_requested _ x q u di do m' T R) as (z & u' & db & _ & _ & _ & -> & O & M). rewrite X1 in E1, E3. rewrite X2 in E2. apply ok_inj in E1, E2, E3. subst gi go gi'.
  assert (GO : go' = ll_gs \/ go' = ll_go) by (destruct O as [->| ->]; [rewrite X2 in E4; left|rewrite X3 in E4; right]; apply ok_inj in E4; auto).
  destruct GO as [->| ->], M as [->| ->]; first [apply N; vm_compute; reflexivity|vm_compute in E; discriminate E].
Qed.
Lemma xd_fitting a0 b0 m : fitting page_npz 10 (mx_files matrix_b) net_site (Here "d") net_list a0 b0 m [2%nat].
Proof.
  intros e z n [<-|[]] _ (a & b & m' & p & [(i & o & _ & E & _ & RB) _ _] & _ & SZ). cbn [snd fst ll_raw r_output] in E. injection E as <-.
  destruct (from_dict [("grid", VList [VInt 10; VInt 10]); ("shape", VList [VInt 2])]) as [g|x|] eqn:GD; [|vm_compute in GD; discriminate GD..].
  pose proof (dg_sizes _ _ (reading_of _ b g RB GD)) as D. rewrite SZ in D. assert (X : alookup "shape" (gd g) = Some (VList [VInt 2])) by (vm_compute in GD; injection GD as <-; reflexivity).
  rewrite X in D. destruct n as [|k [|]]; cbn in D; try discriminate D. injection D as D. do 2 f_equal. lia.
Qed.
Definition xd_set : dataset Z unit dict unit := mkDS ["time"; "values"] [("t", xe_data); ("u", xe_data)] [] (Some demo_out).
Example C129_used : exists b,
  snd (xe_regrid (mx_meets matrix_b) (VStr "linear") (VStr "precomputed") xe_args (XArray xe_data) (mx_after (every_start ++ every_rest))) = Ok (XArray b) /\
  sliced xe_cast (answered_at 0 Z.add Z.mul page_npz 10 (mx_files matrix_b) net_site (Here "d") net_list (end_b None) (end_ll None) "linear") ["values"] ["values"] [2%nat] xe_data b.
Proof.
  destruct C93_met as (WP & _). destruct (C128_met (mx_values matrix_b "d" "linear")) as (IV & _ & PF & OI & PL & CL & KB & AS & OH & MA & MB & _); [auto|].
  destruct (snd (xe_regrid (mx_meets matrix_b) (VStr "linear") (VStr "precomputed") xe_args (XArray xe_data) (mx_after (every_start ++ every_rest)))) as [[b|u]|e|] eqn:Q; try (vm_compute in Q; discriminate Q).
  exists b. split; [reflexivity|].
  destruct (C129_array xe_cast xe_mir xe_acc (fun _ => VNone) 0 Z.add Z.mul page_parse page_gunzip page_digest page_sha page_npz page_weigh toy_sha "/c" None None true false toy_ext demo_py COMPARE_KEYS 10 (fun x : Z => x) demo_text
    ll_mir ll_grib ll_values ll_grid ll_with ll_message ll_of_message (mx_files matrix_b) net_site (incl_refl _) (incl_refl _) WP toy_length demo_texts toy_cache_names
    roomy every_start every_rest (mx_meets matrix_b) (FromPath "d") (Here "d") net_list xe_args xe_data "linear" demo_out (xe_geo demo_out 2) ll_out (xe_geo ll_out 2) (end_b None) (end_ll None) demo_values (XArray b)
    (or_introl (conj eq_refl eq_refl)) eq_refl eq_refl eq_refl _ eq_refl IV PF OI PL CL KB AS (OH _ _) MA MB xd_collides (xd_fitting _ _ _)) as (b' & ind & outd & E & ID & OD & SL & _).
  - intros od OD. cbn in OD. destruct OD as [[_ ->]|[(r & c & more & E) _]]; [|discriminate E]. split; [repeat constructor; cbn; tauto|reflexivity].
  - exact (proj1 xe_ok).
  - exact (proj2 xe_ok).
  - exact Q.
  - injection E as <-. cbn in ID, OD. assert (ind = ["values"]) as ->. { destruct ID as [(pre & E) [->| ->]]; [reflexivity|]. destruct pre as [|? [|? [|? [|]]]]; discriminate E. }
    destruct OD as [[_ ->]|[(r & c & more & E) _]]; [exact SL|discriminate E].
Qed.
(** A Dataset of two such variables. *)
Example C129_set_used : exists b,
  snd (xe_regrid (mx_meets matrix_b) (VStr "linear") (VStr "precomputed") xe_args (XSet xd_set) (mx_after (every_start ++ every_rest))) = Ok (XSet b) /\
  exists in_dims out_dims, Forall2 (fun v v' => fst v' = fst v /\
    sliced xe_cast (answered_at 0 Z.add Z.mul page_npz 10 (mx_files matrix_b) net_site (Here "d") net_list (end_b None) (end_ll None) "linear") in_dims out_dims [2%nat] (snd v) (snd v')) (ds_vars xd_set) (ds_vars b).
Proof.
  destruct C93_met as (WP & _). destruct (C128_met (mx_values matrix_b "d" "linear")) as (IV & _ & PF & OI & PL & CL & KB & AS & OH & MA & MB & _); [auto|].
  destruct (snd (xe_regrid (mx_meets matrix_b) (VStr "linear") (VStr "precomputed") xe_args (XSet xd_set) (mx_after (every_start ++ every_rest)))) as [[u|b]|e|] eqn:Q; try (vm_compute in Q; discriminate Q).
  exists b. split; [reflexivity|].
  destruct (C129_set xe_cast xe_mir xe_acc (fun _ => VNone) 0 Z.add Z.mul page_parse page_gunzip page_digest page_sha page_npz page_weigh toy_sha "/c" None None true false toy_ext demo_py COMPARE_KEYS 10 (fun x : Z => x) demo_text
    ll_mir ll_grib ll_values ll_grid ll_with ll_message ll_of_message (mx_files matrix_b) net_site (incl_refl _) (incl_refl _) WP toy_length demo_texts toy_cache_names
    roomy every_start every_rest (mx_meets matrix_b) (FromPath "d") (Here "d") net_list xe_args xd_set "linear" demo_out (xe_geo demo_out 2) ll_out (xe_geo ll_out 2) (end_b None) (end_ll None) demo_values (XSet b)
    (or_introl (conj eq_refl eq_refl)) eq_refl eq_refl eq_refl _ eq_refl IV PF OI PL CL KB AS (OH _ _) MA MB xd_collides (xd_fitting _ _ _)) as (b' & ind & outd & E & ID & OD & SL & _).
  - intros od OD. cbn in OD. destruct OD as [[_ ->]|[(r & c & more & E) _]]; [|discriminate E]. split; [repeat constructor; cbn; tauto|reflexivity].
  - cbn. repeat constructor; cbn; intuition discriminate.
  - intros n a [E|[E|[]]]; injection E as _ <-; exact (proj1 xe_ok).
  - intros ds n a _ [E|[E|[]]]; injection E as _ <-; intros d _ S0; cbn in S0; destruct S0 as [S0|[S0|[]]]; discriminate S0.
  - exact Q.
  - injection E as <-. exists ind, outd. exact SL.
Qed.

Print Assumptions C129_array.
Print Assumptions C129_set.
