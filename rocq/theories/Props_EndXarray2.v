(** C130: xarray objects with inventories of all kinds in one process, the disk cache without limits: what
    certainly is in the inventory asked is applied to every slice, what certainly is not is refused. *)
From Coq Require Import Reals Psatz.
From Verif Require Import PyBase MemCacheProofs MemCacheProofs2 ListLemmas PyStr Float64 GridSpec GridVocab GridProofs FloatReal GridMatchSpec GridReal GridMatch3 GridDecide
  Index IndexSpec Db MemCache Inventory Regrid RegridSpec Key KeySpec KeyProofs System SystemSpec SystemProofs EndSpec EndProofs Props_System Props_End
  Disk DiskSpec Props_Key CacheFile Remote RemoteSpec RemoteProofs3 Props_Remote Dispatch Xarray XarraySpec XarrayProofs XarrayProofs2 Props_Xarray Api ApiSpec ApiProofs Props_Api Props_ApiLocal EndRemoteSpec Props_EndRemote Props_ApiRemote2 EndApiSpec Props_EndApi EndLocalSpec Props_EndLocal
  Every EverySpec EveryProofs EveryProofs2 Props_Every Props_Every2 Props_Every3 EndEverySpec Props_EndEvery Props_EndEvery2 Props_EndEvery3 XarrayApi Props_XarrayApi Props_XarrayEvery Props_EndXarray XarrayTotal Props_XarrayTotal.
Set Default Proof Using "Type".
Local Open Scope string_scope.
Local Open Scope list_scope.
Local Open Scope Z_scope.

Section Any.
  Context {A rest blob field dtype other : Type}.
  Variable cast : dtype -> A -> A.
  Variable mir_grid : dict -> result (Xarray.geometry dict).
  Variable accessor : xobj A dtype dict other -> option (option dict).
  Variable grid_val : dict -> val.
  Variables (zero : A) (add mul : A -> A -> A).
  Variable parse : blob -> result (file rest).
  Variable gunzip : blob -> result blob.
  Variable digest : blob -> result string.
  Variable read_sha : blob -> result string.
  Variable load_npz : blob -> result (csr A).
  Variable weigh : blob -> node.
  Variable sha : string -> string.
  Variable dir : string.
  Variables check fetch : bool.
  Variable ext_of : string -> string.
  Variables (py_str : val -> string) (key_order : list string) (fuel : nat).
  Variable memory_of : rest -> Z.
  Variable float_text : f64 -> string.
  Variable mir_array : array A -> option dict -> option dict -> dict -> result (array A * dict).
  Variable mir_grib : string -> option dict -> dict -> result string.
  Variable field_values : field -> result (array A).
  Variable field_grid : field -> result (option dict).
  Variable field_with : field -> array A -> dict -> result field.
  Variable field_message : field -> result string.
  Variable message_field : string -> result field.
  Variable files : fs rest (csr A).
  Variable G : string -> result blob.
  Notation S := (@esys A rest blob).
  Notation meets := (@emeets A rest blob).
  Notation efind := (any_find parse gunzip digest read_sha load_npz weigh sha dir None None check fetch ext_of py_str key_order fuel memory_of float_text).
  Notation array_regrid := (array_regrid zero add mul efind mir_array).
  Notation xarray_regrid := (xarray_regrid cast mir_grid accessor zero add mul efind mir_array grid_val).
  Notation regrid_call := (regrid_call zero add mul efind mir_array mir_grib field_values field_grid field_with field_message message_field).
  Notation pafter := (pafter zero add mul efind mir_array mir_grib field_values field_grid field_with field_message message_field).
  Notation pcall := (@pop_call A S meets field).
  Notation requests := (@requests A rest blob field field_values field_grid).
  Notation requested := (@requested A rest blob field field_values field_grid).
  Notation called := (@called A rest blob field field_values field_grid).
  Notation collides_with := (@collides_with A rest blob field field_values field_grid sha float_text).
  Notation only_to := (@only_to A rest blob field field_values field_grid).
  Notation sound_calls := (@Props_Every.sound_calls A rest blob field parse gunzip sha ext_of py_str key_order fuel field_values field_grid).
  Notation known_between := (@Props_Every.known_between A rest blob field parse gunzip digest read_sha load_npz weigh sha dir None None check fetch ext_of py_str key_order fuel memory_of float_text).
  Notation cleared := (@Props_Every.cleared A rest blob field parse gunzip digest read_sha load_npz weigh sha dir None None check fetch ext_of py_str key_order fuel memory_of float_text).
  Notation inventory_at := (inventory_at parse gunzip digest read_sha sha ext_of fuel files G).
  Notation has_weights := (has_weights load_npz fuel files G).
  Notation unchanged := (@unchanged A rest blob files G).
  Notation asks_known := (@asks_known A rest blob field parse gunzip digest read_sha sha ext_of field_values field_grid fuel files G).
  Notation asked_only_at := (@asked_only_at A rest blob field field_values field_grid fuel).
  Notation proper_everywhere := (@proper_everywhere A rest blob load_npz files G).
  Notation means := (means fuel).
  Notation the_call := (@the_call A rest blob field).
  Notation same_hash := (@same_hash A rest blob field sha float_text field_values field_grid).
  Notation answered_at := (answered_at zero add mul load_npz fuel files G).
  Implicit Types (w : args (spec := dict)) (H : list pcall) (values : array A) (l : list (string * raw rest)) (x : meets) (q : place).

  Hypotheses (K1 : incl COMPARE_KEYS key_order) (K2 : incl key_order COMPARE_KEYS).
  Hypotheses (WP : forall b, 0 <= n_size (weigh b)) (FL : fixed_length sha) (FT : float_texts float_text).
  Hypothesis NM : forall t u, cache_name ("url-" ++ sha t ++ ext_of u) /\ cache_name ("regrid-" ++ sha t ++ ".cache").


  Notation fitting := (@fitting A rest blob load_npz fuel files G).
  Notation surely_at := (surely_at load_npz fuel files G).
  Notation surely_not := (@surely_not rest fuel).
  Notation settings_right := (@settings_right A rest blob field zero add mul parse gunzip digest read_sha load_npz weigh sha dir check fetch ext_of py_str key_order fuel memory_of float_text mir_array mir_grib field_values field_grid field_with field_message message_field).
  Notation then_calls := (then_calls zero add mul efind mir_array mir_grib field_values field_grid field_with field_message message_field).
  Notation strict_after c H := (strict (e_mem (p_sys (pafter (einit c) H)))).

  Lemma split_front {X} (l r pre post : list X) y : ~ In y r -> l ++ r = pre ++ y :: post -> exists post', l = pre ++ y :: post'.
  Proof.
    clear. revert pre. induction l as [|z l IH]; intros pre N E.
    - cbn in E. destruct N. rewrite E. apply in_or_app. right. left. reflexivity.
    - destruct pre as [|z' pre]; cbn in E; injection E as -> E; [exists l; reflexivity|]. destruct (IH pre N E) as (post' & ->). exists post'. reflexivity.
  Qed.
  Section Slices.
    Variables (c : mconf) (H0 H : list pcall) (x : meets) (db : database) (q : place) (l : list (string * raw rest)) (kw : dict) (m : string) (src out : dict) (a0 b0 : grid) (v0 : array A).
    Notation cl v := (the_call x m kw src out v).
    Hypotheses (IV : inventory_at q l) (OI : only_inventory "inventory" kw db) (PL : placed db q) (CL : cleared H0) (KE : known_between (H0 ++ H)).
    Hypotheses (AS : Forall asks_known (H0 ++ H ++ [cl v0])) (OH : asked_only_at q H a0 b0 m) (MA : means src a0) (MB : means out b0) (NC : ~ same_hash (H ++ [cl v0]) src out m).
    Lemma calls_known tr : known_between (H0 ++ H ++ map (fun v => cl v) tr).
    Proof using KE.
      intros f I. apply KE. rewrite app_assoc in I. apply in_app_or in I. destruct I as [I|I]; [exact I|]. apply in_map_iff in I. destruct I as (v' & E & _). discriminate E.
    Qed.
    Lemma calls_ask tr v : Forall asks_known (H0 ++ (H ++ map (fun v => cl v) tr) ++ [cl v]).
    Proof using AS.
      clear - AS.
      assert (K : forall v, asks_known (cl v)).
      { rewrite !app_assoc in AS. apply Forall_app in AS. destruct AS as [_ A1]. inversion A1 as [|? ? K _]; subst. intros v' x' q' u di do m' (db' & PL' & D).
        unfold Props_XarrayEvery.the_call, slice_call in D. inversion D; subst. apply (K x' q' v0 di do m'). exists db'. split; [exact PL'|]. constructor. assumption. }
      rewrite app_assoc in AS. apply Forall_app in AS. destruct AS as [A1 _]. apply Forall_app in A1. destruct A1 as [A1 A2].
      apply Forall_app. split; [exact A1|]. apply Forall_app. split; [apply Forall_app; split; [exact A2|apply Forall_forall; intros d I; apply in_map_iff in I; destruct I as (v' & <- & _); apply K]|apply Forall_cons; [apply K|apply Forall_nil]].
    Qed.
    Lemma calls_only tr : asked_only_at q (H ++ map (fun v => cl v) tr) a0 b0 m.
    Proof using OH OI PL.
      induction tr as [|v tr IH] using rev_ind; [cbn; rewrite app_nil_r; exact OH|]. rewrite map_app, app_assoc. cbn [map].
      exact (only_also fuel field_values field_grid q _ _ a0 b0 m IH (fun _ _ _ _ _ _ => array_place field_values field_grid _ _ _ _ _ _ _ _ _ _ _ _ _ _ OI PL)).
    Qed.
    Lemma calls_apart tr v : ~ same_hash ((H ++ map (fun v => cl v) tr) ++ [cl v]) src out m.
    Proof using NC.
      intros (gi & go & RQ & x' & q' & u & di & do & m' & gi' & go' & R & C). apply NC. exists gi, go. split; [exact RQ|].
      assert (E : (H ++ map (fun v => cl v) tr) ++ [cl v] = H ++ map (the_call x m kw src out) (tr ++ [v])) by (rewrite map_app, app_assoc; reflexivity). rewrite E in R.
      destruct (slices_requested field_values field_grid _ _ _ _ _ _ _ v0 _ _ _ _ _ _ R) as (u' & R'). exists x', q', u', di, do, m', gi', go'. split; [exact R'|exact C].
    Qed.
    Lemma calls_right tr : settings_right c (H0 ++ H) -> settings_right c (H0 ++ H ++ map (fun v => cl v) tr).
    Proof.
      intros [R1 R2]. split; [exact R1|]. intros pre f post E. rewrite app_assoc in E. apply split_front in E; [|intros I; apply in_map_iff in I; destruct I as (v' & Z0 & _); discriminate Z0]. destruct E as (post' & E). exact (R2 pre f post' E).
    Qed.
    Lemma calls_strict tr : settings_right c (H0 ++ H) -> strict_after c (H0 ++ H ++ map (fun v => cl v) tr) = strict_after c (H0 ++ H).
    Proof using OI.
      intros SR. induction tr as [|v tr IH] using rev_ind; [cbn [map]; rewrite app_nil_r; reflexivity|]. rewrite <- IH. clear IH.
      pose proof (right_ginv zero add mul parse gunzip digest read_sha load_npz weigh sha dir check fetch ext_of py_str key_order fuel memory_of float_text mir_array mir_grib field_values field_grid field_with field_message message_field c _ (calls_right tr SR)) as GV.
      rewrite map_app, !app_assoc. rewrite <- app_assoc with (l := H0). set (h := H0 ++ H ++ map (fun v => cl v) tr) in *.
      pose proof (after_fine zero add mul efind mir_array mir_grib field_values field_grid field_with field_message message_field (einit c) h) as F.
      assert (EQ : pafter (einit c) (h ++ map (fun v => cl v) [v]) = pstep zero add mul efind mir_array mir_grib field_values field_grid field_with field_message message_field (pafter (einit c) h) (cl v)) by (unfold Api.pafter; rewrite fold_left_app; reflexivity).
      rewrite EQ. destruct (pafter (einit c) h) as [y mk]. cbn [p_sys p_maker] in *. unfold the_call, slice_call. cbn [Api.pstep].
      destruct (array_direct zero add mul efind mir_array x db v src out (VStr m) kw OI y mk mk F F) as (D & _). rewrite D. unfold direct. cbn [p_sys].
      pose proof (proj2 (find_ginv parse gunzip digest read_sha load_npz weigh sha dir check fetch ext_of py_str key_order fuel memory_of float_text x db src out m y GV)) as SE.
      destruct (efind x db src out (VStr m) y) as [y' found]. exact SE.
    Qed.
    Lemma slice_sure z n tr v : proper_everywhere -> age_known check x q -> settings_right c (H0 ++ H) -> surely_at q l a0 b0 m z n -> prod (shape v) = n_cols z -> prod n = n_rows z ->
      let r := snd (array_regrid x v (Some src) (Some out) (VStr m) (VStr "precomputed") kw (then_calls (pafter (einit c) (H0 ++ H)) (map (the_call x m kw src out) tr))) in
      (exists u, r = Ok (u, out) /\ applies zero add mul z n v u) \/ (r = Raise WeightsTooLarge /\ strict_after c (H0 ++ H) = true).
    Proof using K1 K2 WP FL FT NM IV OI PL CL KE AS OH MA MB NC.
      intros PF AG SR SA E1 E2 r. subst r. rewrite calls_after, <- app_assoc.
      destruct (C128_answered zero add mul parse gunzip digest read_sha load_npz weigh sha dir check fetch ext_of py_str key_order fuel memory_of float_text mir_array mir_grib field_values field_grid field_with field_message message_field files G K1 K2 WP FL FT NM
        c H0 (H ++ map (the_call x m kw src out) tr) x db q l kw v src out a0 b0 m z n _ eq_refl IV PF OI PL AG CL (calls_known tr) (calls_right tr SR) (calls_ask tr v) (calls_only tr) MA MB SA E1 E2) as [R|[[R S1]|C]].
      - left. exact R.
      - right. split; [exact R|]. rewrite <- (calls_strict tr SR). exact S1.
      - destruct (calls_apart tr v C).
    Qed.
    Lemma slice_none tr v : surely_not l a0 b0 m ->
      snd (array_regrid x v (Some src) (Some out) (VStr m) (VStr "precomputed") kw (then_calls (pafter (einit c) (H0 ++ H)) (map (the_call x m kw src out) tr))) = Raise ValueError.
    Proof using K1 K2 WP FL FT NM IV OI PL CL KE AS OH MA MB NC.
      intros SN. rewrite calls_after, <- app_assoc.
      destruct (C128_refused zero add mul parse gunzip digest read_sha load_npz weigh sha dir check fetch ext_of py_str key_order fuel memory_of float_text mir_array mir_grib field_values field_grid field_with field_message message_field files G K1 K2 WP FL FT NM
        c H0 (H ++ map (the_call x m kw src out) tr) x db q l kw v src out a0 b0 m _ eq_refl IV OI PL CL (calls_known tr) (calls_ask tr v) (calls_only tr) MA MB SN) as [R|C]; [exact R|destruct (calls_apart tr v C)].
    Qed.
  End Slices.

  Lemma inventory_plain kw db : only_inventory "inventory" kw db -> plain_names kw.
  Proof. clear. intros [|v d _] k I; cbn; [intros []|]. intros [<-|[]]. cbn in I. intuition discriminate. Qed.
  Lemma source_one attr given acc (src src' : dict) left left' : source attr given acc src left -> source attr given acc src' left' -> src' = src /\ left' = left.
  Proof. clear. intros [[S1 S2]|[(S1 & S2 & S3)|(S1 & S2 & S3 & S4)]] [[T1 T2]|[(T1 & T2 & T3)|(T1 & T2 & T3 & T4)]]; split; congruence. Qed.
  Lemma dims_one (given : option dimarg) dims ds ds' : input_dims given dims ds -> input_dims given dims ds' -> ds' = ds.
  Proof. clear. intros I1 I2. apply in_dims_back in I1, I2. congruence. Qed.
  Lemma sliced_shapes (P Q : array A -> array A -> Prop) ind outd n (a b : dataarray A dtype dict other) : (forall v o, Forall2 (sized a) ind (shape v) -> P v o -> Q v o) -> sliced cast P ind outd n a b -> sliced cast Q ind outd n a b.
  Proof.
    clear. intros PQ (H1 & H2 & H3 & H4 & H5 & sh & H6 & H7). repeat (split; [assumption|]). exists sh. split; [exact H6|]. intros p Q0. destruct (H7 p Q0) as (v & vals & V1 & V2 & V3). exists v, vals. split; [exact V1|]. split; [|exact V3].
    apply PQ; [|exact V2]. destruct V1 as [-> _]. exact H6.
  Qed.
  Section Object.
    Variables (c : mconf) (H0 H : list pcall) (x : meets) (db : database) (q : place) (l : list (string * raw rest)) (w : args (spec := dict)) (m : string).
    Variables (attr : option dict) (acc : option (option dict)) (src : dict) (gin : Xarray.geometry dict) (out : dict) (gout : Xarray.geometry dict) (a0 b0 : grid) (v0 : array A).
    Notation cl := (the_call x m (x_rest w) (g_spec gin) out v0).
    Hypotheses (SO : source attr (x_grid_spec w) acc src None) (GI : mir_grid src = Ok gin) (XG : x_grid w = Some out) (GO : mir_grid out = Ok gout).
    Hypotheses (IV : inventory_at q l) (PF : proper_everywhere) (OI : only_inventory "inventory" (x_rest w) db) (PL : placed db q) (CL : cleared H0) (KE : known_between (H0 ++ H)).
    Hypotheses (AS : Forall asks_known (H0 ++ H ++ [cl])) (OH : asked_only_at q H a0 b0 m) (MA : means (g_spec gin) a0) (MB : means out b0).
    Hypotheses (NC : ~ same_hash (H ++ [cl]) (g_spec gin) out m) (FI : fitting q l a0 b0 m (g_shape gout)).
    Hypotheses (XO : x_out_dims w = None) (DS : describable gout).
    Notation s0 := (pafter (einit c) (H0 ++ H)).
    Lemma o_delivered : delivered mir_grid zero add mul efind mir_array mir_grib field_values field_grid field_with field_message message_field grid_val s0 x (VStr m) (VStr "precomputed") w attr acc.
    Proof using K1 K2 WP FL FT NM SO GI XG GO IV PF OI PL CL KE AS OH MA MB NC FI XO DS.
      refine (x_delivered mir_grid grid_val zero add mul parse gunzip digest read_sha load_npz weigh sha dir None None check fetch ext_of py_str key_order fuel memory_of float_text mir_array mir_grib field_values field_grid field_with field_message message_field files G K1 K2 WP FL FT NM
        c H0 H x db q l w m attr acc src gin out gout a0 b0 v0 SO GI XG GO IV PF OI PL CL KE AS OH MA MB NC FI _).
      intros od O. rewrite XO in O. destruct (describable_out gout DS) as (ds & O' & ND & L). rewrite (out_one gout _ _ O O'). auto.
    Qed.
    Lemma o_answerable (P : exn -> Prop) (good : list nat -> Prop) : (forall tr v, good (shape v) -> (exists p, snd (array_regrid x v (Some (g_spec gin)) (Some out) (VStr m) (VStr "precomputed") (x_rest w) (then_calls s0 (map (the_call x m (x_rest w) (g_spec gin) out) tr))) = Ok p) \/
        exists e, snd (array_regrid x v (Some (g_spec gin)) (Some out) (VStr m) (VStr "precomputed") (x_rest w) (then_calls s0 (map (the_call x m (x_rest w) (g_spec gin) out) tr))) = Raise e /\ P e) ->
      answerable mir_grid zero add mul efind mir_array mir_grib field_values field_grid field_with field_message message_field s0 x (VStr m) (VStr "precomputed") (x_rest w) (g_spec gin) out gout gout P good.
    Proof using K1 K2 WP FL FT NM SO GI XG GO IV PF OI PL CL KE AS OH MA MB NC FI XO DS grid_val.
      intros FT0 tr v. cbv zeta. split; [exact (FT0 tr v)|]. intros o g Q. split.
      - destruct (describable_out gout DS) as (ds & O' & _). rewrite <- XO in O'. destruct (o_delivered out gout ds XG GO O') as (_ & _ & D). exact (D src None gin (x_rest w) SO GI (or_introl (conj eq_refl eq_refl)) tr v o g Q).
      - destruct (slice_origin zero add mul parse gunzip digest read_sha load_npz weigh sha dir None None check fetch ext_of py_str key_order fuel memory_of float_text mir_array mir_grib field_values field_grid field_with field_message message_field
          c H0 H x db (x_rest w) m (g_spec gin) out v0 tr v o g _ eq_refl WP FL FT (all_names parse gunzip sha ext_of NM _ _) (every_proper parse gunzip digest read_sha load_npz sha ext_of fuel field_values field_grid files G _ AS PF) CL KE
          (every_sound parse gunzip digest read_sha sha ext_of py_str key_order fuel field_values field_grid files G K1 K2 _ AS) OI Q) as [-> _]. exact GO.
    Qed.
    Lemma o_sure z (good : list nat -> Prop) : age_known check x q -> settings_right c (H0 ++ H) -> surely_at q l a0 b0 m z (g_shape gout) -> prod (g_shape gout) = n_rows z -> (forall sh, good sh -> prod sh = n_cols z) ->
      answerable mir_grid zero add mul efind mir_array mir_grib field_values field_grid field_with field_message message_field s0 x (VStr m) (VStr "precomputed") (x_rest w) (g_spec gin) out gout gout (fun e => e = WeightsTooLarge /\ strict_after c (H0 ++ H) = true) good.
    Proof using K1 K2 WP FL FT NM SO GI XG GO IV PF OI PL CL KE AS OH MA MB NC FI XO DS grid_val.
      intros AG SR SA E2 E1. apply o_answerable. intros tr v GD.
      destruct (slice_sure c H0 H x db q l (x_rest w) m (g_spec gin) out a0 b0 v0 IV OI PL CL KE AS OH MA MB NC z (g_shape gout) tr v PF AG SR SA (E1 _ GD) E2) as [(u & R & _)|[R S1]]; [left; eauto|right; eauto].
    Qed.
    Lemma o_returned z tr v o : age_known check x q -> settings_right c (H0 ++ H) -> surely_at q l a0 b0 m z (g_shape gout) -> prod (g_shape gout) = n_rows z -> prod (shape v) = n_cols z ->
      returned zero add mul efind mir_array mir_grib field_values field_grid field_with field_message message_field s0 x (VStr m) (VStr "precomputed") (x_rest w) (g_spec gin) out tr v o -> applies zero add mul z (g_shape gout) v o.
    Proof using K1 K2 WP FL FT NM IV PF OI PL CL KE AS OH MA MB NC.
      intros AG SR SA E2 E1 (before & behind & g & _ & Q).
      destruct (slice_sure c H0 H x db q l (x_rest w) m (g_spec gin) out a0 b0 v0 IV OI PL CL KE AS OH MA MB NC z (g_shape gout) before v PF AG SR SA E1 E2) as [(u & R & AP)|[R _]]; pose proof (eq_trans (eq_sym R) Q) as X; [injection X as <- _; exact AP|discriminate X].
    Qed.
  End Object.

  (** ** DataArrays *)
  Theorem C130_array_answered c H0 H x db q l w (a : dataarray A dtype dict other) m src gin out gout a0 b0 v0 z in_dims out_dims :
    source (da_grid a) (x_grid_spec w) (accessor (XArray a)) src None -> mir_grid src = Ok gin -> x_grid w = Some out -> mir_grid out = Ok gout ->
    forall cl, cl = the_call x m (x_rest w) (g_spec gin) out v0 ->
    inventory_at q l -> proper_everywhere -> only_inventory "inventory" (x_rest w) db -> placed db q -> age_known check x q -> cleared H0 -> known_between (H0 ++ H) -> settings_right c (H0 ++ H) ->
    Forall asks_known (H0 ++ H ++ [cl]) -> asked_only_at q H a0 b0 m -> means (g_spec gin) a0 -> means out b0 -> ~ same_hash (H ++ [cl]) (g_spec gin) out m -> fitting q l a0 b0 m (g_shape gout) ->
    surely_at q l a0 b0 m z (g_shape gout) -> prod (g_shape gout) = n_rows z ->
    input_dims (x_in_dims w) (da_dims a) in_dims -> x_out_dims w = None -> output_dims None (g_shape gout) out_dims -> NoDup in_dims -> same_or_apart in_dims out_dims -> describable gout ->
    regriddable in_dims out_dims a -> (forall sh, Forall2 (sized a) in_dims sh -> prod sh = n_cols z) ->
    let r := snd (xarray_regrid x (VStr m) (VStr "precomputed") w (XArray a) (pafter (einit c) (H0 ++ H))) in
    (exists b, r = Ok (XArray b) /\ sliced cast (applies zero add mul z (g_shape gout)) in_dims out_dims (g_shape gout) a b /\ located gout out_dims (da_coords b)) \/
    (r = Raise WeightsTooLarge /\ strict_after c (H0 ++ H) = true).
  Proof using K1 K2 WP FL FT NM.
    intros SO GI XG GO cl Ecl IV PF OI PL AG CL KE SR AS OH MA MB NC FI SA E2 ID XO OD NI AP DS RG E1 r. subst cl r.
    pose proof (o_sure c H0 H x db q l w m _ _ src gin out gout a0 b0 v0 SO GI XG GO IV PF OI PL CL KE AS OH MA MB NC FI XO DS z _ AG SR SA E2 E1) as AN.
    destruct (C130_array_partial cast mir_grid accessor zero add mul efind mir_array mir_grib field_values field_grid field_with field_message message_field grid_val
      (pafter (einit c) (H0 ++ H)) x (VStr m) (VStr "precomputed") w a src None gin out gout gout in_dims out_dims (x_rest w) _ SO GI XG GO ID XO OD NI AP (or_introl (conj eq_refl eq_refl)) (inventory_plain _ _ OI) DS eq_refl RG AN) as [(b & R)|(e & R & -> & S1)]; [|right; auto].
    left. exists b. split; [exact R|]. pose proof (o_delivered c H0 H x db q l w m _ _ src gin out gout a0 b0 v0 SO GI XG GO IV PF OI PL CL KE AS OH MA MB NC FI XO DS) as D.
    assert (X := surjective_pairing (xarray_regrid x (VStr m) (VStr "precomputed") w (XArray a) (pafter (einit c) (H0 ++ H)))). rewrite R in X.
    assert (NE : forall ds, input_dims (x_in_dims w) (da_dims a) ds -> nonempty a ds) by (intros ds I; rewrite (dims_one _ _ _ _ ID I); apply RG).
    destruct (C110_array_partial cast mir_grid accessor zero add mul efind mir_array mir_grib field_values field_grid field_with field_message message_field grid_val
      (pafter (einit c) (H0 ++ H)) x (VStr m) (VStr "precomputed") w a _ _ (proj1 RG) D NE X) as (b' & src' & left' & gin' & grid' & gout' & ind & outd & kw & tr & EB & SO' & GI' & XG' & GO' & ID' & OD' & PS & _ & _ & SL & _).
    destruct (source_one _ _ _ _ _ _ _ SO SO') as [-> ->]. rewrite GI in GI'. injection GI' as <-. rewrite XG in XG'. injection XG' as <-. rewrite GO in GO'. injection GO' as <-. injection EB as <-.
    rewrite (dims_one _ _ _ _ ID ID') in SL. rewrite XO in OD'. rewrite (out_one gout _ _ OD' OD) in SL. destruct PS as [[_ ->]|(g & PS & _)]; [|discriminate PS].
    split; [eapply sliced_shapes; [|exact SL]; intros v o SV RT; exact (o_returned c H0 H x db q l w m gin out gout a0 b0 v0 IV PF OI PL CL KE AS OH MA MB NC z tr v o AG SR SA E2 (E1 _ SV) RT)|].
    destruct (C129_array cast mir_grid accessor grid_val zero add mul parse gunzip digest read_sha load_npz weigh sha dir None None check fetch ext_of py_str key_order fuel memory_of float_text mir_array mir_grib field_values field_grid field_with field_message message_field files G K1 K2 WP FL FT NM
      c H0 H x db q l w a m src gin out gout a0 b0 v0 (XArray b) SO GI XG GO _ eq_refl IV PF OI PL CL KE AS OH MA MB NC FI) as (b' & _ & _ & EB & _ & _ & _ & (g & GG & LO)).
    - intros od O. rewrite XO in O. destruct (describable_out gout DS) as (ds & O' & ND & L). rewrite (out_one gout _ _ O O'). auto.
    - exact (proj1 RG).
    - exact NE.
    - exact R.
    - injection EB as <-. rewrite GO in GG. injection GG as <-. exact (LO DS out_dims OD).
  Qed.
  Theorem C130_array_refused c H0 H x db q l w (a : dataarray A dtype dict other) m src gin out gout a0 b0 v0 in_dims out_dims :
    source (da_grid a) (x_grid_spec w) (accessor (XArray a)) src None -> mir_grid src = Ok gin -> x_grid w = Some out -> mir_grid out = Ok gout ->
    forall cl, cl = the_call x m (x_rest w) (g_spec gin) out v0 ->
    inventory_at q l -> only_inventory "inventory" (x_rest w) db -> placed db q -> cleared H0 -> known_between (H0 ++ H) ->
    Forall asks_known (H0 ++ H ++ [cl]) -> asked_only_at q H a0 b0 m -> means (g_spec gin) a0 -> means out b0 -> ~ same_hash (H ++ [cl]) (g_spec gin) out m -> surely_not l a0 b0 m ->
    input_dims (x_in_dims w) (da_dims a) in_dims -> x_out_dims w = None -> output_dims None (g_shape gout) out_dims -> NoDup in_dims -> same_or_apart in_dims out_dims -> describable gout -> regriddable in_dims out_dims a ->
    snd (xarray_regrid x (VStr m) (VStr "precomputed") w (XArray a) (pafter (einit c) (H0 ++ H))) = Raise ValueError.
  Proof using K1 K2 WP FL FT NM.
    intros SO GI XG GO cl Ecl IV OI PL CL KE AS OH MA MB NC SN ID XO OD NI AP DS RG. subst cl.
    assert (NO : forall tr v, snd (array_regrid x v (Some (g_spec gin)) (Some out) (VStr m) (VStr "precomputed") (x_rest w) (then_calls (pafter (einit c) (H0 ++ H)) (map (the_call x m (x_rest w) (g_spec gin) out) tr))) = Raise ValueError)
      by (intros tr v; exact (slice_none c H0 H x db q l (x_rest w) m (g_spec gin) out a0 b0 v0 IV OI PL CL KE AS OH MA MB NC tr v SN)).
    destruct (C130_array_partial cast mir_grid accessor zero add mul efind mir_array mir_grib field_values field_grid field_with field_message message_field grid_val
      (pafter (einit c) (H0 ++ H)) x (VStr m) (VStr "precomputed") w a src None gin out gout gout in_dims out_dims (x_rest w) (fun e => e = ValueError) SO GI XG GO ID XO OD NI AP (or_introl (conj eq_refl eq_refl)) (inventory_plain _ _ OI) DS eq_refl RG) as [(b & R)|(e & R & ->)]; [| |exact R].
    - intros tr v. cbv zeta. split; [intros _; right; exists ValueError; split; [exact (NO tr v)|reflexivity]|]. intros o g Q. pose proof (eq_trans (eq_sym Q) (NO tr v)) as X. discriminate X.
    - exfalso. assert (X := surjective_pairing (xarray_regrid x (VStr m) (VStr "precomputed") w (XArray a) (pafter (einit c) (H0 ++ H)))). rewrite R in X.
      assert (NE : forall ds, input_dims (x_in_dims w) (da_dims a) ds -> nonempty a ds) by (intros ds I; rewrite (dims_one _ _ _ _ ID I); apply RG).
      assert (D : delivered mir_grid zero add mul efind mir_array mir_grib field_values field_grid field_with field_message message_field grid_val (pafter (einit c) (H0 ++ H)) x (VStr m) (VStr "precomputed") w (da_grid a) (accessor (XArray a))).
      { intros grid' gout' od XG' GO' OD'. rewrite XG in XG'. injection XG' as <-. rewrite GO in GO'. injection GO' as <-. rewrite XO in OD'. destruct (describable_out gout DS) as (ds & O' & ND & L). rewrite (out_one gout _ _ OD' O'). split; [exact ND|]. split; [auto|].
        intros src' left' gin' kw SO' GI' PS tr v o g Q. destruct (source_one _ _ _ _ _ _ _ SO SO') as [-> ->]. rewrite GI in GI'. injection GI' as <-. destruct PS as [[_ ->]|(g' & PS & _)]; [|discriminate PS]. pose proof (eq_trans (eq_sym Q) (NO tr v)) as Y. discriminate Y. }
      destruct (C110_array_partial cast mir_grid accessor zero add mul efind mir_array mir_grib field_values field_grid field_with field_message message_field grid_val
        (pafter (einit c) (H0 ++ H)) x (VStr m) (VStr "precomputed") w a _ _ (proj1 RG) D NE X) as (b' & src' & left' & gin' & grid' & gout' & ind & outd & kw & tr & EB & SO' & GI' & XG' & GO' & ID' & OD' & PS & _ & _ & SL & _).
      destruct (source_one _ _ _ _ _ _ _ SO SO') as [-> ->]. rewrite GI in GI'. injection GI' as <-. rewrite XG in XG'. injection XG' as <-. destruct PS as [[_ ->]|(g & PS & _)]; [|discriminate PS].
      destruct (no_point cast _ _ _ _ _ _ (NE _ ID') SL) as (v & o & before & behind & g & _ & Q). pose proof (eq_trans (eq_sym Q) (NO before v)) as Y. discriminate Y.
  Qed.

  (** ** Datasets *)
  Lemma Forall2_in_weaken {S T} (P Q : S -> T -> Prop) (l : list S) (l' : list T) : (forall (x : S) (y : T), In x l -> P x y -> Q x y) -> Forall2 P l l' -> Forall2 Q l l'.
  Proof. clear. intros PQ F. induction F as [|x y l l' P0 F IH]; constructor; [apply PQ; [now left|exact P0]|]. apply IH. intros u v I. apply PQ. now right. Qed.
  Theorem C130_set_answered c H0 H x db q l w (u : dataset A dtype dict other) m src gin out gout a0 b0 v0 z in_dims out_dims :
    source (ds_grid u) (x_grid_spec w) (accessor (XSet u)) src None -> mir_grid src = Ok gin -> x_grid w = Some out -> mir_grid out = Ok gout ->
    forall cl, cl = the_call x m (x_rest w) (g_spec gin) out v0 ->
    inventory_at q l -> proper_everywhere -> only_inventory "inventory" (x_rest w) db -> placed db q -> age_known check x q -> cleared H0 -> known_between (H0 ++ H) -> settings_right c (H0 ++ H) ->
    Forall asks_known (H0 ++ H ++ [cl]) -> asked_only_at q H a0 b0 m -> means (g_spec gin) a0 -> means out b0 -> ~ same_hash (H ++ [cl]) (g_spec gin) out m -> fitting q l a0 b0 m (g_shape gout) ->
    surely_at q l a0 b0 m z (g_shape gout) -> prod (g_shape gout) = n_rows z ->
    input_dims (x_in_dims w) (ds_sizes u) in_dims -> x_out_dims w = None -> output_dims None (g_shape gout) out_dims -> NoDup in_dims -> same_or_apart in_dims out_dims -> describable gout ->
    ds_vars u <> [] -> NoDup (akeys (ds_vars u)) -> one_size u -> (forall n a, In (n, a) (ds_vars u) -> regriddable in_dims out_dims a) -> (forall n a sh, In (n, a) (ds_vars u) -> Forall2 (sized a) in_dims sh -> prod sh = n_cols z) ->
    let r := snd (xarray_regrid x (VStr m) (VStr "precomputed") w (XSet u) (pafter (einit c) (H0 ++ H))) in
    (exists b, r = Ok (XSet b) /\ 
      Forall2 (fun v v' => fst v' = fst v /\ sliced cast (applies zero add mul z (g_shape gout)) in_dims out_dims (g_shape gout) (snd v) (snd v')) (ds_vars u) (ds_vars b) /\ located gout out_dims (ds_coords b)) \/
    (r = Raise WeightsTooLarge /\ strict_after c (H0 ++ H) = true).
  Proof using K1 K2 WP FL FT NM.
    intros SO GI XG GO cl Ecl IV PF OI PL AG CL KE SR AS OH MA MB NC FI SA E2 ID XO OD NI AP DS NV NK OS RG E1 r. subst cl r.
    pose proof (o_sure c H0 H x db q l w m _ _ src gin out gout a0 b0 v0 SO GI XG GO IV PF OI PL CL KE AS OH MA MB NC FI XO DS z (fun sh => exists n a, In (n, a) (ds_vars u) /\ Forall2 (sized a) in_dims sh) AG SR SA E2 ltac:(intros sh (n & a & I & F); exact (E1 n a sh I F))) as AN.
    destruct (C130_set_partial cast mir_grid accessor zero add mul efind mir_array mir_grib field_values field_grid field_with field_message message_field grid_val
      (pafter (einit c) (H0 ++ H)) x (VStr m) (VStr "precomputed") w u src None gin out gout gout in_dims out_dims (x_rest w) _ SO GI XG GO ID XO OD NI AP (or_introl (conj eq_refl eq_refl)) (inventory_plain _ _ OI) DS eq_refl NV NK OS RG AN) as [(b & R)|(e & R & -> & S1)]; [|right; auto].
    left. exists b. split; [exact R|]. pose proof (o_delivered c H0 H x db q l w m _ _ src gin out gout a0 b0 v0 SO GI XG GO IV PF OI PL CL KE AS OH MA MB NC FI XO DS) as D.
    assert (X := surjective_pairing (xarray_regrid x (VStr m) (VStr "precomputed") w (XSet u) (pafter (einit c) (H0 ++ H)))). rewrite R in X.
    assert (NE : forall ds n a, input_dims (x_in_dims w) (ds_sizes u) ds -> In (n, a) (ds_vars u) -> nonempty a ds) by (intros ds n a I J; rewrite (dims_one _ _ _ _ ID I); apply (RG n a J)).
    assert (WF : forall n a, In (n, a) (ds_vars u) -> well_formed a) by (intros n a J; apply (RG n a J)).
    destruct (C110_set_partial cast mir_grid accessor zero add mul efind mir_array mir_grib field_values field_grid field_with field_message message_field grid_val
      (pafter (einit c) (H0 ++ H)) x (VStr m) (VStr "precomputed") w u _ _ NK WF D NE X) as (b' & src' & left' & gin' & grid' & gout' & ind & outd & kw & ls & tr & EB & SO' & GI' & XG' & GO' & ID' & OD' & PS & _ & _ & _ & SL & _).
    destruct (source_one _ _ _ _ _ _ _ SO SO') as [-> ->]. rewrite GI in GI'. injection GI' as <-. rewrite XG in XG'. injection XG' as <-. rewrite GO in GO'. injection GO' as <-. injection EB as <-.
    rewrite (dims_one _ _ _ _ ID ID') in SL. rewrite XO in OD'. rewrite (out_one gout _ _ OD' OD) in SL. destruct PS as [[_ ->]|(g & PS & _)]; [|discriminate PS].
    split; [eapply Forall2_in_weaken; [|exact SL]; intros [n y] y' J [K S1]; split; [exact K|]; eapply sliced_shapes; [|exact S1]; intros v o SV RT; exact (o_returned c H0 H x db q l w m gin out gout a0 b0 v0 IV PF OI PL CL KE AS OH MA MB NC z tr v o AG SR SA E2 (E1 n y _ J SV) RT)|].
    destruct (C129_set cast mir_grid accessor grid_val zero add mul parse gunzip digest read_sha load_npz weigh sha dir None None check fetch ext_of py_str key_order fuel memory_of float_text mir_array mir_grib field_values field_grid field_with field_message message_field files G K1 K2 WP FL FT NM
      c H0 H x db q l w u m src gin out gout a0 b0 v0 (XSet b) SO GI XG GO _ eq_refl IV PF OI PL CL KE AS OH MA MB NC FI) as (b' & _ & _ & EB & _ & _ & _ & (g & GG & LO)).
    - intros od O. rewrite XO in O. destruct (describable_out gout DS) as (ds & O' & ND & L). rewrite (out_one gout _ _ O O'). auto.
    - exact NK.
    - exact WF.
    - exact NE.
    - exact R.
    - injection EB as <-. rewrite GO in GG. injection GG as <-. exact (LO DS out_dims OD).
  Qed.
  Theorem C130_set_refused c H0 H x db q l w (u : dataset A dtype dict other) m src gin out gout a0 b0 v0 in_dims out_dims :
    source (ds_grid u) (x_grid_spec w) (accessor (XSet u)) src None -> mir_grid src = Ok gin -> x_grid w = Some out -> mir_grid out = Ok gout ->
    forall cl, cl = the_call x m (x_rest w) (g_spec gin) out v0 ->
    inventory_at q l -> only_inventory "inventory" (x_rest w) db -> placed db q -> cleared H0 -> known_between (H0 ++ H) ->
    Forall asks_known (H0 ++ H ++ [cl]) -> asked_only_at q H a0 b0 m -> means (g_spec gin) a0 -> means out b0 -> ~ same_hash (H ++ [cl]) (g_spec gin) out m -> surely_not l a0 b0 m ->
    input_dims (x_in_dims w) (ds_sizes u) in_dims -> x_out_dims w = None -> output_dims None (g_shape gout) out_dims -> NoDup in_dims -> same_or_apart in_dims out_dims -> describable gout -> ds_vars u <> [] -> NoDup (akeys (ds_vars u)) -> one_size u -> (forall n a, In (n, a) (ds_vars u) -> regriddable in_dims out_dims a) ->
    snd (xarray_regrid x (VStr m) (VStr "precomputed") w (XSet u) (pafter (einit c) (H0 ++ H))) = Raise ValueError.
  Proof using K1 K2 WP FL FT NM.
    intros SO GI XG GO cl Ecl IV OI PL CL KE AS OH MA MB NC SN ID XO OD NI AP DS NV NK OS RG. subst cl.
    assert (NO : forall tr v, snd (array_regrid x v (Some (g_spec gin)) (Some out) (VStr m) (VStr "precomputed") (x_rest w) (then_calls (pafter (einit c) (H0 ++ H)) (map (the_call x m (x_rest w) (g_spec gin) out) tr))) = Raise ValueError)
      by (intros tr v; exact (slice_none c H0 H x db q l (x_rest w) m (g_spec gin) out a0 b0 v0 IV OI PL CL KE AS OH MA MB NC tr v SN)).
    destruct (C130_set_partial cast mir_grid accessor zero add mul efind mir_array mir_grib field_values field_grid field_with field_message message_field grid_val
      (pafter (einit c) (H0 ++ H)) x (VStr m) (VStr "precomputed") w u src None gin out gout gout in_dims out_dims (x_rest w) (fun e => e = ValueError) SO GI XG GO ID XO OD NI AP (or_introl (conj eq_refl eq_refl)) (inventory_plain _ _ OI) DS eq_refl NV NK OS RG) as [(b & R)|(e & R & ->)]; [| |exact R].
    - intros tr v. cbv zeta. split; [intros _; right; exists ValueError; split; [exact (NO tr v)|reflexivity]|]. intros o g Q. pose proof (eq_trans (eq_sym Q) (NO tr v)) as X. discriminate X.
    - exfalso. assert (X := surjective_pairing (xarray_regrid x (VStr m) (VStr "precomputed") w (XSet u) (pafter (einit c) (H0 ++ H)))). rewrite R in X.
      assert (NE : forall ds n a, input_dims (x_in_dims w) (ds_sizes u) ds -> In (n, a) (ds_vars u) -> nonempty a ds) by (intros ds n a I J; rewrite (dims_one _ _ _ _ ID I); apply (RG n a J)).
      assert (WF : forall n a, In (n, a) (ds_vars u) -> well_formed a) by (intros n a J; apply (RG n a J)).
      assert (D : delivered mir_grid zero add mul efind mir_array mir_grib field_values field_grid field_with field_message message_field grid_val (pafter (einit c) (H0 ++ H)) x (VStr m) (VStr "precomputed") w (ds_grid u) (accessor (XSet u))).
      { intros grid' gout' od XG' GO' OD'. rewrite XG in XG'. injection XG' as <-. rewrite GO in GO'. injection GO' as <-. rewrite XO in OD'. destruct (describable_out gout DS) as (ds & O' & ND & L). rewrite (out_one gout _ _ OD' O'). split; [exact ND|]. split; [auto|].
        intros src' left' gin' kw SO' GI' PS tr v o g Q. destruct (source_one _ _ _ _ _ _ _ SO SO') as [-> ->]. rewrite GI in GI'. injection GI' as <-. destruct PS as [[_ ->]|(g' & PS & _)]; [|discriminate PS]. pose proof (eq_trans (eq_sym Q) (NO tr v)) as Y. discriminate Y. }
      destruct (C110_set_partial cast mir_grid accessor zero add mul efind mir_array mir_grib field_values field_grid field_with field_message message_field grid_val
        (pafter (einit c) (H0 ++ H)) x (VStr m) (VStr "precomputed") w u _ _ NK WF D NE X) as (b' & src' & left' & gin' & grid' & gout' & ind & outd & kw & ls & tr & EB & SO' & GI' & XG' & GO' & ID' & OD' & PS & _ & _ & _ & SL & _).
      destruct (source_one _ _ _ _ _ _ _ SO SO') as [-> ->]. rewrite GI in GI'. injection GI' as <-. rewrite XG in XG'. injection XG' as <-. destruct PS as [[_ ->]|(g & PS & _)]; [|discriminate PS].
      destruct (ds_vars u) as [|[n0 a1] vs] eqn:V; [congruence|]. inversion SL as [|? ? ? ? [_ S1] _]; subst. destruct (no_point cast _ _ _ _ _ _ (NE _ n0 a1 ID' (or_introl eq_refl)) S1) as (v & o & before & behind & g & _ & Q). pose proof (eq_trans (eq_sym Q) (NO before v)) as Y. discriminate Y.
  Qed.

End Any.

(** ** The hypotheses are met by the process of Props_EndEvery3.v and the objects of Props_EndXarray.v *)
Definition xf_args : args (spec := dict) := mkArgs (Some ll_out) None None None [("inventory", VStr "http://s")].
Lemma xf_collides : ~ same_hash toy_sha demo_text ll_values ll_grid (every_rest ++ [mx_values matrix_b "http://s" "nn"]) demo_out ll_out "nn".
Proof.
  intros (gi & go & [E1 E2] & (x & q & u & di & do & m' & gi' & go' & R & [E3 E4] & N & E)).
  assert (X1 : from_dict demo_out = Ok ll_gi) by (vm_compute; reflexivity). assert (X2 : from_dict ll_out = Ok ll_gs) by (vm_compute; reflexivity). assert (X3 : from_dict (gd ll_gs) = Ok ll_go) by (vm_compute; reflexivity).
  assert (T : Forall mx_kind (every_rest ++ [mx_values matrix_b "http://s" "nn"])).
  { assert (M : forall u db q m, mx_inventory u db q -> net_method m -> mx_kind (mx_fields matrix_b u m) /\ mx_kind (mx_values matrix_b u m)).
    { intros u0 db0 q0 m0 MI NM. destruct (mx_kind_fields matrix_b u0 db0 q0 m0 (or_intror eq_refl) MI NM) as [Y1 Y2]. split; [exact Y1|apply Y2]. }
    pose proof (M _ _ _ "linear" mi_d (or_introl eq_refl)) as [Y1 Y2]. pose proof (M _ _ _ "nn" mi_s (or_intror eq_refl)) as [_ Y3]. repeat (apply Forall_cons; [assumption|]). apply Forall_nil. }
  destruct (mx_requested _ x q u di do m' T R) as (z & u' & db & _ & _ & _ & -> & O & M). rewrite X1 in E1, E3. rewrite X2 in E2. apply ok_inj in E1, E2, E3. subst gi go gi'.
  assert (GO : go' = ll_gs \/ go' = ll_go) by (destruct O as [->| ->]; [rewrite X2 in E4; left|rewrite X3 in E4; right]; apply ok_inj in E4; auto).
  destruct GO as [->| ->], M as [->| ->]; first [apply N; vm_compute; reflexivity|vm_compute in E; discriminate E].
Qed.
Lemma xf_dims w : w = xe_args \/ w = xf_args -> input_dims (x_in_dims w) ["time"; "values"] ["values"] /\ x_out_dims w = None /\ output_dims None (g_shape (xe_geo ll_out 2)) ["values"] /\ NoDup ["values"] /\ same_or_apart ["values"] ["values"].
Proof. intros [->| ->]; (split; [split; [exists ["time"]; reflexivity|left; reflexivity]|]; split; [reflexivity|]; split; [left; split; [exists 2%nat; reflexivity|reflexivity]|]; split; [repeat constructor; cbn; tauto|left; tauto]). Qed.
Lemma xf_describable : describable (xe_geo ll_out 2).
Proof. left. split; [exists 2%nat; reflexivity|]. do 2 eexists. split; [reflexivity|]. split; reflexivity. Qed.
Lemma xf_regriddable : regriddable ["values"] ["values"] xe_data.
Proof.
  split; [exact (proj1 xe_ok)|]. split; [intros d [<-|[]]; right; left; reflexivity|]. split; [intros d I [<-|[]]; cbn in I; intuition discriminate|].
  intros d _ S0. cbn in S0. destruct S0 as [S0|[S0|[]]]; discriminate S0.
Qed.
Lemma xf_one_size : one_size xd_set.
Proof. exists (fun d => if String.eqb d "time" then 3%nat else 2%nat). intros n a [E|[E|[]]]; injection E as _ <-; (split; [intros d k S0; cbn in S0; destruct S0 as [S0|[S0|[]]]; injection S0 as <- <-; reflexivity|intros k c []]). Qed.
Lemma xf_sizes sh : Forall2 (sized xe_data) ["values"] sh -> prod sh = n_cols matrix_b.
Proof. intros F. inversion F as [|? k ? l' S0 F']; subst. inversion F'; subst. cbn in S0. destruct S0 as [S0|[S0|[]]]; [discriminate S0|injection S0 as <-]. reflexivity. Qed.

Example C130_answered_used :
  let r := snd (xe_regrid (mx_meets matrix_b) (VStr "linear") (VStr "precomputed") xe_args (XArray xe_data) (mx_after (every_start ++ every_rest))) in
  let ru := snd (xe_regrid (mx_meets matrix_b) (VStr "linear") (VStr "precomputed") xe_args (XSet xd_set) (mx_after (every_start ++ every_rest))) in
  let strict_now := strict (e_mem (p_sys (mx_after (every_start ++ every_rest)))) = true in
  ((exists b, r = Ok (XArray b) /\ sliced xe_cast (applies 0 Z.add Z.mul matrix_b [2%nat]) ["values"] ["values"] [2%nat] xe_data b /\ located (xe_geo ll_out 2) ["values"] (da_coords b)) \/ (r = Raise WeightsTooLarge /\ strict_now)) /\
  ((exists b, ru = Ok (XSet b) /\ Forall2 (fun v v' => fst v' = fst v /\ sliced xe_cast (applies 0 Z.add Z.mul matrix_b [2%nat]) ["values"] ["values"] [2%nat] (snd v) (snd v')) (ds_vars xd_set) (ds_vars b) /\ located (xe_geo ll_out 2) ["values"] (ds_coords b)) \/ (ru = Raise WeightsTooLarge /\ strict_now)) /\
  ~ strict_now.
Proof.
  intros r ru sn. destruct C93_met as (WP & _). destruct C128_sure_met as (SR & AG & _ & SA & E1 & E2 & _).
  destruct (C128_met (mx_values matrix_b "d" "linear")) as (IV & _ & PF & OI & PL & CL & KB & AS & OH & MA & MB & _); [auto|]. destruct (xf_dims _ (or_introl eq_refl)) as (ID & XO & OD & NI & AP).
  split; [|split; [|unfold sn; vm_compute; discriminate]].
  - exact (C130_array_answered xe_cast xe_mir xe_acc (fun _ => VNone) 0 Z.add Z.mul page_parse page_gunzip page_digest page_sha page_npz page_weigh toy_sha "/c" true false toy_ext demo_py COMPARE_KEYS 10 (fun x : Z => x) demo_text
      ll_mir ll_grib ll_values ll_grid ll_with ll_message ll_of_message (mx_files matrix_b) net_site (incl_refl _) (incl_refl _) WP toy_length demo_texts toy_cache_names
      roomy every_start every_rest (mx_meets matrix_b) (FromPath "d") (Here "d") net_list xe_args xe_data "linear" demo_out (xe_geo demo_out 2) ll_out (xe_geo ll_out 2) (end_b None) (end_ll None) demo_values matrix_b ["values"] ["values"]
      (or_introl (conj eq_refl eq_refl)) eq_refl eq_refl eq_refl _ eq_refl IV PF OI PL AG CL KB SR AS (OH _ _) MA MB xd_collides (xd_fitting _ _ _) SA E2 ID XO OD NI AP xf_describable xf_regriddable xf_sizes).
  - refine (C130_set_answered xe_cast xe_mir xe_acc (fun _ => VNone) 0 Z.add Z.mul page_parse page_gunzip page_digest page_sha page_npz page_weigh toy_sha "/c" true false toy_ext demo_py COMPARE_KEYS 10 (fun x : Z => x) demo_text
      ll_mir ll_grib ll_values ll_grid ll_with ll_message ll_of_message (mx_files matrix_b) net_site (incl_refl _) (incl_refl _) WP toy_length demo_texts toy_cache_names
      roomy every_start every_rest (mx_meets matrix_b) (FromPath "d") (Here "d") net_list xe_args xd_set "linear" demo_out (xe_geo demo_out 2) ll_out (xe_geo ll_out 2) (end_b None) (end_ll None) demo_values matrix_b ["values"] ["values"]
      (or_introl (conj eq_refl eq_refl)) eq_refl eq_refl eq_refl _ eq_refl IV PF OI PL AG CL KB SR AS (OH _ _) MA MB xd_collides (xd_fitting _ _ _) SA E2 ID XO OD NI AP xf_describable _ _ xf_one_size _ _).
    + discriminate.
    + cbn. repeat constructor; cbn; intuition discriminate.
    + intros n a [E|[E|[]]]; injection E as _ <-; exact xf_regriddable.
    + intros n a sh [E|[E|[]]]; injection E as _ <-; apply xf_sizes.
Qed.
Example C130_refused_used :
  snd (xe_regrid (mx_meets matrix_b) (VStr "nn") (VStr "precomputed") xf_args (XArray xe_data) (mx_after (every_start ++ every_rest))) = Raise ValueError /\
  snd (xe_regrid (mx_meets matrix_b) (VStr "nn") (VStr "precomputed") xf_args (XSet xd_set) (mx_after (every_start ++ every_rest))) = Raise ValueError.
Proof.
  destruct C93_met as (WP & _). destruct C128_sure_met as (_ & _ & _ & _ & _ & _ & _ & AS & _ & _ & _ & _ & OH & SN & _).
  destruct (C128_met (mx_values matrix_b "d" "linear")) as (_ & IV & _ & _ & _ & CL & KB & _ & _ & MA & MB & _); [auto|]. destruct (xf_dims _ (or_intror eq_refl)) as (ID & XO & OD & NI & AP).
  assert (OI : only_inventory "inventory" (x_rest xf_args) (FromUrl "http://s")) by (apply oi_some, (mx_names _ _ _ mi_s)). assert (PL : placed (FromUrl "http://s") (There "http://s")) by exact (proj2 (mx_names _ _ _ mi_s)).
  split.
  - exact (C130_array_refused xe_cast xe_mir xe_acc (fun _ => VNone) 0 Z.add Z.mul page_parse page_gunzip page_digest page_sha page_npz page_weigh toy_sha "/c" true false toy_ext demo_py COMPARE_KEYS 10 (fun x : Z => x) demo_text
      ll_mir ll_grib ll_values ll_grid ll_with ll_message ll_of_message (mx_files matrix_b) net_site (incl_refl _) (incl_refl _) WP toy_length demo_texts toy_cache_names
      roomy every_start every_rest (mx_meets matrix_b) (FromUrl "http://s") (There "http://s") net_list xf_args xe_data "nn" demo_out (xe_geo demo_out 2) ll_out (xe_geo ll_out 2) (end_b None) (end_ll None) demo_values ["values"] ["values"]
      (or_introl (conj eq_refl eq_refl)) eq_refl eq_refl eq_refl _ eq_refl IV OI PL CL KB AS (OH _ _) MA MB xf_collides SN ID XO OD NI AP xf_describable xf_regriddable).
  - refine (C130_set_refused xe_cast xe_mir xe_acc (fun _ => VNone) 0 Z.add Z.mul page_parse page_gunzip page_digest page_sha page_npz page_weigh toy_sha "/c" true false toy_ext demo_py COMPARE_KEYS 10 (fun x : Z => x) demo_text
      ll_mir ll_grib ll_values ll_grid ll_with ll_message ll_of_message (mx_files matrix_b) net_site (incl_refl _) (incl_refl _) WP toy_length demo_texts toy_cache_names
      roomy every_start every_rest (mx_meets matrix_b) (FromUrl "http://s") (There "http://s") net_list xf_args xd_set "nn" demo_out (xe_geo demo_out 2) ll_out (xe_geo ll_out 2) (end_b None) (end_ll None) demo_values ["values"] ["values"]
      (or_introl (conj eq_refl eq_refl)) eq_refl eq_refl eq_refl _ eq_refl IV OI PL CL KB AS (OH _ _) MA MB xf_collides SN ID XO OD NI AP xf_describable _ _ xf_one_size _).
    + discriminate.
    + cbn. repeat constructor; cbn; intuition discriminate.
    + intros n a [E|[E|[]]]; injection E as _ <-; exact xf_regriddable.
Qed.

Print Assumptions C130_array_partial.
Print Assumptions C130_set_partial.
Print Assumptions C130_array_answered.
Print Assumptions C130_array_refused.
Print Assumptions C130_set_answered.
Print Assumptions C130_set_refused.
