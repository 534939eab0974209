(** C110, C111: regridding xarray objects with the inventories. *)
From Verif Require Import PyBase ListLemmas PyStr Float64 GridSpec GridVocab GridProofs Index IndexSpec IndexProofs IndexProofs2
  Db MemCache MemCacheProofs MemCacheProofs2 Inventory Regrid RegridSpec RegridProofs Props_Regrid System SystemSpec SystemProofs Props_System
  Disk DiskSpec DiskProofs DiskProofs2 Props_Disk Key KeySpec KeyProofs Props_Key CacheFile Props_CacheFile Remote RemoteSpec RemoteProofs RemoteProofs2 RemoteProofs3 RemoteProofs4 Props_Remote
  Dispatch Props_Dispatch Xarray XarraySpec XarrayProofs XarrayProofs2 Props_Xarray
  Api ApiSpec ApiProofs Props_Api ApiTrace ApiRemote Every EverySpec EveryProofs Props_Every XarrayApi.
Set Default Proof Using "Type".
Local Open Scope string_scope.
Local Open Scope list_scope.
Local Open Scope Z_scope.

Lemma Forall2_weaken {X Y} (P Q : X -> Y -> Prop) l m : (forall x y, P x y -> Q x y) -> Forall2 P l m -> Forall2 Q l m.
Proof. intros I. induction 1; constructor; auto. Qed.

Section Any.
  Context {A dtype other S E field : Type}.
  Variable cast : dtype -> A -> A.
  Variable mir_grid : dict -> result (geometry dict).
  Variable accessor : xobj A dtype dict other -> option (option dict).
  Variables (zero : A) (add mul : A -> A -> A).
  Variable find : E -> database -> dict -> dict -> val -> S -> S * result (option (weights A)).
  Variable mir_array : array A -> option dict -> option dict -> dict -> result (array A * dict).
  Variable mir_grib : string -> option dict -> dict -> result string.
  Variable field_values : field -> result (array A).
  Variable field_grid : field -> result (option dict).
  Variable field_with : field -> array A -> dict -> result field.
  Variable field_message : field -> result string.
  Variable message_field : string -> result field.
  Variable grid_val : dict -> val.
  Notation array_regrid := (array_regrid zero add mul find mir_array).
  Notation xarray_regrid := (xarray_regrid cast mir_grid accessor zero add mul find mir_array grid_val).
  Notation pstep := (pstep zero add mul find mir_array mir_grib field_values field_grid field_with field_message message_field).
  Notation pcall := (@pop_call A S E field).
  Notation dataarray := (dataarray A dtype dict other).
  Notation dataset := (dataset A dtype dict other).
  Implicit Types (w : args (spec := dict)) (a : dataarray) (s : api S) (x : E).

  (** The state after public calls. *)
  Definition then_calls s (H : list pcall) : api S := fold_left pstep H s.
  (** array.regrid() called for a slice. *)
  Definition slice_call x (m b : val) (kw : dict) (src grid : dict) (v : array A) : pcall := PArray x v (Some src) (Some grid) m b kw.
  (** The keyword arguments of these calls. *)
  Definition passed (kw : dict) (left : option dict) (kw' : dict) : Prop :=
    (left = None /\ kw' = kw) \/ exists g, left = Some g /\ kw' = kw ++ [("grid_spec", grid_val g)].
  (** Such calls, for an object whose grids are these, deliver arrays of the shape of the target grid,
      which has a dimension for each of those of the output. *)
  Definition delivered s x (m b : val) w (attr : option dict) (acc : option (option dict)) : Prop :=
    forall grid gout out_dims, x_grid w = Some grid -> mir_grid grid = Ok gout -> output_dims (x_out_dims w) (g_shape gout) out_dims ->
      NoDup out_dims /\ List.length out_dims = List.length (g_shape gout) /\
      forall src left gin kw, source attr (x_grid_spec w) acc src left -> mir_grid src = Ok gin -> passed (x_rest w) left kw ->
      forall l v o g, snd (array_regrid x v (Some (g_spec gin)) (Some grid) m b kw (then_calls s (map (slice_call x m b kw (g_spec gin) grid) l))) = Ok (o, g) -> shape o = g_shape gout.

  (** [o] is what array.regrid() returns for [v], one of the slices [l], after those before it. *)
  Definition returned s x m b kw src grid (l : list (array A)) (v o : array A) : Prop :=
    exists before behind out, l = before ++ v :: behind /\
      snd (array_regrid x v (Some src) (Some grid) m b kw (then_calls s (map (slice_call x m b kw src grid) before))) = Ok (o, out).

  Lemma passed_remaining kw left : passed kw left (remaining grid_val kw left).
  Proof. unfold remaining. destruct left as [g|]; [right; exists g; auto|left; split; [reflexivity|apply app_nil_r]]. Qed.
  (** The grid that the last of these calls returns. *)
  Definition last_grid s x m b kw src grid (l : list (array A)) (out : dict) : Prop :=
    (l = [] /\ out = grid) \/ exists before v o, l = before ++ [v] /\
      snd (array_regrid x v (Some src) (Some grid) m b kw (then_calls s (map (slice_call x m b kw src grid) before))) = Ok (o, out).
  Definition trace s x m b kw src grid (l : list (array A)) (st : dict * api S) : Prop :=
    snd st = then_calls s (map (slice_call x m b kw src grid) l) /\ last_grid s x m b kw src grid l (fst st).
  Lemma trace_start s x m b kw src grid : trace s x m b kw src grid [] (grid, s).
  Proof. split; [reflexivity|]. left. split; reflexivity. Qed.
  Lemma method_traced s x m b kw left src grid n :
    (forall l v o g, snd (array_regrid x v (Some src) (Some grid) m b (remaining grid_val kw left) (then_calls s (map (slice_call x m b (remaining grid_val kw left) src grid) l))) = Ok (o, g) -> shape o = n) ->
    forall tr (st : dict * api S) v st' o, trace s x m b (remaining grid_val kw left) src grid tr st ->
    regrid_method (slice_regrid zero add mul find mir_array grid_val x m b) kw left src grid st v = (st', Ok o) ->
    trace s x m b (remaining grid_val kw left) src grid (tr ++ [v]) st' /\
    (shape o = n /\ exists out, snd (array_regrid x v (Some src) (Some grid) m b (remaining grid_val kw left) (then_calls s (map (slice_call x m b (remaining grid_val kw left) src grid) tr))) = Ok (o, out)).
  Proof.
    intros D tr st v st' o [T _] M. unfold regrid_method, slice_regrid in M. rewrite T in M. specialize (D tr v). unfold trace, last_grid.
    rewrite map_app. unfold then_calls at 1. rewrite fold_left_app. fold (then_calls s (map (slice_call x m b (remaining grid_val kw left) src grid) tr)). cbn [map fold_left slice_call Api.pstep].
    destruct (array_regrid x v (Some src) (Some grid) m b (remaining grid_val kw left) _) as [s1 [[r out]|e|]] eqn:AR; [|discriminate M..]. injection M as <- <-. cbn [fst snd] in *. split; [split; [reflexivity|]|split; [exact (D r out eq_refl)|eauto]].
    right. exists tr, v, r. rewrite AR. split; reflexivity.
  Qed.
  (** The coordinates of the result give the points of the grid [out]. *)
  Definition located_on (out : dict) (cs : list (string * coord other)) : Prop :=
    exists g, mir_grid out = Ok g /\ (describable g -> forall ds, output_dims None (g_shape g) ds -> located g ds cs).
  Lemma located_array (g : geometry dict) dc (a c : dataarray) : coords g = Ok dc -> set_coords_array a (snd dc) = Ok c ->
    describable g -> forall ds, output_dims None (g_shape g) ds -> located g ds (da_coords c).
  Proof using.
    clear. intros H8 SC DS od OD. destruct (describable_coords (other := other) g od DS OD) as (ds & cs & CO & LO & KS & _). rewrite H8 in CO. injection CO as ->. cbn [snd] in SC. apply set_coords_array_ok in SC. destruct SC as (_ & _ & _ & _ & E5 & _).
    apply located_lookup with (2 := LO). intros k I. rewrite E5, (lookup_rev2 cs k KS). destruct cs as [|[k1 v1] [|[k2 v2] [|]]]; try discriminate KS. cbn in KS. injection KS as -> ->. cbn in I. destruct I as [<-|[<-|[]]]; reflexivity.
  Qed.
  Lemma located_set (g : geometry dict) dc (a c : dataset) : coords g = Ok dc -> set_coords_ds a (snd dc) = Ok c ->
    describable g -> forall ds, output_dims None (g_shape g) ds -> located g ds (ds_coords c).
  Proof using.
    clear. intros H8 SC DS od OD. destruct (describable_coords (other := other) g od DS OD) as (ds & cs & CO & LO & KS & _). rewrite H8 in CO. injection CO as ->. cbn [snd] in SC. apply set_coords_ds_ok in SC. destruct SC as (_ & _ & E5).
    apply located_lookup with (2 := LO). intros k I. rewrite E5, (lookup_rev2 cs k KS). destruct cs as [|[k1 v1] [|[k2 v2] [|]]]; try discriminate KS. cbn in KS. injection KS as -> ->. cbn in I. destruct I as [<-|[<-|[]]]; reflexivity.
  Qed.
  Lemma sliced_weaken (P Q : array A -> array A -> Prop) ind outd n (a b : dataarray) : (forall v o, P v o -> Q v o) -> sliced cast P ind outd n a b -> sliced cast Q ind outd n a b.
  Proof.
    intros PQ (H1 & H2 & H3 & H4 & H5 & sh & H6 & H7). repeat (split; [assumption|]). exists sh. split; [exact H6|]. intros p Q0. destruct (H7 p Q0) as (v & vals & V1 & V2 & V3). exists v, vals. auto.
  Qed.

  (** ** C110: an xarray call is a sequence of array calls *)
  (** A call for a DataArray does to backends, databases and caches what calls of array.regrid() for its
      slices do, one for each point of the other dimensions, in order; and the result has, at each such
      point, the numbers that the call for the slice there returns.  Its coordinates describe the grid
      that the last call returns. *)
  Theorem C110_array_partial s x m b w a s' r : well_formed a -> delivered s x m b w (da_grid a) (accessor (XArray a)) ->
    (forall in_dims, input_dims (x_in_dims w) (da_dims a) in_dims -> nonempty a in_dims) ->
    xarray_regrid x m b w (XArray a) s = (s', Ok r) ->
    exists c src left gin grid gout in_dims out_dims kw l,
      r = XArray c /\ source (da_grid a) (x_grid_spec w) (accessor (XArray a)) src left /\ mir_grid src = Ok gin /\
      x_grid w = Some grid /\ mir_grid grid = Ok gout /\
      input_dims (x_in_dims w) (da_dims a) in_dims /\ output_dims (x_out_dims w) (g_shape gout) out_dims /\ passed (x_rest w) left kw /\
      s' = then_calls s (map (slice_call x m b kw (g_spec gin) grid) l) /\
      listing a in_dims l /\
      sliced cast (returned s x m b kw (g_spec gin) grid l) in_dims out_dims (g_shape gout) a c /\
      exists out, last_grid s x m b kw (g_spec gin) grid l out /\ located_on out (da_coords c).
  Proof.
    intros W D NE E0. unfold XarrayApi.xarray_regrid in E0. apply parts_in in E0.
    destruct E0 as (src & left & gin & grid & gout & ind & outd & st & o & gnew & dc & H1 & H2 & H3 & H4 & H5 & H6 & H7 & -> & H8 & o' & -> & O & c & SC & ->).
    destruct (D _ _ _ H3 H4 H6) as (ND & L & Sh). unfold one in O. destruct (_ <? _)%nat; [discriminate O|].
    set (kw := remaining grid_val (x_rest w) left) in *.
    destruct (apply_traced cast _ (trace s x m b kw (g_spec gin) grid)
      (fun tr v o => shape o = g_shape gout /\ exists out, snd (array_regrid x v (Some (g_spec gin)) (Some grid) m b kw (then_calls s (map (slice_call x m b kw (g_spec gin) grid) tr))) = Ok (o, out))
      (method_traced s x m b (x_rest w) left (g_spec gin) grid (g_shape gout) (Sh src left gin kw H1 H2 (passed_remaining _ _))) ind outd (excluded ind outd) a [] (grid, s) st o' (g_shape gout) W ND (eq_sym L)) as (l & T & NL & S1 & _).
    - intros tr v o0 [Q0 _]. exact Q0.
    - apply trace_start.
    - exact (NE _ H5).
    - exact O.
    - cbn [app] in T, S1. destruct T as [T LG]. pose proof (located_array _ _ _ _ H8 SC) as LO. apply set_coords_array_ok in SC. destruct SC as (E1 & E2 & E3 & _).
      exists c, src, left, gin, grid, gout, ind, outd, kw, l. split; [reflexivity|]. split; [exact H1|]. split; [exact H2|]. split; [exact H3|]. split; [exact H4|]. split; [exact H5|]. split; [exact H6|].
      split; [apply passed_remaining|]. split; [exact T|]. split; [exact NL|]. split; [|exists (fst st); split; [exact LG|]; exists gnew; split; [exact H7|exact LO]]. apply (sliced_coords cast _ _ _ _ a o' c E1 E2 E3). eapply sliced_weaken; [|exact S1].
      intros v o0 (l1 & l2 & EL & _ & out & Q0). exists l1, l2, out. auto.
  Qed.

  Lemma vars_traced {St} (method : St -> array A -> St * result (array A)) (Tr : list (array A) -> St -> Prop) (call : list (array A) -> array A -> array A -> Prop)
    (traced : forall tr st v st' o, Tr tr st -> method st v = (st', Ok o) -> Tr (tr ++ [v]) st' /\ call tr v o) sh ind outd ex n :
    NoDup outd -> List.length n = List.length outd -> (forall tr v o, call tr v o -> shape o = n) ->
    forall vars (u0 : dataset) st st' u1 tr, NoDup (akeys (ds_vars u0) ++ akeys vars) -> Forall (fun v => well_formed (snd v) /\ nonempty (snd v) ind) vars -> Tr tr st ->
    all_vars cast method sh ind outd ex vars u0 st = (st', Ok u1) ->
    exists ls rs, Tr (tr ++ List.concat ls) st' /\ Forall2 (fun v l => listing (snd v) ind l) vars ls /\ ds_vars u1 = ds_vars u0 ++ rs /\
      Forall2 (fun v r => fst r = fst v /\ sliced cast (fun v o => exists l1 l2, List.concat ls = l1 ++ v :: l2 /\ call (tr ++ l1) v o) ind outd n (snd v) (snd r)) vars rs.
  Proof.
    intros ND L R. induction vars as [|[k a] vars IH]; intros u0 st st' u1 tr N F T E0; cbn [all_vars] in E0.
    - injection E0 as <- <-. exists [], []. cbn [List.concat]. rewrite !app_nil_r. split; [exact T|]. split; [constructor|]. split; [reflexivity|constructor].
    - destruct (one cast method sh ind outd ex a st) as [st1 r] eqn:O. destruct r as [o|e|]; cbn [bind] in E0; [|discriminate E0..].
      destruct (add_var u0 k o) as [u2|e|] eqn:AV; [|discriminate E0..]. apply add_var_ok in AV. destruct AV as [V1 G1].
      inversion F as [|? ? [W NE] F']; subst. cbn [snd] in W, NE. unfold one in O. destruct (_ <? _)%nat; [discriminate O|].
      destruct (apply_traced cast method Tr call traced ind outd ex a tr st st1 o n W ND L R T NE O) as (l1 & T1 & LI & S1 & _).
      assert (NN : ~ In k (akeys (ds_vars u0))). { cbn [akeys] in N. apply NoDup_remove_2 in N. intros I. apply N. apply in_or_app. left. exact I. }
      rewrite (aset_new _ _ _ NN) in V1.
      assert (N1 : NoDup (akeys (ds_vars u2) ++ akeys vars)). { rewrite V1, !akeys_map, map_app, <- app_assoc. cbn. rewrite !akeys_map in N. exact N. }
      destruct (IH u2 st1 st' u1 (tr ++ l1) N1 F' T1 E0) as (ls & rs & T2 & FL & EV & FR).
      exists (l1 :: ls), ((k, o) :: rs). cbn [List.concat]. rewrite app_assoc. split; [exact T2|]. split; [constructor; [exact LI|exact FL]|]. split; [rewrite EV, V1, <- app_assoc; reflexivity|]. constructor.
      + split; [reflexivity|]. cbn [snd]. eapply sliced_weaken; [|exact S1]. intros v o0 (p & q & -> & C). exists p, (q ++ List.concat ls). rewrite <- app_assoc. auto.
      + eapply Forall2_weaken; [|exact FR]. intros v r0 [K S2]. split; [exact K|]. eapply sliced_weaken; [|exact S2]. intros v0 o0 (p & q & EQ & C). rewrite EQ. exists (l1 ++ p), q. rewrite !app_assoc. split; [rewrite <- app_assoc; reflexivity|exact C].
  Qed.
  (** The same for a Dataset: its variables one after the other. *)
  Theorem C110_set_partial s x m b w u s' r : NoDup (akeys (ds_vars u)) -> (forall n a, In (n, a) (ds_vars u) -> well_formed a) -> delivered s x m b w (ds_grid u) (accessor (XSet u)) ->
    (forall in_dims n a, input_dims (x_in_dims w) (ds_sizes u) in_dims -> In (n, a) (ds_vars u) -> nonempty a in_dims) ->
    xarray_regrid x m b w (XSet u) s = (s', Ok r) ->
    exists c src left gin grid gout in_dims out_dims kw ls l,
      r = XSet c /\ source (ds_grid u) (x_grid_spec w) (accessor (XSet u)) src left /\ mir_grid src = Ok gin /\
      x_grid w = Some grid /\ mir_grid grid = Ok gout /\
      input_dims (x_in_dims w) (ds_sizes u) in_dims /\ output_dims (x_out_dims w) (g_shape gout) out_dims /\ passed (x_rest w) left kw /\
      s' = then_calls s (map (slice_call x m b kw (g_spec gin) grid) l) /\
      l = List.concat ls /\ Forall2 (fun v l => listing (snd v) in_dims l) (ds_vars u) ls /\
      Forall2 (fun v v' => fst v' = fst v /\ sliced cast (returned s x m b kw (g_spec gin) grid l) in_dims out_dims (g_shape gout) (snd v) (snd v')) (ds_vars u) (ds_vars c) /\
      exists out, last_grid s x m b kw (g_spec gin) grid l out /\ located_on out (ds_coords c).
  Proof.
    intros NK W D NE E0. unfold XarrayApi.xarray_regrid in E0. apply parts_in in E0.
    destruct E0 as (src & left & gin & grid & gout & ind & outd & st & o & gnew & dc & H1 & H2 & H3 & H4 & H5 & H6 & H7 & -> & H8 & o' & -> & O & c & SC & ->).
    destruct (D _ _ _ H3 H4 H6) as (ND & L & Sh). set (kw := remaining grid_val (x_rest w) left) in *.
    destruct (vars_traced _ (trace s x m b kw (g_spec gin) grid)
      (fun tr v o => shape o = g_shape gout /\ exists out, snd (array_regrid x v (Some (g_spec gin)) (Some grid) m b kw (then_calls s (map (slice_call x m b kw (g_spec gin) grid) tr))) = Ok (o, out))
      (method_traced s x m b (x_rest w) left (g_spec gin) grid (g_shape gout) (Sh src left gin kw H1 H2 (passed_remaining _ _))) (g_shape gout) ind outd (excluded ind outd) (g_shape gout) ND (eq_sym L)
      ltac:(intros tr v o0 [Q0 _]; exact Q0) (ds_vars u) (mkDS [] [] [] None) (grid, s) st o' []) as (ls & rs & T & FL & EV & F).
    - exact NK.
    - apply Forall_forall. intros [n a] I. split; [exact (W n a I)|exact (NE ind n a H5 I)].
    - apply trace_start.
    - exact O.
    - cbn [app ds_vars] in T, EV, F. subst rs. destruct T as [T LG]. pose proof (located_set _ _ _ _ H8 SC) as LO. apply set_coords_ds_ok in SC. destruct SC as (E1 & _ & _).
      exists c, src, left, gin, grid, gout, ind, outd, kw, ls, (List.concat ls). split; [reflexivity|]. split; [exact H1|]. split; [exact H2|]. split; [exact H3|]. split; [exact H4|]. split; [exact H5|]. split; [exact H6|].
      split; [apply passed_remaining|]. split; [exact T|]. split; [reflexivity|]. split; [exact FL|]. split; [|exists (fst st); split; [exact LG|]; exists gnew; split; [exact H7|exact LO]]. rewrite E1. eapply Forall2_weaken; [|exact F]. intros v v' [K S1]. split; [exact K|]. eapply sliced_weaken; [|exact S1].
      intros v0 o0 (l1 & l2 & EL & _ & out & Q0). exists l1, l2, out. auto.
  Qed.

  (** Calls that array.regrid() never answers are not answered either. *)
  Notation pafter := (pafter zero add mul find mir_array mir_grib field_values field_grid field_with field_message message_field).
  Lemma calls_after y0 h (l : list pcall) : then_calls (pafter y0 h) l = pafter y0 (h ++ l).
  Proof. unfold then_calls, Api.pafter. rewrite fold_left_app. reflexivity. Qed.
  Lemma no_point P ind outd n (a b : dataarray) : nonempty a ind -> sliced cast P ind outd n a b -> exists v o, P v o.
  Proof.
    intros NE (_ & _ & _ & _ & _ & sh & _ & K). destruct (K (fun _ => 0%nat)) as (v & vals & _ & C & _); [|eauto].
    intros d k I S0. destruct k as [|k]; [destruct (NE d I S0)|apply Nat.lt_0_succ].
  Qed.
  Definition distinct_out (w : args (spec := dict)) : Prop := forall out_dims, x_out_dims w = Some (DList out_dims) \/ x_out_dims w = Some (DTuple out_dims) -> NoDup out_dims.
  Lemma distinct_dims w sh ds : distinct_out w -> output_dims (x_out_dims w) sh ds -> NoDup ds.
  Proof using.
    clear. intros D. unfold output_dims. destruct (x_out_dims w) as [[d|l|l]|] eqn:O.
    - intros ->. constructor; [intros []|constructor].
    - intros ->. exact (D l (or_introl O)).
    - intros ->. exact (D l (or_intror O)).
    - intros [[_ ->]|[_ ->]]; repeat constructor; cbn; intuition discriminate.
  Qed.
  Lemma never y0 h x m b w (v : xobj A dtype dict other) src left gin grid :
    source (attr_of v) (x_grid_spec w) (accessor v) src left -> mir_grid src = Ok gin -> x_grid w = Some grid -> distinct_out w ->
    (forall h' v r, snd (array_regrid x v (Some (g_spec gin)) (Some grid) m b (remaining grid_val (x_rest w) left) (pafter y0 h')) <> Ok r) ->
    match v with
    | XArray a => well_formed a /\ forall in_dims, input_dims (x_in_dims w) (da_dims a) in_dims -> nonempty a in_dims
    | XSet u => NoDup (akeys (ds_vars u)) /\ ds_vars u <> [] /\
        forall n a, In (n, a) (ds_vars u) -> well_formed a /\ forall in_dims, input_dims (x_in_dims w) (ds_sizes u) in_dims -> nonempty a in_dims
    end ->
    forall r, snd (xarray_regrid x m b w v (pafter y0 h)) <> Ok r.
  Proof.
    intros SO GI XG DO NV HV r Q0. destruct (xarray_regrid x m b w v (pafter y0 h)) as [s' r0] eqn:X. cbn [snd] in Q0. subst r0. unfold XarrayApi.xarray_regrid in X. apply parts_in in X.
    destruct X as (src' & left' & gin' & grid' & gout & ind & outd & st & o & gnew & dc & H1 & H2 & H3 & H4 & H5 & H6 & H7 & -> & H8 & H9).
    assert (EQ : src' = src /\ left' = left).
    { destruct SO as [[S1 S2]|[(S1 & S2 & S3)|(S1 & S2 & S3 & S4)]], H1 as [[T1 T2]|[(T1 & T2 & T3)|(T1 & T2 & T3 & T4)]]; split; congruence. }
    destruct EQ as [-> ->]. rewrite GI in H2. injection H2 as <-. rewrite XG in H3. injection H3 as <-.
    pose proof (distinct_dims w _ _ DO H6) as ND. set (kw := remaining grid_val (x_rest w) left) in *.
    assert (MT : forall tr (st : dict * api S) v st' o, snd st = then_calls (pafter y0 h) (map (slice_call x m b kw (g_spec gin) grid) tr) ->
      regrid_method (slice_regrid zero add mul find mir_array grid_val x m b) (x_rest w) left (g_spec gin) grid st v = (st', Ok o) ->
      snd st' = then_calls (pafter y0 h) (map (slice_call x m b kw (g_spec gin) grid) (tr ++ [v])) /\ False).
    { intros tr st0 v0 st1 o0 T M. exfalso. unfold regrid_method, slice_regrid in M. rewrite T, calls_after in M. fold kw in M.
      specialize (NV (h ++ map (slice_call x m b kw (g_spec gin) grid) tr) v0). destruct (array_regrid x v0 _ _ m b kw _) as [s2 [p|e|]]; [|discriminate M..]. exact (NV p eq_refl). }
    assert (LN : List.length (map (fun _ : string => 0%nat) outd) = List.length outd) by apply map_length.
    assert (NF : forall (tr : list (array A)) (v o : array A), False -> shape o = map (fun _ : string => 0%nat) outd) by (intros ? ? ? []).
    destruct v as [a|u].
    - destruct HV as [W NE]. destruct H9 as (o' & -> & O & _). unfold one in O. destruct (_ <? _)%nat; [discriminate O|].
      destruct (apply_traced cast _ (fun tr (st : dict * api S) => snd st = then_calls (pafter y0 h) (map (slice_call x m b kw (g_spec gin) grid) tr)) (fun _ _ _ => False) MT
        ind outd (excluded ind outd) a [] (grid, pafter y0 h) st o' _ W ND LN NF eq_refl (NE _ H5) O) as (l & _ & _ & S1 & _).
      destruct (no_point _ _ _ _ _ _ (NE _ H5) S1) as (v & o & _ & _ & _ & []).
    - destruct HV as (NK & NN & HV). destruct H9 as (o' & -> & O & _).
      destruct (vars_traced _ (fun tr (st : dict * api S) => snd st = then_calls (pafter y0 h) (map (slice_call x m b kw (g_spec gin) grid) tr)) (fun _ _ _ => False) MT
        (g_shape gout) ind outd (excluded ind outd) _ ND LN NF (ds_vars u) (mkDS [] [] [] None) (grid, pafter y0 h) st o' [] NK) as (ls & rs & _ & _ & _ & F).
      + apply Forall_forall. intros [n a] I. destruct (HV n a I) as [W NE]. split; [exact W|exact (NE ind H5)].
      + reflexivity.
      + exact O.
      + destruct (ds_vars u) as [|[n a] vars] eqn:V; [congruence|]. inversion F as [|? ? ? ? [_ S1] _]; subst. destruct (HV n a (or_introl eq_refl)) as [_ NE]. destruct (no_point _ _ _ _ _ _ (NE _ H5) S1) as (v & o & _ & _ & _ & []).
  Qed.
  (** grid_spec given for an object that has a grid: it is passed on and the precomputed backend does not
      take it, so that no such call is answered. *)
  Theorem C110_left_refuted y0 h x m w (v : xobj A dtype dict other) g g' :
    attr_of v = Some g -> x_grid_spec w = Some g' -> python_kwargs (x_rest w) -> ~ In "grid_spec" (akeys (x_rest w)) -> distinct_out w ->
    match v with
    | XArray a => well_formed a /\ forall in_dims, input_dims (x_in_dims w) (da_dims a) in_dims -> nonempty a in_dims
    | XSet u => NoDup (akeys (ds_vars u)) /\ ds_vars u <> [] /\
        forall n a, In (n, a) (ds_vars u) -> well_formed a /\ forall in_dims, input_dims (x_in_dims w) (ds_sizes u) in_dims -> nonempty a in_dims
    end ->
    forall r, snd (xarray_regrid x m (VStr "precomputed") w v (pafter y0 h)) <> Ok r.
  Proof.
    intros AT GS (P1 & P2 & P3) NG DO HV r Q0. assert (X := surjective_pairing (xarray_regrid x m (VStr "precomputed") w v (pafter y0 h))). rewrite Q0 in X. unfold XarrayApi.xarray_regrid in X. apply parts_in in X.
    destruct X as (src & left & gin & grid & gout & ind & outd & st & o & gnew & dc & H1 & H2 & H3 & _).
    assert (SO : source (attr_of v) (x_grid_spec w) (accessor v) g (Some g')) by (left; auto).
    assert (src = g) as ->. { destruct H1 as [[S1 S2]|[(S1 & S2 & S3)|(S1 & S2 & S3 & S4)]]; congruence. }
    refine (never y0 h x m (VStr "precomputed") w v g (Some g') gin grid SO H2 H3 DO _ HV r Q0). intros h' v0 p.
    refine (proj2 (C99_option_refused zero add mul find mir_array mir_grib field_values field_grid field_with field_message message_field y0 h' x v0 _ _ m _ "grid_spec" _ _ _) p).
    - unfold remaining. split; [|split; rewrite akeys_map, map_app, in_app_iff; cbn; rewrite <- akeys_map; intros [I|[I|[]]]; solve [contradiction|discriminate I]].
      rewrite akeys_map, map_app. cbn. rewrite <- akeys_map. apply NoDup_rev in P1. rewrite <- (rev_involutive (_ ++ _)). apply NoDup_rev. rewrite rev_app_distr. cbn. constructor; [rewrite <- in_rev; exact NG|exact P1].
    - unfold remaining. rewrite akeys_map, map_app. apply in_or_app. right. left. reflexivity.
    - discriminate.
  Qed.
End Any.
