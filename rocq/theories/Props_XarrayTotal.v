(** C130: when calls for xarray objects return. *)
From Verif Require Import PyBase ListLemmas PyStr Float64 GridSpec GridVocab GridProofs Index IndexSpec IndexProofs IndexProofs2
  Db MemCache MemCacheProofs MemCacheProofs2 Inventory Regrid RegridSpec RegridProofs Props_Regrid System SystemSpec SystemProofs Props_System
  Disk DiskSpec DiskProofs DiskProofs2 Props_Disk Key KeySpec KeyProofs Props_Key CacheFile Props_CacheFile Remote RemoteSpec RemoteProofs RemoteProofs2 RemoteProofs3 RemoteProofs4 Props_Remote
  Dispatch Props_Dispatch Xarray XarraySpec XarrayProofs XarrayProofs2 Props_Xarray
  Api ApiSpec ApiProofs Props_Api ApiTrace ApiRemote Every EverySpec EveryProofs Props_Every XarrayApi Props_XarrayApi XarrayTotal.
Set Default Proof Using "Type".
Local Open Scope string_scope.
Local Open Scope list_scope.
Local Open Scope Z_scope.

Section Any.
  Context {A dtype other S E field : Type}.
  Variable cast : dtype -> A -> A.
  Variable mir_grid : dict -> result (geometry dict).
  Variable accessor : xobj A dtype dict other -> option (option dict).
  Variables (zero : A) (add mul : A -> A -> A).
  Variable find : E -> database -> dict -> dict -> val -> S -> S * result (option (weights A)).
  Variable mir_array : array A -> option dict -> option dict -> dict -> result (array A * dict).
  Variable mir_grib : string -> option dict -> dict -> result string.
  Variable field_values : field -> result (array A).
  Variable field_grid : field -> result (option dict).
  Variable field_with : field -> array A -> dict -> result field.
  Variable field_message : field -> result string.
  Variable message_field : string -> result field.
  Variable grid_val : dict -> val.
  Notation array_regrid := (array_regrid zero add mul find mir_array).
  Notation xarray_regrid := (xarray_regrid cast mir_grid accessor zero add mul find mir_array grid_val).
  Notation then_calls := (then_calls zero add mul find mir_array mir_grib field_values field_grid field_with field_message message_field).
  Notation slice_call := (@slice_call A S E field).
  Notation passed := (passed grid_val).
  Notation trace := (trace zero add mul find mir_array mir_grib field_values field_grid field_with field_message message_field).
  Notation dataarray := (dataarray A dtype dict other).
  Notation dataset := (dataset A dtype dict other).
  Implicit Types (w : args (spec := dict)) (a : dataarray) (u : dataset) (s : api S) (x : E).

  (** A call for an array of this shape, after any such calls, returns or raises one of [P]; what is
      returned has the shape of the target grid, and the grid returned is [gnew]. *)
  Definition answerable s x (m b : val) (kw : dict) (src grid : dict) (gout gnew : geometry dict) (P : exn -> Prop) (good : list nat -> Prop) : Prop :=
    forall l v, let r := snd (array_regrid x v (Some src) (Some grid) m b kw (then_calls s (map (slice_call x m b kw src grid) l))) in
      (good (shape v) -> (exists p, r = Ok p) \/ exists e, r = Raise e /\ P e) /\
      forall o out, r = Ok (o, out) -> shape o = g_shape gout /\ mir_grid out = Ok gnew.
  (** The dimensions of the input and of the output are the same or have none in common. *)
  Definition same_or_apart (i o : list string) : Prop := (forall d, In d i <-> In d o) \/ (forall d, In d i -> ~ In d o).
  (** The array has the dimensions of the input, other ones do not have size zero nor names of those of
      the output. *)
  Definition regriddable (i o : list string) a : Prop :=
    well_formed a /\ incl i (da_dims a) /\ (forall d, In d (others a i) -> ~ In d o) /\ nonempty a i.
  (** Names that are not those of arguments in the code (xarray.py:299). *)
  Definition plain_names (kw : dict) : Prop := forall k, In k ["in_grid"; "out_grid"; "self"] -> ~ In k (akeys kw).
  (** Each dimension has one size in the variables and their coordinates. *)
  Definition one_size u : Prop := exists f : string -> nat,
    forall n a, In (n, a) (ds_vars u) -> (forall d k, sized a d k -> f d = k) /\
      forall k c, In (k, c) (da_coords a) -> incl (c_dims c) (da_dims a) /\ forall d i, In (d, i) (combine (c_dims c) (shape (c_data c))) -> f d = i.

  Lemma plain_lookup kw : plain_names kw -> amem "in_grid" kw || amem "out_grid" kw || amem "self" kw = false.
  Proof.
    intros H. assert (K : forall k, In k ["in_grid"; "out_grid"; "self"] -> amem k kw = false).
    { intros k I. unfold amem. destruct (alookup k kw) as [v|] eqn:AL; [|reflexivity]. destruct (H k I). apply lookup_in in AL. rewrite akeys_map. exact (in_map fst _ _ AL). }
    rewrite !K by (cbn; auto). reflexivity.
  Qed.
  Lemma excluded_both i o : same_or_apart i o -> forall d, In d o -> In d i -> In d (excluded i o).
  Proof.
    intros [H|H] d O I; [|destruct (H d I O)]. unfold excluded, same_set. rewrite (proj2 (forallb_forall _ _)), (proj2 (forallb_forall _ _)); [exact I|..]; intros y Y; apply mem_in, H, Y.
  Qed.
  Lemma in_dims_back (given : option dimarg) dims ds : input_dims given dims ds -> match given with Some d => Ok (ensure_list d) | None => xr_geo_dims dims end = Ok ds.
  Proof. destruct given as [[d|l|l]|]; [intros ->; reflexivity..|]. apply in_dims_some. Qed.
  Lemma describable_out (g : geometry dict) : describable g -> exists ds, output_dims None (g_shape g) ds /\ NoDup ds /\ List.length (g_shape g) = List.length ds.
  Proof.
    clear. intros [[(n & ->) _]|(r & c & -> & _)]; cbn; [exists ["values"]|exists ["latitude"; "longitude"]]; (split; [eauto 8|split; [repeat constructor; cbn; intuition discriminate|reflexivity]]).
  Qed.
  Lemma out_one (g : geometry dict) ds ds' : output_dims None (g_shape g) ds -> output_dims None (g_shape g) ds' -> ds = ds'.
  Proof. intros H1 H2. apply out_dims_some in H1, H2. congruence. Qed.

  Section Call.
    Variables (s : api S) (x : E) (m b : val) (w : args (spec := dict)) (v : xobj A dtype dict other) (src : dict) (left : option dict) (gin : geometry dict) (grid : dict) (gout gnew : geometry dict)
      (in_dims out_dims : list string) (kw : dict) (P : exn -> Prop) (good : list nat -> Prop).
    Hypotheses (SO : source (attr_of v) (x_grid_spec w) (accessor v) src left) (GI : mir_grid src = Ok gin) (XG : x_grid w = Some grid) (GO : mir_grid grid = Ok gout).
    Hypotheses (ID : input_dims (x_in_dims w) (dims_of v) in_dims) (XO : x_out_dims w = None) (OD : output_dims None (g_shape gout) out_dims) (NI : NoDup in_dims) (SA : same_or_apart in_dims out_dims).
    Hypotheses (PS : passed (x_rest w) left kw) (PN : plain_names (x_rest w)) (DS : describable gnew) (SH : g_shape gnew = g_shape gout).
    Hypothesis AN : answerable s x m b kw (g_spec gin) grid gout gnew P good.
    Notation method := (regrid_method (slice_regrid zero add mul find mir_array grid_val x m b) (x_rest w) left (g_spec gin) grid).
    Notation Tr := (trace s x m b kw (g_spec gin) grid).
    Lemma kw_remaining : kw = remaining grid_val (x_rest w) left.
    Proof using PS. clear - PS. unfold remaining. destruct PS as [[-> ->]|(g & -> & ->)]; [symmetry; apply app_nil_r|reflexivity]. Qed.
    Lemma out_facts : NoDup out_dims /\ List.length (g_shape gout) = List.length out_dims.
    Proof using DS SH OD. clear - DS SH OD. destruct (describable_out gnew DS) as (ds & O & N & L). rewrite SH in O, L. rewrite <- (out_one gout _ _ OD O) in *. auto. Qed.
    Lemma prepared : prepare mir_grid accessor w v = Ok (mkPlan left gin grid gout in_dims out_dims).
    Proof using SO GI XG GO ID XO OD PN.
      unfold prepare. rewrite (source_back _ _ _ _ _ SO). cbn [bind fst snd]. rewrite GI. cbn [bind]. rewrite XG. cbn [bind]. rewrite GO. cbn [bind]. rewrite (in_dims_back _ _ _ ID), XO, (out_dims_some _ _ OD). cbn [bind]. rewrite (plain_lookup _ PN). reflexivity.
    Qed.
    Lemma call_traced tr (st : dict * api S) y st' o : Tr tr st -> method st y = (st', Ok o) -> Tr (tr ++ [y]) st' /\ shape o = g_shape gout.
    Proof using PS AN.
      intros T M. rewrite kw_remaining in *. destruct (method_traced zero add mul find mir_array mir_grib field_values field_grid field_with field_message message_field grid_val s x m b (x_rest w) left (g_spec gin) grid (g_shape gout)) with (2 := T) (3 := M) as (T' & S' & _); [|auto].
      intros l y0 o0 g Q. exact (proj1 (proj2 (AN l y0) o0 g Q)).
    Qed.
    Lemma call_fate tr (st : dict * api S) y : Tr tr st -> good (shape y) -> (exists st' o, method st y = (st', Ok o)) \/ exists st' e, method st y = (st', Raise e) /\ P e.
    Proof using PS AN.
      intros [T _] GD. unfold regrid_method, slice_regrid. rewrite T, <- kw_remaining. destruct (AN tr y) as [K _]. specialize (K GD).
      destruct (array_regrid x y _ _ m b kw _) as [s1 [[o out]|e|]]; cbn [snd] in K; [left; eauto|destruct K as [(p & K)|(e' & K & PE)]; [discriminate K|injection K as <-; right; eauto]|destruct K as [(p & K)|(e' & K & _)]; discriminate K].
    Qed.
    Lemma last_new tr (st : dict * api S) : tr <> [] -> Tr tr st -> mir_grid (fst st) = Ok gnew.
    Proof using AN.
      intros NE [_ [[E0 _]|(before & y & o & _ & Q)]]; [destruct (NE E0)|]. exact (proj2 (proj2 (AN before y) o _ Q)).
    Qed.
    Lemma listing_some a l : regriddable in_dims out_dims a -> listing a in_dims l -> l <> [].
    Proof.
      intros (W & _ & _ & NE) (sh & core & F & _ & L & _) ->. cbn in L. assert (X : exists d, In d (others a in_dims) /\ sized a d 0%nat).
      { clear - F L. induction F as [|d k ds sh H F IH]; [discriminate L|]. cbn in L. symmetry in L. apply Nat.eq_mul_0 in L. destruct L as [->|L]; [exists d; split; [left; reflexivity|exact H]|].
        destruct (IH (eq_sym L)) as (d' & I & S0). exists d'. split; [right; exact I|exact S0]. }
      destruct X as (d & I & S0). exact (NE d I S0).
    Qed.
  End Call.

  (** ** C130 *)
  (** A call for a DataArray returns if calls for its slices do, and otherwise raises what one of them
      raises. *)
  Theorem C130_array_partial s x m b w a src left gin grid gout gnew in_dims out_dims kw P :
    source (da_grid a) (x_grid_spec w) (accessor (XArray a)) src left -> mir_grid src = Ok gin -> x_grid w = Some grid -> mir_grid grid = Ok gout ->
    input_dims (x_in_dims w) (da_dims a) in_dims -> x_out_dims w = None -> output_dims None (g_shape gout) out_dims -> NoDup in_dims -> same_or_apart in_dims out_dims ->
    passed (x_rest w) left kw -> plain_names (x_rest w) -> describable gnew -> g_shape gnew = g_shape gout ->
    regriddable in_dims out_dims a ->
    answerable s x m b kw (g_spec gin) grid gout gnew P (Forall2 (sized a) in_dims) ->
    let r := snd (xarray_regrid x m b w (XArray a) s) in (exists c, r = Ok (XArray c)) \/ exists e, r = Raise e /\ P e.
  Proof.
    intros SO GI XG GO ID XO OD NI SA PS PN DS SH RG AN r. subst r. destruct (out_facts gout gnew out_dims OD DS SH) as [ND L].
    unfold XarrayApi.xarray_regrid, regrid_object. rewrite (prepared w (XArray a) src left gin grid gout in_dims out_dims SO GI XG GO ID XO OD PN). unfold regrid_all. cbn [n_left n_in n_grid n_out n_in_dims n_out_dims].
    fold (same_set in_dims out_dims). fold (excluded in_dims out_dims). cbv zeta. unfold one. rewrite L, Nat.ltb_irrefl.
    destruct RG as (W & I1 & DJ & NZ). pose proof (call_traced s x m b w left gin grid gout gnew kw P _ PS AN) as TR.
    assert (SU : suits (Forall2 (sized a) in_dims) in_dims out_dims a) by (split; [exact W|]; auto).
    destruct (apply_fate cast _ _ _ TR (g_shape gout) (fun _ _ _ Q => Q) P (Forall2 (sized a) in_dims) (call_fate s x m b w left gin grid gout gnew kw P _ PS AN) in_dims out_dims (excluded in_dims out_dims) L NI
      (excluded_both _ _ SA) a [] (grid, s) SU (trace_start zero add mul find mir_array mir_grib field_values field_grid field_with field_message message_field s x m b kw (g_spec gin) grid)) as [(st & o & AP)|(st & e & AP & PE)];
      rewrite AP; cbn [bind fst snd]; [left|right; eauto].
    destruct (apply_traced cast _ _ _ TR in_dims out_dims (excluded in_dims out_dims) a [] (grid, s) st o (g_shape gout) W ND L (fun _ _ _ Q => Q)
      (trace_start zero add mul find mir_array mir_grib field_values field_grid field_with field_message message_field s x m b kw (g_spec gin) grid) NZ AP) as (l & T & LI & (_ & _ & WO & _ & SZ & _) & _).
    unfold finish. rewrite (last_new s x m b gin grid gout gnew kw P _ AN _ _ (listing_some in_dims out_dims a l (conj W (conj I1 (conj DJ NZ))) LI) T). cbn [bind].
    rewrite <- SH in OD. destruct (describable_coords (other := other) gnew out_dims DS OD) as (ds & cs & CO & _ & _ & F). rewrite CO. cbn [bind snd].
    destruct (set_coords_array_total cs o) as (c & SC).
    { apply Forall_forall. intros [d k] I. cbn [snd]. unfold fits. apply forallb_forall. intros [d' k'] J. cbn [fst snd]. specialize (F d k (d', k') I J). rewrite SH in F.
      assert (SD : sized o d' k'). { clear - SZ F. induction SZ as [|y y' l l' H SZ IH]; [destruct F|]. destruct F as [F|F]; [injection F as -> ->; exact H|auto]. }
      unfold sizes_of. rewrite (in_lookup _ _ _ _ (proj1 WO) SD). apply Nat.eqb_refl. }
    rewrite SC. cbn [bind]. eauto.
  Qed.
  (** For a Dataset: if calls for the slices of all variables do. *)
  Theorem C130_set_partial s x m b w u src left gin grid gout gnew in_dims out_dims kw P :
    source (ds_grid u) (x_grid_spec w) (accessor (XSet u)) src left -> mir_grid src = Ok gin -> x_grid w = Some grid -> mir_grid grid = Ok gout ->
    input_dims (x_in_dims w) (ds_sizes u) in_dims -> x_out_dims w = None -> output_dims None (g_shape gout) out_dims -> NoDup in_dims -> same_or_apart in_dims out_dims ->
    passed (x_rest w) left kw -> plain_names (x_rest w) -> describable gnew -> g_shape gnew = g_shape gout ->
    ds_vars u <> [] -> NoDup (akeys (ds_vars u)) -> one_size u -> (forall n a, In (n, a) (ds_vars u) -> regriddable in_dims out_dims a) ->
    answerable s x m b kw (g_spec gin) grid gout gnew P (fun sh => exists n a, In (n, a) (ds_vars u) /\ Forall2 (sized a) in_dims sh) ->
    let r := snd (xarray_regrid x m b w (XSet u) s) in (exists c, r = Ok (XSet c)) \/ exists e, r = Raise e /\ P e.
  Proof.
    intros SO GI XG GO ID XO OD NI SA PS PN DS SH NV NK (f & OS) RG AN r. subst r. destruct (out_facts gout gnew out_dims OD DS SH) as [ND L].
    unfold XarrayApi.xarray_regrid, regrid_object. rewrite (prepared w (XSet u) src left gin grid gout in_dims out_dims SO GI XG GO ID XO OD PN). unfold regrid_all. cbn [n_left n_in n_grid n_out n_in_dims n_out_dims].
    fold (same_set in_dims out_dims). fold (excluded in_dims out_dims). cbv zeta.
    set (good := fun sh => exists n a, In (n, a) (ds_vars u) /\ Forall2 (sized a) in_dims sh) in *.
    pose proof (call_traced s x m b w left gin grid gout gnew kw P _ PS AN) as TR.
    pose proof (trace_start zero add mul find mir_array mir_grib field_values field_grid field_with field_message message_field s x m b kw (g_spec gin) grid) as T0.
    destruct (vars_fate cast _ _ _ TR (g_shape gout) (fun _ _ _ Q => Q) P good (call_fate s x m b w left gin grid gout gnew kw P _ PS AN) in_dims out_dims (excluded in_dims out_dims) L ND NI
      (excluded_both _ _ SA) f (g_shape gout) (ds_vars u) L) with (s := mkDS (A := A) (dtype := dtype) (spec := dict) (other := other) [] [] [] None) (2 := T0) as [(st & o & AV & AG)|(st & e & AV & PE)].
    - apply Forall_forall. intros [n a] I. cbn [snd]. destruct (RG n a I) as (W & I1 & DJ & NZ), (OS n a I) as [O1 O2]. split; [split; [exact W|]; split; [exact I1|]; split; [exact DJ|]; split; [exact NZ|]|].
      + intros sh Q. exists n, a. auto.
      + split; [split; [exact O1|]|]; intros k c J; destruct (O2 k c J) as [X1 X2]; assumption.
    - intros d k [].
    - left. rewrite AV. cbn [bind fst snd]. unfold finish.
      destruct (vars_traced cast _ _ _ TR (g_shape gout) in_dims out_dims (excluded in_dims out_dims) (g_shape gout) ND L (fun _ _ _ Q => Q) (ds_vars u) (mkDS [] [] [] None) (grid, s) st o [] NK) as (ls & rs & T & FL & _); [|exact T0|exact AV|].
      { apply Forall_forall. intros [n a] I. destruct (RG n a I) as (W & _ & _ & NZ). auto. }
      assert (NL : List.concat ls <> []).
      { destruct (ds_vars u) as [|[n a] vars] eqn:V; [destruct (NV eq_refl)|]. inversion FL as [|? l1 ? ls' LI _]; subst. cbn [snd] in LI. pose proof (listing_some in_dims out_dims a l1 (RG n a (or_introl eq_refl)) LI) as N1.
        cbn. destruct l1; [destruct (N1 eq_refl)|discriminate]. }
      rewrite (last_new s x m b gin grid gout gnew kw P _ AN _ _ NL T). cbn [bind].
      rewrite <- SH in OD. destruct (describable_coords (other := other) gnew out_dims DS OD) as (ds & cs & CO & _ & _ & F). rewrite CO. cbn [bind snd].
      assert (CS : forall k c, In (k, c) cs -> agrees (after_sizes (g_shape gout) out_dims f) (coord_sizes c)).
      { intros k c I d i J. specialize (F k c (d, i) I J). rewrite SH in F. exact (after_in (g_shape gout) out_dims ND f d i F). }
      destruct (set_coords_ds_total _ cs CS o AG) as (c & SC). rewrite SC. cbn [bind]. eauto.
    - right. rewrite AV. cbn [bind fst snd]. eauto.
  Qed.
End Any.
