(** C94-C97: regridding xarray objects. *)
From Coq Require Import QArith.
From Verif Require Import PyBase ListLemmas PyStr Float64 GridSpec GridProofs Regrid RegridSpec RegridProofs Dispatch Props_Dispatch Xarray XarraySpec XarrayProofs XarrayProofs2.
Set Default Proof Using "Type".
Local Open Scope string_scope.
Local Open Scope list_scope.
Local Open Scope nat_scope.

Section Parts.
  Context {A dtype spec other St : Type}.
  Variable cast : dtype -> A -> A.
  Variable mir_grid : spec -> result (geometry spec).
  Variable accessor : xobj A dtype spec other -> option (option spec).
  Variable backend : dict -> option spec -> spec -> spec -> array A -> St -> St * result (array A * spec).
  Implicit Types (x : args (spec := spec)).
  Lemma in_dims_ok given dims ds : match given with Some d => Ok (ensure_list d) | None => xr_geo_dims dims end = Ok ds -> input_dims given dims ds.
  Proof.
    destruct given as [[d|l|l]|]; intros E; try (injection E as <-; reflexivity). cbn.
    unfold xr_geo_dims in E. destruct (rev dims) as [|y [|z l]] eqn:R; [discriminate E|..].
    - destruct (String.eqb_spec y "values") as [->|]; [|discriminate E]. injection E as <-. split; [|left; reflexivity]. exists []. apply (f_equal (@rev string)) in R. rewrite rev_involutive in R. exact R.
    - apply (f_equal (@rev string)) in R. rewrite rev_involutive in R. cbn [rev] in R. destruct (String.eqb_spec y "values") as [->|]; [injection E as <-; split; [exists (rev l ++ [z]); exact R|left; reflexivity]|].
      destruct (String.eqb_spec z "latitude") as [->|]; [|discriminate E]. destruct (String.eqb_spec y "longitude") as [->|]; [|discriminate E]. injection E as <-.
      split; [|right; reflexivity]. exists (rev l). rewrite R, <- app_assoc. reflexivity.
  Qed.
  Lemma out_dims_ok given (g : geometry spec) ds : match given with Some d => Ok (ensure_list d) | None => geo_dims g end = Ok ds -> output_dims given (g_shape g) ds.
  Proof.
    destruct given as [[d|l|l]|]; intros E; try (injection E as <-; reflexivity). cbn. unfold geo_dims in E. destruct (g_shape g) as [|n [|m l]]; [discriminate E|..]; injection E as <-; [left|right]; eauto 6.
  Qed.
  Lemma source_ok attr given acc src (left : option spec) : get_in_grid spec attr given acc = Ok (src, left) -> source attr given acc src left.
  Proof. unfold get_in_grid, source. destruct attr; [intros H; inversion H; auto|]. destruct given; [intros H; inversion H; subst; right; left; auto|]. destruct acc as [[y|]|]; intros H; inversion H; subst; right; right; auto. Qed.
  Definition same_set (l m : list string) : bool := forallb (fun d => mem d m) l && forallb (fun d => mem d l) m.
  Definition excluded (l m : list string) : list string := if same_set l m then l else [].
  (** What a call does before the variables are regridded and after. *)
  Lemma parts_in x v s s1 r : regrid_object cast mir_grid accessor backend x v s = (s1, Ok r) ->
    exists src left gin grid gout in_dims out_dims st o gnew dc,
      source (attr_of v) (x_grid_spec x) (accessor v) src left /\ mir_grid src = Ok gin /\ x_grid x = Some grid /\ mir_grid grid = Ok gout /\
      input_dims (x_in_dims x) (dims_of v) in_dims /\ output_dims (x_out_dims x) (g_shape gout) out_dims /\
      mir_grid (fst st) = Ok gnew /\ s1 = snd st /\ coords gnew = Ok dc /\
      let m := regrid_method backend (x_rest x) left (g_spec gin) grid in
      match v with
      | XArray a => exists o', o = XArray o' /\ one cast m (g_shape gout) in_dims out_dims (excluded in_dims out_dims) a (grid, s) = (st, Ok o') /\ exists b, set_coords_array o' (snd dc) = Ok b /\ r = XArray b
      | XSet u => exists o', o = XSet o' /\ all_vars cast m (g_shape gout) in_dims out_dims (excluded in_dims out_dims) (ds_vars u) (mkDS [] [] [] None) (grid, s) = (st, Ok o') /\ exists s', set_coords_ds o' (snd dc) = Ok s' /\ r = XSet s'
      end.
  Proof.
    unfold regrid_object, prepare. destruct (get_in_grid spec (attr_of v) (x_grid_spec x) (accessor v)) as [[src left]|e|] eqn:G; [|discriminate..]. cbn [bind fst snd].
    destruct (mir_grid src) as [gin|e|] eqn:GI; [|discriminate..]. cbn [bind]. destruct (x_grid x) as [grid|] eqn:XG; [|discriminate]. cbn [bind].
    destruct (mir_grid grid) as [gout|e|] eqn:GO; [|discriminate..]. cbn [bind].
    match goal with |- context [bind ?c _] => destruct c as [in_dims|e|] eqn:ID; [|discriminate..] end. cbn [bind].
    match goal with |- context [bind ?c _] => destruct c as [out_dims|e|] eqn:OD; [|discriminate..] end. cbn [bind].
    apply in_dims_ok in ID. apply out_dims_ok in OD. destruct (_ || _); [discriminate|]. unfold regrid_all. cbn [n_left n_in n_grid n_out n_in_dims n_out_dims]. fold (same_set in_dims out_dims). fold (excluded in_dims out_dims). cbv zeta.
    set (m := regrid_method backend (x_rest x) left (g_spec gin) grid).
    destruct v as [a|u].
    - destruct (one cast m (g_shape gout) in_dims out_dims (excluded in_dims out_dims) a (grid, s)) as [st o] eqn:O. intros E0. injection E0 as <- E0. destruct o as [o'|e|]; [|discriminate E0..]. cbn [bind] in E0. unfold finish in E0.
      destruct (mir_grid (fst st)) as [gnew|e|] eqn:GN; [|discriminate E0..]. cbn [bind] in E0. destruct (coords gnew) as [dc|e|] eqn:CO; [|discriminate E0..]. cbn [bind] in E0.
      destruct (set_coords_array o' (snd dc)) as [b|e|] eqn:SC; [|discriminate E0..]. cbn [bind] in E0. injection E0 as <-.
      exists src, left, gin, grid, gout, in_dims, out_dims, st, (XArray o'), gnew, dc. repeat (split; [first [reflexivity|assumption|apply source_ok; exact G]|]).
      exists o'. split; [reflexivity|]. split; [exact O|]. exists b. split; [exact SC|reflexivity].
    - match goal with |- context [all_vars cast m ?a ?b ?c ?d ?e ?f ?g] => destruct (all_vars cast m a b c d e f g) as [st o] eqn:O end. intros E0. injection E0 as <- E0. destruct o as [o'|e|]; [|discriminate E0..]. cbn [bind] in E0. unfold finish in E0.
      destruct (mir_grid (fst st)) as [gnew|e|] eqn:GN; [|discriminate E0..]. cbn [bind] in E0. destruct (coords gnew) as [dc|e|] eqn:CO; [|discriminate E0..]. cbn [bind] in E0.
      destruct (set_coords_ds o' (snd dc)) as [b|e|] eqn:SC; [|discriminate E0..]. cbn [bind] in E0. injection E0 as <-.
      exists src, left, gin, grid, gout, in_dims, out_dims, st, (XSet o'), gnew, dc. repeat (split; [first [reflexivity|assumption|apply source_ok; exact G]|]).
      exists o'. split; [reflexivity|]. split; [exact O|]. exists b. split; [exact SC|reflexivity].
  Qed.
End Parts.

Section Any.
  Context {A dtype spec other : Type}.
  Variable cast : dtype -> A -> A.
  Variable mir_grid : spec -> result (geometry spec).
  Variable accessor : xobj A dtype spec other -> option (option spec).
  Variable backend : dict -> option spec -> spec -> spec -> array A -> result (array A * spec).
  Notation xr_regrid := (xr_regrid cast mir_grid accessor backend).
  Notation dataarray := (dataarray A dtype spec other).
  Notation dataset := (dataset A dtype spec other).
  Implicit Types (x : args (spec := spec)) (a b : dataarray) (s : dataset).
  (** A call of the backend for the target grid of [x] gives [o]. *)
  Definition applied x left src grid (v o : array A) : Prop := exists out, backend (x_rest x) left src grid v = Ok (o, out).

  Lemma stateless kw (left : option spec) src grid st v : snd (regrid_method (no_state backend) kw left src grid st v) = (p <- backend kw left src grid v ;; Ok (fst p)).
  Proof. unfold regrid_method, no_state. destruct (backend kw left src grid v) as [[o out]|e|]; reflexivity. Qed.

  (** What a call does before the variables are regridded and after. *)
  Lemma parts x v r : xr_regrid x v = Ok r ->
    exists src left gin grid gout in_dims out_dims st o gnew dc,
      source (attr_of v) (x_grid_spec x) (accessor v) src left /\ mir_grid src = Ok gin /\ x_grid x = Some grid /\ mir_grid grid = Ok gout /\
      input_dims (x_in_dims x) (dims_of v) in_dims /\ output_dims (x_out_dims x) (g_shape gout) out_dims /\
      mir_grid (fst st) = Ok gnew /\ coords gnew = Ok dc /\
      let m := regrid_method (no_state backend) (x_rest x) left (g_spec gin) grid in
      match v with
      | XArray a => exists o', o = XArray o' /\ one cast m (g_shape gout) in_dims out_dims (excluded in_dims out_dims) a (grid, tt) = (st, Ok o') /\ exists b, set_coords_array o' (snd dc) = Ok b /\ r = XArray b
      | XSet s => exists o', o = XSet o' /\ all_vars cast m (g_shape gout) in_dims out_dims (excluded in_dims out_dims) (ds_vars s) (mkDS [] [] [] None) (grid, tt) = (st, Ok o') /\ exists s', set_coords_ds o' (snd dc) = Ok s' /\ r = XSet s'
      end.
  Proof.
    unfold Xarray.xr_regrid. destruct (regrid_object cast mir_grid accessor (no_state backend) x v tt) as [u q] eqn:E. cbn [snd]. intros ->.
    destruct (parts_in cast mir_grid accessor (no_state backend) x v tt u r E) as (src & left & gin & grid & gout & ind & outd & st & o & gnew & dc & H1 & H2 & H3 & H4 & H5 & H6 & H7 & _ & H8 & H9).
    exists src, left, gin, grid, gout, ind, outd, st, o, gnew, dc. auto 12.
  Qed.

  Lemma one_sliced x left src grid gout in_dims out_dims ex a st st' o : delivers mir_grid backend x -> x_grid x = Some grid -> mir_grid grid = Ok gout ->
    output_dims (x_out_dims x) (g_shape gout) out_dims -> well_formed a -> nonempty a in_dims ->
    one cast (regrid_method (no_state backend) (x_rest x) left src grid) (g_shape gout) in_dims out_dims ex a st = (st', Ok o) ->
    sliced cast (applied x left src grid) in_dims out_dims (g_shape gout) a o /\ NoDup in_dims /\ incl in_dims (da_dims a) /\
    (forall d, In d (others a in_dims) -> ~ In d out_dims) /\ da_grid o = None /\
    da_coords o = filter (fun p => disjoint (c_dims (snd p)) (filter (fun d => negb (mem d out_dims)) in_dims ++ ex)) (da_coords a).
  Proof.
    intros D G GO OD W NE E. destruct (D _ _ _ G GO OD) as (ND & L & Sh). unfold one in E. destruct (_ <? _); [discriminate E|].
    destruct (apply_sliced cast _ (fun v => p <- backend (x_rest x) left src grid v ;; Ok (fst p)) (stateless (x_rest x) left src grid) in_dims out_dims ex a st st' o (g_shape gout) W ND (eq_sym L)) as (S1 & S2); [|exact NE|exact E|].
    - intros v o' C. destruct (backend (x_rest x) left src grid v) as [[o'' out]|e|] eqn:B; [|discriminate C..]. injection C as <-. exact (Sh _ _ _ _ _ B).
    - split; [|exact S2]. destruct S1 as (H1 & H2 & H3 & H4 & H5 & sh & H6 & H7). repeat (split; [assumption|]). exists sh. split; [exact H6|]. intros p R. destruct (H7 p R) as (v & vals & V1 & V2 & V3 & V4).
      exists v, vals. split; [exact V1|]. split; [|split; [exact V3|exact V4]]. destruct (backend (x_rest x) left src grid v) as [[o'' out]|e|] eqn:B; [|discriminate V2..]. injection V2 as <-. exists out. exact B.
  Qed.
  Lemma sliced_coords call in_dims out_dims n a b b' : da_dims b' = da_dims b -> da_data b' = da_data b -> da_type b' = da_type b ->
    sliced cast call in_dims out_dims n a b -> sliced cast call in_dims out_dims n a b'.
  Proof.
    intros E1 E2 E3. unfold sliced, well_formed, sized, value_at. rewrite E1, E2, E3. auto.
  Qed.

  (** ** C94: each part is regridded on its own *)
  (** If a call for a DataArray returns: the dimensions of the result are those of the input
      other than the geographical ones, in order, and those of the output; and at every point of
      the others, the values along the output dimensions are what the backend makes of the
      values along the input dimensions, stored as numbers of the type of the input. *)
  Theorem C94_slices_partial x a r : well_formed a -> delivers mir_grid backend x ->
    (forall in_dims, input_dims (x_in_dims x) (da_dims a) in_dims -> nonempty a in_dims) ->
    xr_regrid x (XArray a) = Ok r ->
    exists b src left gin grid gout in_dims out_dims,
      r = XArray b /\ source (da_grid a) (x_grid_spec x) (accessor (XArray a)) src left /\ mir_grid src = Ok gin /\
      x_grid x = Some grid /\ mir_grid grid = Ok gout /\
      input_dims (x_in_dims x) (da_dims a) in_dims /\ output_dims (x_out_dims x) (g_shape gout) out_dims /\
      sliced cast (applied x left (g_spec gin) grid) in_dims out_dims (g_shape gout) a b.
  Proof.
    intros W D NE E. apply parts in E. destruct E as (src & left & gin & grid & gout & ind & outd & st & o & gnew & dc & H1 & H2 & H3 & H4 & H5 & H6 & H7 & H8 & o' & -> & O & b & SC & ->).
    destruct (one_sliced x left (g_spec gin) grid gout ind outd _ a _ _ o' D H3 H4 H6 W (NE _ H5) O) as (S1 & _). apply set_coords_array_ok in SC. destruct SC as (E1 & E2 & E3 & _).
    exists b, src, left, gin, grid, gout, ind, outd. repeat (split; [first [reflexivity|assumption]|]). exact (sliced_coords _ _ _ _ _ _ _ E1 E2 E3 S1).
  Qed.
  (** A dimension of size zero other than the geographical ones: the call raises. *)
  Theorem C94_empty_refuted x a d : x_in_dims x = None -> x_out_dims x = None -> well_formed a ->
    sized a d 0 -> ~ In d ["values"; "latitude"; "longitude"] -> forall r, xr_regrid x (XArray a) <> Ok r.
  Proof.
    intros XI XO W SD ND r E. apply parts in E. destruct E as (src & left & gin & grid & gout & ind & outd & st & o & gnew & dc & H1 & H2 & H3 & H4 & H5 & H6 & H7 & H8 & o' & -> & O & b & SC & ->).
    rewrite XI in H5. rewrite XO in H6. cbn in H5, H6. unfold one in O. destruct (_ <? _); [discriminate O|]. unfold apply_ufunc in O. destruct (_ || _); [discriminate O|].
    set (bd := filter (fun d => negb (mem d ind || mem d outd)) (da_dims a)) in *. apply (size_sized a d 0 W) in SD. destruct SD as [SI SZ].
    assert (B : In d bd). { unfold bd. apply filter_In. split; [exact SI|]. apply Bool.negb_true_iff, Bool.orb_false_iff. split; apply mem_not; intros I; apply ND.
      - destruct H5 as [_ [->| ->]]; cbn in *; tauto.
      - destruct H6 as [[_ ->]|[_ ->]]; cbn in *; tauto. }
    assert (P0 : prod (map (size a) bd) = 0). { clear - B SZ. induction bd as [|y l IH]; [destruct B|]. cbn. destruct B as [->|B]; [rewrite SZ; reflexivity|]. rewrite (IH B). lia. }
    assert (Z : indices (map (size a) bd) = []). { destruct (indices (map (size a) bd)) eqn:I; [reflexivity|]. pose proof (indices_length (map (size a) bd)) as L. rewrite I, P0 in L. discriminate L. }
    rewrite Z in O. cbn [loop] in O. injection O as <- O. cbn [bind fst] in O.
    assert (K : forallb (fun d0 => amem d0 (filter (fun p => negb (mem (fst p) (excluded ind outd))) (combine ind (map (size a) ind)))) outd = false).
    { apply Bool.not_true_is_false. intros F. rewrite forallb_forall in F.
      assert (In1 : forall d0, In d0 outd -> In d0 ind /\ ~ In d0 (excluded ind outd)).
      { intros d0 I. specialize (F d0 I). unfold amem in F. destruct (alookup d0 _) as [v|] eqn:AL; [|discriminate F]. apply lookup_in, filter_In in AL. destruct AL as [AL M]. split; [exact (in_combine_l _ _ _ _ AL)|]. apply mem_not, Bool.negb_true_iff. exact M. }
      destruct H5 as [_ [->| ->]], H6 as [[_ ->]|[_ ->]]; cbn in In1.
      - destruct (In1 "values" (or_introl eq_refl)) as [_ N]. apply N. left. reflexivity.
      - destruct (In1 "latitude" (or_introl eq_refl)) as [[X|[]] _]. discriminate X.
      - destruct (In1 "values" (or_introl eq_refl)) as [[X|[X|[]]] _]; discriminate X.
      - destruct (In1 "latitude" (or_introl eq_refl)) as [_ N]. apply N. left. reflexivity. }
    rewrite K in O. cbn [bind] in O. discriminate O.
  Qed.
  (** And such a call returns, if the target grid and the one returned can be described by
      coordinates and the backend serves parts of the size asked for. *)
  Lemma source_back attr given acc src (left : option spec) : source attr given acc src left -> get_in_grid spec attr given acc = Ok (src, left).
  Proof. unfold get_in_grid, source. intros [[-> ->]|[(-> & -> & ->)|(-> & -> & -> & ->)]]; reflexivity. Qed.
  Lemma describable_coords (g : geometry spec) out_dims : describable g -> output_dims None (g_shape g) out_dims ->
    exists ds cs, coords (other := other) g = Ok (ds, cs) /\ located g out_dims cs /\ map fst cs = ["latitude"; "longitude"] /\ forall d k m, In (d, k) cs -> In m (combine (c_dims k) (shape (c_data k))) -> In m (combine out_dims (g_shape g)).
  Proof.
    intros [[(n & Sh) L]|(r & c & R)] OD.
    - destruct (coords_values (other := other) g n Sh L) as (cs & E & LO & F). rewrite Sh in *. cbn in OD. destruct OD as [[_ ->]|[(r & c & m & X) _]]; [|discriminate X].
      exists [("values", n)], cs. split; [exact E|]. split; [exact LO|]. split.
      + unfold coords in E. rewrite Sh in E. destruct (g_latlons g) as [[lat lon]|e|]; [|destruct LO as (la & lo & X & _); injection E as <-; discriminate X|discriminate E]. destruct (_ && _); [|discriminate E]. injection E as <-. reflexivity.
      + intros d k m I J. rewrite (F d k m I J). left. reflexivity.
    - destruct (coords_regular (other := other) g r c R) as (cs & E & LO & F). destruct R as (Sh & _). rewrite Sh in *. cbn in OD. destruct OD as [[(n & X) _]|[_ ->]]; [discriminate X|].
      exists [("latitude", r); ("longitude", c)], cs. split; [exact E|]. split; [exact LO|]. split.
      + unfold coords in E. rewrite Sh in E. destruct (to_distinct_latlons g) as [[[lat lon]|]|e|]; [injection E as <-; reflexivity|..|discriminate E];
          (destruct (g_latlons g) as [ll|e'|]; [|discriminate E..]; cbn [bind] in E; destruct (_ && _); [|discriminate E]; injection E; discriminate).
      + intros d k m I J. destruct (F d k m I J) as [->| ->]; cbn; auto.
  Qed.
  Lemma out_dims_some (g : geometry spec) ds : output_dims None (g_shape g) ds -> geo_dims g = Ok ds.
  Proof. cbn. unfold geo_dims. intros [[(n & ->) ->]|[(r & c & m & ->) ->]]; reflexivity. Qed.
  Lemma in_dims_some dims ds : input_dims None dims ds -> xr_geo_dims dims = Ok ds.
  Proof. cbn. intros [(pre & ->) [->| ->]]; [apply C75_values|apply C75_lat_lon]. Qed.
  Theorem C94_total_partial x a src left gin grid gout gnew in_dims : x_in_dims x = None -> x_out_dims x = None ->
    source (da_grid a) (x_grid_spec x) (accessor (XArray a)) src left -> mir_grid src = Ok gin -> x_grid x = Some grid -> mir_grid grid = Ok gout ->
    well_formed a -> input_dims None (da_dims a) in_dims -> (forall d, In d (others a in_dims) -> ~ In d ["values"; "latitude"; "longitude"]) -> nonempty a in_dims ->
    delivers mir_grid backend x -> returns mir_grid backend x gnew -> describable gnew -> g_shape gnew = g_shape gout ->
    (forall v, Forall2 (sized a) in_dims (shape v) -> exists o, applied x left (g_spec gin) grid v o) ->
    (forall k, In k ["in_grid"; "out_grid"; "self"] -> alookup k (x_rest x) = None) ->
    exists r, xr_regrid x (XArray a) = Ok r.
  Proof.
    intros XI XO SR GI XG GO W ID DJ NE D RT DS SH TOT NK. pose proof (in_dims_some _ _ ID) as ID'.
    assert (OD : exists out_dims, output_dims None (g_shape gout) out_dims /\ incl out_dims ["values"; "latitude"; "longitude"]).
    { rewrite <- SH. destruct DS as [[(n & ->) _]|(r & c & -> & _)]; cbn; [exists ["values"]|exists ["latitude"; "longitude"]]; (split; [eauto 8|]; intros d I; cbn in *; tauto). }
    destruct OD as (out_dims & OD & OI). pose proof OD as OD'. rewrite <- XO in OD'. destruct (D _ _ _ XG GO OD') as (ND & L & Sh).
    unfold Xarray.xr_regrid, regrid_object, prepare. cbn [attr_of dims_of]. rewrite (source_back _ _ _ _ _ SR). cbn [bind fst snd]. rewrite GI. cbn [bind]. rewrite XG. cbn [bind]. rewrite GO. cbn [bind].
    rewrite XI, XO, ID', (out_dims_some _ _ OD). cbn [bind]. unfold amem. rewrite !NK by (cbn; auto). cbn [orb]. unfold regrid_all. cbn [n_left n_in n_grid n_out n_in_dims n_out_dims]. fold (same_set in_dims out_dims). fold (excluded in_dims out_dims). cbv zeta. unfold one. rewrite L, Nat.ltb_irrefl.
    set (m := regrid_method (no_state backend) (x_rest x) left (g_spec gin) grid).
    assert (NI : NoDup in_dims /\ incl in_dims (da_dims a)).
    { cbn in ID. destruct ID as [(pre & E) ID]. rewrite E. split; [|intros d I; apply in_or_app; right; exact I]. destruct ID as [->| ->]; repeat constructor; cbn; intuition discriminate. }
    destruct NI as [NI II].
    assert (EX : forall d k, In (d, k) (combine out_dims (g_shape gout)) -> ~ In d in_dims \/ In d (excluded in_dims out_dims)).
    { intros d k I. apply in_combine_l in I. cbn in ID, OD. destruct ID as [_ [->| ->]], OD as [[_ ->]|[_ ->]]; cbn in *; intuition (subst; intuition discriminate). }
    destruct (apply_total cast m _ (stateless (x_rest x) left (g_spec gin) grid) in_dims out_dims (excluded in_dims out_dims) a (grid, tt) (g_shape gout) W NI II) as (st & o & AP).
    - intros d I J. exact (DJ d I (OI d J)).
    - symmetry. exact L.
    - exact NE.
    - exact EX.
    - intros v F. destruct (TOT v F) as (o & out & B). rewrite B. cbn [bind fst]. exists o. split; [reflexivity|]. exact (Sh _ _ _ _ _ B).
    - rewrite AP. cbn [bind fst snd]. unfold finish.
      assert (GN : mir_grid (fst st) = Ok gnew).
      { refine (apply_state cast m (fun st => mir_grid (fst st) = Ok gnew) _ in_dims out_dims (excluded in_dims out_dims) a (grid, tt) st o _ AP).
        - intros st0 v st1 o1 M. unfold m, regrid_method, no_state in M. destruct (backend (x_rest x) left (g_spec gin) grid v) as [[o2 out]|e|] eqn:B; [|discriminate M..]. injection M as <- <-. exact (RT _ _ _ _ _ _ XG B).
        - left. intros Z. assert (P0 : prod (map (size a) (filter (fun d => negb (mem d in_dims || mem d out_dims)) (da_dims a))) = 0) by (rewrite <- indices_length, Z; reflexivity).
          assert (X : exists d, In d (filter (fun d => negb (mem d in_dims || mem d out_dims)) (da_dims a)) /\ size a d = 0).
          { clear - P0. induction (filter _ _) as [|d l IH]; [discriminate P0|]. cbn in P0. apply Nat.eq_mul_0 in P0. destruct P0 as [P0|P0]; [exists d; split; [left; reflexivity|exact P0]|].
            destruct (IH P0) as (d' & I & Z). exists d'. split; [right; exact I|exact Z]. }
          destruct X as (d & I & Z0). apply filter_In in I. destruct I as [I M]. apply Bool.negb_true_iff, Bool.orb_false_iff in M. destruct M as [M _]. apply mem_not in M.
          apply (NE d); [apply others_in; auto|]. apply size_sized; [exact W|]. auto. }
      rewrite GN. cbn [bind]. rewrite <- SH in OD. destruct (describable_coords gnew out_dims DS OD) as (ds & cs & CO & _ & _ & F). rewrite CO. cbn [bind snd].
      assert (ON : one cast m (g_shape gout) in_dims out_dims (excluded in_dims out_dims) a (grid, tt) = (st, Ok o)) by (unfold one; rewrite L, Nat.ltb_irrefl; exact AP).
      destruct (one_sliced x left (g_spec gin) grid gout in_dims out_dims _ a (grid, tt) st o D XG GO OD' W NE ON) as ((_ & _ & WO & _ & SZ & _) & _).
      destruct (set_coords_array_total cs o) as (b & SC).
      { apply Forall_forall. intros [d k] I. cbn [snd]. unfold fits. apply forallb_forall. intros [d' k'] J. cbn [fst snd]. specialize (F d k (d', k') I J). rewrite SH in F.
        assert (SD : sized o d' k'). { clear - SZ F. induction SZ as [|x y l l' H SZ IH]; [destruct F|]. destruct F as [F|F]; [injection F as -> ->; exact H|auto]. }
        unfold sizes_of. rewrite (in_lookup _ _ _ _ (proj1 WO) SD). apply Nat.eqb_refl. }
      rewrite SC. cbn [bind]. eauto.
  Qed.

  (** ** C95: the coordinates of the result *)
  Lemma located_lookup (g : geometry spec) dims (cs cs' : list (string * coord other)) : (forall k, In k ["latitude"; "longitude"] -> alookup k cs' = alookup k cs) -> located g dims cs -> located g dims cs'.
  Proof.
    intros E (lat & lon & H1 & H2 & H3). exists lat, lon. split; [rewrite E by (cbn; auto); exact H1|]. split; [rewrite E by (cbn; auto); exact H2|]. exact H3.
  Qed.
  Lemma lookup_rev2 {V} (cs : list (string * V)) k : map fst cs = ["latitude"; "longitude"] -> alookup k (rev cs) = alookup k cs.
  Proof.
    destruct cs as [|[k1 v1] [|[k2 v2] [|]]]; try discriminate. cbn. intros E. injection E as -> ->. destruct (String.eqb_spec k "longitude") as [->|]; [reflexivity|]. destruct (String.eqb k "latitude"); reflexivity.
  Qed.
  Lemma final_grid x a left src grid gnew in_dims out_dims ex sh st0 st o : x_grid x = Some grid -> returns mir_grid backend x gnew -> well_formed a -> nonempty a in_dims ->
    one cast (regrid_method (no_state backend) (x_rest x) left src grid) sh in_dims out_dims ex a st0 = (st, Ok o) -> mir_grid (fst st) = Ok gnew.
  Proof.
    intros XG RT W NE O. unfold one in O. destruct (_ <? _); [discriminate O|].
    refine (apply_state cast _ (fun st => mir_grid (fst st) = Ok gnew) _ in_dims out_dims ex a st0 st o _ O).
    - intros st2 v st1 o1 M. unfold regrid_method, no_state in M. destruct (backend (x_rest x) left src grid v) as [[o2 out]|e|] eqn:B; [|discriminate M..]. injection M as <- <-. exact (RT _ _ _ _ _ _ XG B).
    - left. intros Z. assert (P0 : prod (map (size a) (filter (fun d => negb (mem d in_dims || mem d out_dims)) (da_dims a))) = 0) by (rewrite <- indices_length, Z; reflexivity).
      assert (X : exists d, In d (filter (fun d => negb (mem d in_dims || mem d out_dims)) (da_dims a)) /\ size a d = 0).
      { clear - P0. induction (filter _ _) as [|d l IH]; [discriminate P0|]. cbn in P0. apply Nat.eq_mul_0 in P0. destruct P0 as [P0|P0]; [exists d; split; [left; reflexivity|exact P0]|].
        destruct (IH P0) as (d' & I & Z). exists d'. split; [right; exact I|exact Z]. }
      destruct X as (d & I & Z0). apply filter_In in I. destruct I as [I M]. apply Bool.negb_true_iff, Bool.orb_false_iff in M. destruct M as [M _]. apply mem_not in M.
      apply (NE d); [apply others_in; auto|]. apply size_sized; [exact W|]. auto.
  Qed.
  (** One-dimensional and regular grids: the coordinates latitude and longitude of the result are
      along its own dimensions and give the position of each of its points. *)
  Theorem C95_located_partial x a b gnew : x_out_dims x = None -> well_formed a ->
    (forall in_dims, input_dims (x_in_dims x) (da_dims a) in_dims -> nonempty a in_dims) ->
    delivers mir_grid backend x -> returns mir_grid backend x gnew -> describable gnew ->
    xr_regrid x (XArray a) = Ok (XArray b) ->
    forall out_dims, output_dims None (g_shape gnew) out_dims -> located gnew out_dims (da_coords b) /\ incl out_dims (da_dims b).
  Proof.
    intros XO W NE D RT DS E out_dims OD'. apply parts in E. destruct E as (src & left & gin & grid & gout & ind & outd & st & o & gn & dc & H1 & H2 & H3 & H4 & H5 & H6 & H7 & H8 & o' & -> & O & b' & SC & EB).
    injection EB as <-. pose proof (final_grid x a left (g_spec gin) grid gnew ind outd _ _ _ st o' H3 RT W (NE _ H5) O) as GN. rewrite H7 in GN. injection GN as ->.
    destruct (describable_coords gnew out_dims DS OD') as (ds & cs & CO & LO & KS & F). rewrite H8 in CO. injection CO as ->. cbn [snd] in SC. apply set_coords_array_ok in SC. destruct SC as (E1 & E2 & E3 & E4 & E5 & E6).
    split.
    - apply located_lookup with (2 := LO). intros k I. rewrite E5, (lookup_rev2 cs k KS). destruct cs as [|[k1 v1] [|[k2 v2] [|]]]; try discriminate KS. cbn in KS. injection KS as -> ->. cbn in I. destruct I as [<-|[<-|[]]]; reflexivity.
    - intros d I. rewrite E1. assert (X : exists k c, In (k, c) cs /\ exists n, In (d, n) (combine (c_dims c) (shape (c_data c)))).
      { cbn in OD'. unfold coords in H8. destruct DS as [[(n & Sh) L]|(r & c & R)].
        - rewrite Sh in *. destruct OD' as [[_ ->]|[(r & c & m & X) _]]; [|discriminate X]. destruct I as [<-|[]]. destruct L as (lat & lon & LL & L1 & L2). rewrite Sh in L1, L2. cbn in L1, L2. rewrite Nat.mul_1_r in L1, L2. rewrite LL, L1, L2, Nat.eqb_refl in H8. injection H8 as <- <-.
          eexists _, _. split; [left; reflexivity|]. cbn. eauto.
        - destruct R as (Sh & R2 & C2 & R). rewrite Sh in *. destruct OD' as [[(n & X) _]|[_ ->]]; [discriminate X|].
          destruct (to_distinct_latlons gnew) as [[[lat lon]|]|e|]; [injection H8 as <- <-; cbn in I; destruct I as [<-|[<-|[]]]; [exists "latitude"|exists "longitude"]; eexists; (split; [cbn; auto|cbn; eauto])|..|discriminate H8];
            (destruct (g_latlons gnew) as [ll|e'|]; [|discriminate H8..]; cbn [bind] in H8; destruct (_ && _); [|discriminate H8]; injection H8 as <- <-;
             specialize (F "latitude" _ ("y", r) (or_introl eq_refl) (or_introl eq_refl)); cbn in F; destruct F as [F|[F|[]]]; discriminate F). }
      destruct X as (k & c & I1 & n & I2). rewrite Forall_forall in E6. specialize (E6 _ I1). cbn [snd] in E6. unfold fits in E6. rewrite forallb_forall in E6. specialize (E6 _ I2). cbn [fst snd] in E6.
      destruct (alookup d (sizes_of o')) as [m|] eqn:AL; [|discriminate E6]. apply lookup_in in AL. exact (in_combine_l _ _ _ _ AL).
  Qed.
  Lemma final_grids x left src grid gnew in_dims out_dims ex sh vars : x_grid x = Some grid -> returns mir_grid backend x gnew ->
    Forall (fun v => well_formed (snd v) /\ nonempty (snd v) in_dims) vars -> forall (s0 s' : dataset) st0 st, vars <> [] \/ mir_grid (fst st0) = Ok gnew ->
    all_vars cast (regrid_method (no_state backend) (x_rest x) left src grid) sh in_dims out_dims ex vars s0 st0 = (st, Ok s') -> mir_grid (fst st) = Ok gnew.
  Proof.
    intros XG RT. induction vars as [|[n a] vars IH]; intros F s0 s' st0 st H E; cbn [all_vars] in E.
    - injection E as <- _. destruct H as [H|H]; [destruct (H eq_refl)|exact H].
    - inversion F as [|? ? [F1 F2] F3]; subst. cbn [snd] in F1, F2. destruct (one _ _ _ _ _ _ a st0) as [st1 q] eqn:Q. destruct q as [q|e|]; cbn [bind] in E; [|discriminate E..]. destruct (add_var s0 n q) as [s1|e|]; [|discriminate E..].
      refine (IH F3 _ _ _ _ _ E). right. exact (final_grid x a left src grid gnew in_dims out_dims ex sh st0 st1 q XG RT F1 F2 Q).
  Qed.
  (** The same for a Dataset with variables. *)
  Theorem C95_located_set_partial x s s' gnew : x_out_dims x = None -> ds_vars s <> [] -> (forall n a, In (n, a) (ds_vars s) -> well_formed a) ->
    (forall in_dims n a, input_dims (x_in_dims x) (ds_sizes s) in_dims -> In (n, a) (ds_vars s) -> nonempty a in_dims) ->
    returns mir_grid backend x gnew -> describable gnew ->
    xr_regrid x (XSet s) = Ok (XSet s') ->
    forall out_dims, output_dims None (g_shape gnew) out_dims -> located gnew out_dims (ds_coords s').
  Proof.
    intros XO NV W NE RT DS E out_dims OD'. apply parts in E. destruct E as (src & left & gin & grid & gout & ind & outd & st & o & gn & dc & H1 & H2 & H3 & H4 & H5 & H6 & H7 & H8 & o' & -> & O & b' & SC & EB).
    injection EB as <-. assert (X : Forall (fun v => well_formed (snd v) /\ nonempty (snd v) ind) (ds_vars s)). { apply Forall_forall. intros [n a] I. split; [exact (W n a I)|exact (NE ind n a H5 I)]. }
    pose proof (final_grids x left (g_spec gin) grid gnew ind outd _ _ (ds_vars s) H3 RT X _ _ _ _ (or_introl NV) O) as GN. rewrite H7 in GN. injection GN as ->.
    destruct (describable_coords gnew out_dims DS OD') as (ds & cs & CO & LO & KS & F). rewrite H8 in CO. injection CO as ->. cbn [snd] in SC. apply set_coords_ds_ok in SC. destruct SC as (_ & _ & E5).
    apply located_lookup with (2 := LO). intros k I. rewrite E5, (lookup_rev2 cs k KS). destruct cs as [|[k1 v1] [|[k2 v2] [|]]]; try discriminate KS. cbn in KS. injection KS as -> ->. cbn in I. destruct I as [<-|[<-|[]]]; reflexivity.
  Qed.
  (** The other coordinates of the input are kept unless they lie along a geographical dimension. *)
  Theorem C95_kept x a b : well_formed a -> (forall in_dims, input_dims (x_in_dims x) (da_dims a) in_dims -> nonempty a in_dims) ->
    delivers mir_grid backend x -> x_in_dims x = None -> x_out_dims x = None -> NoDup (akeys (da_coords a)) ->
    xr_regrid x (XArray a) = Ok (XArray b) ->
    exists in_dims, input_dims None (da_dims a) in_dims /\
    forall k, ~ In k ["latitude"; "longitude"] -> forall c, alookup k (da_coords b) = Some c <-> (alookup k (da_coords a) = Some c /\ forall d, In d (c_dims c) -> ~ In d in_dims).
  Proof.
    intros W NE D XI XO NK E. apply parts in E. destruct E as (src & left & gin & grid & gout & ind & outd & st & o & gn & dc & H1 & H2 & H3 & H4 & H5 & H6 & H7 & H8 & o' & -> & O & b' & SC & EB). injection EB as <-.
    destruct (one_sliced x left (g_spec gin) grid gout ind outd _ a _ _ o' D H3 H4 H6 W (NE _ H5) O) as (_ & N1 & _ & DJ & _ & CE). rewrite XI in H5. rewrite XO in H6. exists ind. split; [exact H5|].
    apply set_coords_array_ok in SC. destruct SC as (_ & _ & _ & _ & E5 & _). intros k NKE c. rewrite E5.
    assert (KN : alookup k (rev (snd dc)) = None).
    { assert (X : forall k c, In (k, c) (snd dc) -> In k ["latitude"; "longitude"]).
      { clear - H8. intros k c I. unfold coords in H8. destruct (g_shape gn) as [|n [|m [|]]]; try discriminate H8.
        - destruct (g_latlons gn) as [[lat lon]|e|]; [destruct (_ && _); [|discriminate H8]|..|discriminate H8]; injection H8 as <-; cbn in I; [destruct I as [I|[I|[]]]; injection I as <- _; cbn; auto|destruct I].
        - destruct (to_distinct_latlons gn) as [[[lat lon]|]|e|]; [injection H8 as <-; cbn in I; destruct I as [I|[I|[]]]; injection I as <- _; cbn; auto|..|discriminate H8];
          (destruct (g_latlons gn) as [ll|e'|]; [|discriminate H8..]; cbn [bind] in H8; destruct (_ && _); [|discriminate H8]; injection H8 as <-; cbn in I; destruct I as [I|[I|[]]]; injection I as <- _; cbn; auto). }
      destruct (alookup k (rev (snd dc))) as [v|] eqn:AL; [|reflexivity]. apply lookup_in in AL. apply in_rev in AL. destruct (NKE (X _ _ AL)). }
    rewrite KN, CE. clear KN E5 H8 CE.
    assert (DR : forall d, In d (filter (fun d => negb (mem d outd)) ind ++ excluded ind outd) <-> In d ind).
    { intros d. rewrite in_app_iff, filter_In. cbn in H5, H6. destruct H5 as [_ [->| ->]], H6 as [[_ ->]|[_ ->]]; cbn; intuition (subst; auto). }
    clear - NK DR. induction (da_coords a) as [|[k' c'] l IH]; [cbn; intuition discriminate|]. cbn [akeys] in NK. inversion NK as [|? ? X1 X2]; subst. specialize (IH X2). cbn [filter snd]. 
    destruct (disjoint (c_dims c') _) eqn:DD; cbn [alookup]; destruct (String.eqb_spec k k') as [->|NE]; try exact IH.
    - split; [intros H; injection H as <-; split; [reflexivity|]|intros [H _]; exact H]. intros d I. rewrite disjoint_spec in DD. intros J. apply (DD d I). apply DR. exact J.
    - split; [intros H|intros [H F]].
      + exfalso. apply X1. apply lookup_in, filter_In in H. destruct H as [H _]. rewrite akeys_map. apply (in_map fst) in H. exact H.
      + injection H as <-. exfalso. assert (T : disjoint (c_dims c') (filter (fun d => negb (mem d outd)) ind ++ excluded ind outd) = true) by (apply disjoint_spec; intros d I J; apply (F d I); apply DR; exact J). congruence.
  Qed.
  (** A two-dimensional grid that is not recognised as regular: its coordinates lie along
      dimensions that the result does not have, and every call for a DataArray raises. *)
  Lemma not_fitting x a gnew : well_formed a -> (forall in_dims, input_dims (x_in_dims x) (da_dims a) in_dims -> nonempty a in_dims) ->
    delivers mir_grid backend x -> returns mir_grid backend x gnew ->
    (forall ds cs, coords (other := other) gnew = Ok (ds, cs) -> exists k c d n, In (k, c) cs /\ In (d, n) (combine (c_dims c) (shape (c_data c))) /\ (forall in_dims, input_dims (x_in_dims x) (da_dims a) in_dims -> ~ In d (others a in_dims)) /\
       forall gout grid od, x_grid x = Some grid -> mir_grid grid = Ok gout -> output_dims (x_out_dims x) (g_shape gout) od -> ~ In d od) ->
    forall r, xr_regrid x (XArray a) <> Ok r.
  Proof.
    intros W NE D RT NF r E. apply parts in E. destruct E as (src & left & gin & grid & gout & ind & outd & st & o & gn & dc & H1 & H2 & H3 & H4 & H5 & H6 & H7 & H8 & o' & -> & O & b & SC & ->).
    pose proof (final_grid x a left (g_spec gin) grid gnew ind outd _ _ _ st o' H3 RT W (NE _ H5) O) as GN. rewrite H7 in GN. injection GN as ->. destruct dc as [ds cs]. cbn [snd] in SC.
    destruct (NF ds cs H8) as (k & c & d & n & I1 & I2 & N1 & N2). apply set_coords_array_ok in SC. destruct SC as (_ & _ & _ & _ & _ & E6). rewrite Forall_forall in E6. specialize (E6 _ I1). cbn [snd] in E6. unfold fits in E6. rewrite forallb_forall in E6. specialize (E6 _ I2). cbn [fst snd] in E6.
    destruct (alookup d (sizes_of o')) as [m|] eqn:AL; [|discriminate E6]. apply lookup_in in AL. apply in_combine_l in AL.
    destruct (one_sliced x left (g_spec gin) grid gout ind outd _ a _ _ o' D H3 H4 H6 W (NE _ H5) O) as ((DM & _) & _). rewrite DM in AL. apply in_app_or in AL. destruct AL as [AL|AL].
    - exact (N1 _ H5 AL).
    - exact (N2 _ _ _ H3 H4 H6 AL).
  Qed.
  Theorem C95_curved_refuted x a gnew r c : x_out_dims x = None -> well_formed a -> (forall in_dims, input_dims (x_in_dims x) (da_dims a) in_dims -> nonempty a in_dims) ->
    delivers mir_grid backend x -> returns mir_grid backend x gnew -> g_shape gnew = [r; c] -> (forall p, to_distinct_latlons gnew <> Ok (Some p)) -> ~ In "y" (da_dims a) ->
    forall o, xr_regrid x (XArray a) <> Ok o.
  Proof.
    intros XO W NE D RT Sh ND NY. apply not_fitting with (gnew := gnew); try assumption. intros ds cs CO. destruct (coords_curved gnew r c ds cs Sh ND CO) as (lat & lon & -> & S1 & S2).
    exists "latitude", (mkCoord ["y"; "x"] lat), "y", r. split; [left; reflexivity|]. cbn [c_dims c_data]. rewrite S1. split; [left; reflexivity|]. split; [intros ind _ IO; apply others_in in IO; exact (NY (proj1 IO))|].
    intros gout grid od _ _ OD. rewrite XO in OD. cbn in OD. destruct OD as [[_ ->]|[_ ->]]; cbn; intuition discriminate.
  Qed.
  (** In particular a grid of one row or of one column, however regular. *)
  Theorem C95_narrow_refuted x a gnew r c : x_out_dims x = None -> well_formed a -> (forall in_dims, input_dims (x_in_dims x) (da_dims a) in_dims -> nonempty a in_dims) ->
    delivers mir_grid backend x -> returns mir_grid backend x gnew -> g_shape gnew = [r; c] -> listed gnew -> 1 <= r -> 1 <= c -> r = 1 \/ c = 1 -> ~ In "y" (da_dims a) ->
    forall o, xr_regrid x (XArray a) <> Ok o.
  Proof.
    intros XO W NE D RT Sh (lat & lon & LL & L1 & L2) R1 C1 N1 NY. apply C95_curved_refuted with (gnew := gnew) (r := r) (c := c); try assumption. intros p. unfold to_distinct_latlons. rewrite Sh, LL. cbn [bind fst snd]. destruct (_ && _); [|discriminate].
    destruct N1 as [->| ->].
    - destruct (distinct (rows_of 1 c lat)) as [[d|]|e|]; cbn [bind]; try discriminate. destruct c as [|c]; [lia|]. unfold cols_of. cbn [seq map]. unfold distinct. cbn [distinct_loop]. unfold distinct_row. cbn [diff]. discriminate.
    - destruct r as [|r]; [lia|]. unfold rows_of. cbn [seq map]. unfold distinct. cbn [distinct_loop]. unfold distinct_row. cbn [diff]. discriminate.
  Qed.
  (** Names for the dimensions of the output other than the fixed ones: every call raises if the
      positions of the points are known. *)
  Theorem C95_out_dims_refuted x a gnew od : x_out_dims x = Some od -> well_formed a -> (forall in_dims, input_dims (x_in_dims x) (da_dims a) in_dims -> nonempty a in_dims) ->
    delivers mir_grid backend x -> returns mir_grid backend x gnew -> describable gnew -> 
    (forall in_dims, input_dims (x_in_dims x) (da_dims a) in_dims -> ~ In "values" (others a in_dims) /\ ~ In "latitude" (others a in_dims)) ->
    ~ In "values" (ensure_list od) -> ~ In "latitude" (ensure_list od) ->
    forall o, xr_regrid x (XArray a) <> Ok o.
  Proof.
    intros XO W NE D RT DS AO O1 O2. apply not_fitting with (gnew := gnew); try assumption. intros ds cs CO.
    assert (OD0 : forall (gout : geometry spec) (grid : spec) o', x_grid x = Some grid -> mir_grid grid = Ok gout -> output_dims (x_out_dims x) (g_shape gout) o' -> o' = ensure_list od).
    { intros gout grid o' _ _ OD. rewrite XO in OD. destruct od; exact OD. }
    destruct DS as [[(n & Sh) (lat & lon & LL & L1 & L2)]|(r & c & R)].
    - unfold coords in CO. rewrite Sh in *. cbn in L1, L2. rewrite Nat.mul_1_r in L1, L2. rewrite LL, L1, L2, Nat.eqb_refl in CO. injection CO as <- <-. eexists "latitude", _, "values", n. split; [left; reflexivity|]. split; [left; reflexivity|]. split; [intros ind J; exact (proj1 (AO _ J))|].
      intros gout grid o' G1 G2 G3. rewrite (OD0 _ _ _ G1 G2 G3). exact O1.
    - pose proof (coords_regular (other := other) gnew r c R) as (cs' & CO' & _ & _). rewrite CO in CO'. injection CO' as -> ->. unfold coords in CO. destruct R as (Sh & _). rewrite Sh in CO.
      destruct (to_distinct_latlons gnew) as [[[lat lon]|]|e|]; [injection CO as <-|..|discriminate CO];
        [|destruct (g_latlons gnew) as [ll|e'|]; [|discriminate CO..]; cbn [bind] in CO; destruct (_ && _); [|discriminate CO]; injection CO; discriminate..].
      eexists "latitude", _, "latitude", r. split; [left; reflexivity|]. split; [left; reflexivity|]. split; [intros ind J; exact (proj2 (AO _ J))|]. intros gout grid o' G1 G2 G3. rewrite (OD0 _ _ _ G1 G2 G3). exact O2.
  Qed.

  (** ** C96: Datasets *)
  (** Every variable is there, in order, and regridded as if it were alone. *)
  Theorem C96_variables_partial x s r : NoDup (akeys (ds_vars s)) -> (forall n a, In (n, a) (ds_vars s) -> well_formed a) -> delivers mir_grid backend x ->
    (forall in_dims n a, input_dims (x_in_dims x) (ds_sizes s) in_dims -> In (n, a) (ds_vars s) -> nonempty a in_dims) ->
    xr_regrid x (XSet s) = Ok r ->
    exists s' src left gin grid gout in_dims out_dims,
      r = XSet s' /\ source (ds_grid s) (x_grid_spec x) (accessor (XSet s)) src left /\ mir_grid src = Ok gin /\
      x_grid x = Some grid /\ mir_grid grid = Ok gout /\
      input_dims (x_in_dims x) (ds_sizes s) in_dims /\ output_dims (x_out_dims x) (g_shape gout) out_dims /\
      Forall2 (fun v w => fst w = fst v /\ sliced cast (applied x left (g_spec gin) grid) in_dims out_dims (g_shape gout) (snd v) (snd w)) (ds_vars s) (ds_vars s').
  Proof.
    intros NK W D NE E. apply parts in E. destruct E as (src & left & gin & grid & gout & ind & outd & st & o & gnew & dc & H1 & H2 & H3 & H4 & H5 & H6 & H7 & H8 & o' & -> & O & b & SC & ->).
    apply set_coords_ds_ok in SC. destruct SC as (E1 & _ & _). apply all_vars_ok in O; [|exact NK]. destruct O as (_ & rs & EV & F). cbn [ds_vars app] in EV. subst rs. 
    exists b, src, left, gin, grid, gout, ind, outd. repeat (split; [first [reflexivity|assumption]|]). rewrite E1. 
    assert (X : Forall (fun v => well_formed (snd v) /\ nonempty (snd v) ind) (ds_vars s)). { apply Forall_forall. intros [n a] I. split; [exact (W n a I)|exact (NE ind n a H5 I)]. }
    clear - F X D H3 H4 H6. induction F as [|v w vs ws [F1 (st1 & st2 & O)] F IH]; [constructor|]. inversion X as [|? ? [X1 X2] X3]; subst. constructor; [|exact (IH X3)]. split; [exact F1|].
    exact (proj1 (one_sliced x left (g_spec gin) grid gout ind outd _ (snd v) _ _ (snd w) D H3 H4 H6 X1 X2 O)).
  Qed.
  (** The names of the dimensions of the result, in the order of [ds.sizes]: each once, in the order in
      which the variables, and then the new coordinates, first have them. *)
  Inductive once (seen : list string) : list string -> list string -> Prop :=
  | on_nil : once seen [] []
  | on_old d l r : In d seen -> once seen l r -> once seen (d :: l) r
  | on_new d l r : ~ In d seen -> once (seen ++ [d]) l r -> once seen (d :: l) (d :: r).
  Lemma add_names_once more : forall l, exists r, add_names l more = l ++ r /\ once l more r.
  Proof.
    unfold add_names. induction more as [|d more IH]; intros l; cbn [fold_left]; [exists []; rewrite app_nil_r; split; [reflexivity|constructor]|].
    destruct (mem d l) eqn:M.
    - destruct (IH l) as (r & E & O). exists r. split; [exact E|]. apply on_old; [apply mem_in; exact M|exact O].
    - destruct (IH (l ++ [d])) as (r & E & O). exists (d :: r). split; [rewrite E, <- app_assoc; reflexivity|]. apply on_new; [apply mem_not; exact M|exact O].
  Qed.
  Lemma once_app l m : forall seen r r', once seen l r -> once (seen ++ r) m r' -> once seen (l ++ m) (r ++ r').
  Proof.
    intros seen r r' O. revert m r'. induction O as [seen|seen d l r I O IH|seen d l r I O IH]; intros m r' O'; cbn [app].
    - rewrite app_nil_r in O'. exact O'.
    - apply on_old; [exact I|]. apply IH. exact O'.
    - apply on_new; [exact I|]. apply IH. rewrite <- app_assoc. exact O'.
  Qed.
  Lemma all_vars_sizes {T} (m : T -> array A -> T * result (array A)) sh ind outd ex vars : forall s st st' s', NoDup (akeys (ds_vars s) ++ akeys vars) ->
    all_vars cast m sh ind outd ex vars s st = (st', Ok s') ->
    exists rs r, ds_vars s' = ds_vars s ++ rs /\ ds_sizes s' = ds_sizes s ++ r /\ once (ds_sizes s) (flat_map (fun p => da_dims (snd p)) rs) r.
  Proof.
    induction vars as [|[n a] vars IH]; intros s st st' s' N E; cbn [all_vars] in E.
    - injection E as <- <-. exists [], []. rewrite !app_nil_r. split; [reflexivity|]. split; [reflexivity|constructor].
    - destruct (one cast m sh ind outd ex a st) as [st1 q] eqn:O. destruct q as [o|e|]; cbn [bind] in E; [|discriminate E..].
      destruct (add_var s n o) as [s1|e|] eqn:AV; [|discriminate E..]. pose proof (add_var_ok _ _ _ _ AV) as [V1 _].
      assert (S1 : ds_sizes s1 = add_names (ds_sizes s) (da_dims o)) by (unfold add_var in AV; destruct (forallb _ _); [|discriminate AV]; injection AV as <-; reflexivity).
      assert (NN : ~ In n (akeys (ds_vars s))). { cbn [akeys] in N. apply NoDup_remove_2 in N. intros I. apply N. apply in_or_app. left. exact I. }
      rewrite (aset_new _ _ _ NN) in V1. apply IH in E; [|rewrite V1, !akeys_map, map_app, <- app_assoc; cbn; rewrite !akeys_map in N; exact N].
      destruct E as (rs & r & E1 & E2 & O2). destruct (add_names_once (da_dims o) (ds_sizes s)) as (r0 & E0 & O0). exists ((n, o) :: rs), (r0 ++ r).
      split; [rewrite E1, V1, <- app_assoc; reflexivity|]. split; [rewrite E2, S1, E0, app_assoc; reflexivity|].
      cbn [flat_map snd]. apply once_app; [exact O0|]. rewrite S1, E0 in O2. exact O2.
  Qed.
  Lemma set_coords_sizes cs : forall s s', set_coords_ds s cs = Ok s' -> exists r, ds_sizes s' = ds_sizes s ++ r /\ once (ds_sizes s) (flat_map (fun p => c_dims (snd p)) cs) r.
  Proof.
    induction cs as [|[k c] cs IH]; intros s s' E.
    - injection E as <-. exists []. rewrite app_nil_r. split; [reflexivity|constructor].
    - unfold set_coords_ds in E. cbn [fold_left bind] in E. cbn [fst snd] in E. destruct (fits (sizes_ds s) false c) eqn:F; [|rewrite fold_raise in E by reflexivity; discriminate E].
      apply IH in E. cbn [ds_sizes] in E. destruct E as (r & E & O). destruct (add_names_once (c_dims c) (ds_sizes s)) as (r0 & E0 & O0). exists (r0 ++ r).
      split; [rewrite E, E0, app_assoc; reflexivity|]. cbn [flat_map snd]. apply once_app; [exact O0|]. rewrite E0 in O. exact O.
  Qed.
  Theorem C96_dims x s s' : NoDup (akeys (ds_vars s)) -> xr_regrid x (XSet s) = Ok (XSet s') ->
    exists cs, once [] (flat_map (fun p => da_dims (snd p)) (ds_vars s') ++ flat_map (fun p => c_dims (snd p)) cs) (ds_sizes s') /\
      forall k c, In (k, c) cs -> In k ["latitude"; "longitude"] /\ alookup k (ds_coords s') = Some c.
  Proof.
    intros NK E. apply parts in E. destruct E as (src & left & gin & grid & gout & ind & outd & st & o & gn & dc & H1 & H2 & H3 & H4 & H5 & H6 & H7 & H8 & o' & -> & O & b' & SC & EB).
    injection EB as <-. destruct (all_vars_sizes _ _ _ _ _ (ds_vars s) (mkDS [] [] [] None) _ _ _ NK O) as (rs & r & E1 & E2 & O1). destruct (set_coords_sizes _ _ _ SC) as (r' & E3 & O3).
    apply set_coords_ds_ok in SC. destruct SC as (V & _ & CO). cbn [ds_vars ds_sizes app] in *. exists (snd dc). split; [rewrite V, E1, E3, E2; apply once_app; [exact O1|rewrite E2 in O3; exact O3]|].
    assert (K : snd dc = [] \/ exists lat lon, snd dc = [("latitude", lat); ("longitude", lon)]).
    { clear - H8. unfold coords in H8. destruct (g_shape gn) as [|n [|m [|]]]; try discriminate H8.
      - destruct (g_latlons gn) as [[lat lon]|e|]; [destruct (_ && _); [|discriminate H8]|..|discriminate H8]; injection H8 as <-; first [left; reflexivity|right; do 2 eexists; reflexivity].
      - destruct (to_distinct_latlons gn) as [[[lat lon]|]|e|]; [injection H8 as <-; first [left; reflexivity|right; do 2 eexists; reflexivity]|..|discriminate H8];
        (destruct (g_latlons gn) as [ll|e'|]; [|discriminate H8..]; cbn [bind] in H8; destruct (_ && _); [|discriminate H8]; injection H8 as <-; first [left; reflexivity|right; do 2 eexists; reflexivity]). }
    intros k c I. rewrite CO. destruct K as [K|(lat & lon & K)]; rewrite K in *; [destruct I|]. destruct I as [I|[I|[]]]; injection I as <- <-; (split; [cbn; auto|reflexivity]).
  Qed.
  (** A variable without one of the geographical dimensions makes every call raise. *)
  Theorem C96_other_variable_refuted x s n a : x_in_dims x = None -> In (n, a) (ds_vars s) ->
    (forall ds, input_dims None (ds_sizes s) ds -> exists d, In d ds /\ ~ In d (da_dims a)) -> forall r, xr_regrid x (XSet s) <> Ok r.
  Proof.
    intros XI I NG r E. apply parts in E. destruct E as (src & left & gin & grid & gout & ind & outd & st & o & gnew & dc & H1 & H2 & H3 & H4 & H5 & H6 & H7 & H8 & o' & -> & O & b & SC & ->).
    rewrite XI in H5. cbn [dims_of] in H5. destruct (NG ind H5) as (d & D1 & D2). clear - O I D1 D2. revert O. generalize (mkDS (A := A) (dtype := dtype) (spec := spec) (other := other) [] [] [] None) as s0, (grid, tt) as st0.
    induction (ds_vars s) as [|[n' a'] vars IH]; [destruct I|]. intros s0 st0 O. cbn [all_vars] in O. destruct (one _ _ _ _ _ _ a' st0) as [st1 q] eqn:Q. destruct q as [q|e|]; cbn [bind] in O; [|discriminate O..]. destruct (add_var s0 n' q) as [s1|e|]; [|discriminate O..].
    destruct I as [I|I]; [|exact (IH I _ _ O)]. injection I as -> ->. unfold one in Q. destruct (_ <? _); [discriminate Q|]. unfold apply_ufunc in Q.
    assert (F : forallb (fun d => mem d (da_dims a)) ind = false). { apply Bool.not_true_is_false. intros F. rewrite forallb_forall in F. apply D2, mem_in, F, D1. }
    rewrite F in Q. cbn [negb] in Q. rewrite Bool.orb_true_r in Q. cbn [orb] in Q. discriminate Q.
  Qed.

  (** ** C97: the result knows its grid *)
  (** The result has no attribute gridspec: to regrid it again without giving its grid raises,
      unless the accessor works it out. *)
  Theorem C97_refuted x v r x' : (match v with XSet s => NoDup (akeys (ds_vars s)) | _ => True end) -> xr_regrid x v = Ok r -> x_grid_spec x' = None -> (forall g, accessor r <> Some (Some g)) -> xr_regrid x' r = Raise ValueError.
  Proof.
    intros NK E XG AC. assert (AT : attr_of r = None).
    { apply parts in E. destruct E as (src & left & gin & grid & gout & ind & outd & st & o & gnew & dc & H1 & H2 & H3 & H4 & H5 & H6 & H7 & H8 & E). destruct v as [a|s].
      - destruct E as (o' & -> & O & b & SC & ->). apply set_coords_array_ok in SC. destruct SC as (_ & _ & _ & G & _). cbn [attr_of]. rewrite G. unfold one in O. destruct (_ <? _); [discriminate O|]. unfold apply_ufunc in O. destruct (_ || _); [discriminate O|].
        match type of O with context [loop ?m ?s ?k ?o ?i None [] ?g] => destruct (loop m s k o i None [] g) as [st1 rr] end. injection O as _ O. destruct rr as [[sh fs]|e|]; [|discriminate O..]. cbn [bind fst] in O. destruct sh as [sh|]; [|destruct (forallb _ _); [|discriminate O]]; cbn [bind] in O; injection O as <-; reflexivity.
      - destruct E as (o' & -> & O & b & SC & ->). apply set_coords_ds_ok in SC. destruct SC as (_ & G & _). cbn [attr_of]. rewrite G. apply all_vars_ok in O; [|exact NK]. exact (proj1 O). }
    unfold Xarray.xr_regrid, regrid_object, prepare. rewrite AT, XG, C76_refused by exact AC. reflexivity.
  Qed.
End Any.

(** ** A world with a few grids *)
(** Numbers are rationals; a type of numbers is whole numbers or all.  Grid 0 has two points, 1 is
    regular, 2 has one row, 3 is slanted, 4
    is curved.  The backend gives each point the mean of the first two
    numbers. *)
Module World.
  Definition whole (d : bool) (q : Q) : Q := if d then inject_Z (Z.quot (Qnum q) (Zpos (Qden q))) else q.
  Definition fl (l : list Z) : list f64 := map of_Z l.
  Definition mir (s : nat) : result (geometry nat) :=
    match s with
    | 0 => Ok (mkGeo [2] (Ok (fl [0; 10], fl [0; 0])%Z) 0)
    | 1 => Ok (mkGeo [2; 2] (Ok (fl [10; 10; 0; 0], fl [0; 20; 0; 20])%Z) 1)
    | 2 => Ok (mkGeo [1; 2] (Ok (fl [10; 10], fl [0; 20])%Z) 2)
    | 3 => Ok (mkGeo [2; 2] (Ok (fl [10; 11; 0; 3], fl [0; 20; 1; 25])%Z) 3)
    | 4 => Ok (mkGeo [2; 3] (Ok (fl [10; 11; 10; 0; 1; 0], fl [0; 20; 40; 0; 20; 40])%Z) 4)
    | _ => Raise ValueError
    end.
  Definition acc (v : xobj Q bool nat unit) : option (option nat) := None.
  Definition mean (kw : dict) (left : option nat) (src grid : nat) (v : array Q) : result (array Q * nat) :=
    g <- mir grid ;; Ok (mkArr (g_shape g) (fun _ => Qmult (1 # 2) (Qplus (item v [0]) (item v [1]))), grid).
  Definition call := xr_regrid whole mir acc mean.
  Definition want (grid : nat) : args := mkArgs (Some grid) None None None [].
  Definition data (t : bool) : dataarray Q bool nat unit :=
    mkDA ["time"; "values"] (mkArr [3; 2] (fun idx => inject_Z (Z.of_nat (nth 0 idx 0 + nth 1 idx 0)))) t
      [("time", mkCoord ["time"] (mkArr [3] (fun _ => COther tt))); ("latitude", mkCoord ["values"] (floats (fl [0; 10]%Z) [2]))] (Some 0).
  Definition other_var : dataarray Q bool nat unit := mkDA ["time"] (mkArr [3] (fun _ => 0%Q)) false [] None.

  Lemma data_ok t : well_formed (data t). Proof. split; [repeat constructor; cbn; intuition discriminate|reflexivity]. Qed.
  Lemma data_in t ds : input_dims None (da_dims (data t)) ds -> ds = ["values"].
  Proof. intros [[pre E] [->| ->]]; [reflexivity|]. cbn in E. destruct pre as [|? [|? [|? [|]]]]; discriminate E. Qed.
  Lemma data_nonempty t : nonempty (data t) ["values"].
  Proof. intros d _ S. cbn in S. destruct S as [S|[S|[]]]; discriminate S. Qed.
  Lemma gives g : g < 5 -> delivers mir mean (want g).
  Proof.
    intros L grid gout od XG MG OD. cbn in XG. injection XG as <-. cbn in OD. split; [|split].
    - destruct OD as [[_ ->]|[_ ->]]; repeat constructor; cbn; intuition discriminate.
    - destruct g as [|[|[|[|[|]]]]]; [..|lia]; injection MG as <-; cbn in OD |- *; (destruct OD as [[(n & E) ->]|[(r & c & m & E) ->]]; try discriminate E; reflexivity).
    - intros left src v o out B. unfold mean in B. rewrite MG in B. cbn [bind] in B. injection B as <- _. reflexivity.
  Qed.
  Lemma gives_grid g gn : mir g = Ok gn -> returns mir mean (want g) gn.
  Proof. intros MG grid left src v o out XG B. injection XG as <-. unfold mean in B. rewrite MG in B. cbn [bind] in B. injection B as _ <-. exact MG. Qed.
  Lemma regular_1 gn : mir 1 = Ok gn -> regular gn 2 2.
  Proof.
    intros E. injection E as <-. split; [reflexivity|]. split; [lia|]. split; [lia|]. split; [eexists _, _; split; [reflexivity|split; reflexivity]|].
    assert (U : forall (o : option f64) x y, o = Some x -> o = Some y -> (match o with Some f => finite f | None => false end) = true -> x = y /\ finite x = true).
    { intros o x y -> H F. injection H as <-. auto. }
    split; intros i j j' x y Hi Hj Hj' (la & lo & L1 & X) (la' & lo' & L2 & Y);
      apply (f_equal (fun r => match r with Ok p => Some p | _ => None end)) in L1, L2; cbn in L1, L2; injection L1 as <- <-; injection L2 as <- <-;
      (destruct i as [|[|i]]; try lia; destruct j as [|[|j]]; try lia; destruct j' as [|[|j']]; try lia; exact (U _ _ _ X Y eq_refl)).
  Qed.
End World.
Import World.

(** Each call for the grids 0 and 1 meets the hypotheses of the theorems and succeeds. *)
Example C94_total_meets t g : g < 2 -> exists r, call (want g) (XArray (data t)) = Ok r.
Proof.
  intros L. assert (M : exists gn, mir g = Ok gn /\ describable gn).
  { destruct g as [|[|]]; [..|lia]; (eexists; split; [reflexivity|]).
    - left. split; [eexists; reflexivity|]. eexists _, _. split; [reflexivity|split; reflexivity].
    - right. exists 2, 2. apply regular_1. reflexivity. }
  destruct M as (gn & MG & DS).
  apply C94_total_partial with (src := 0) (left := None) (gin := mkGeo [2] (Ok (fl [0; 10], fl [0; 0])%Z) 0) (grid := g) (gout := gn) (gnew := gn) (in_dims := ["values"]); try reflexivity; try assumption.
  - left. split; reflexivity.
  - apply data_ok.
  - split; [exists ["time"]; reflexivity|left; reflexivity].
  - intros d [<-|[]]. cbn. intuition discriminate.
  - apply data_nonempty.
  - apply gives. lia.
  - apply gives_grid. exact MG.
  - intros v _. eexists. exists g. unfold mean. cbn [x_rest want]. rewrite MG. reflexivity.
Qed.
Example C94_slices_meets t g : g < 5 -> well_formed (data t) /\ delivers mir mean (want g) /\ forall ds, input_dims (x_in_dims (want g)) (da_dims (data t)) ds -> nonempty (data t) ds.
Proof. intros L. split; [apply data_ok|]. split; [apply gives; exact L|]. intros ds I. rewrite (data_in t ds I). apply data_nonempty. Qed.
(** Whole numbers: the mean of 0 and 1 is one half, as the backend says, and 0 in the result. *)
Theorem C94_dtype_refuted : exists x a b left src grid p sh c, well_formed a /\ delivers mir mean x /\ nonempty a ["values"] /\
  call x (XArray a) = Ok (XArray b) /\ x_grid x = Some grid /\
  exists o out, mean (x_rest x) left src grid (part a p ["values"] sh) = Ok (o, out) /\
    (item o c == 1 # 2)%Q /\ (value_at b (place p ["latitude"; "longitude"] c) == 0)%Q.
Proof.
  exists (want 1), (data true). destruct (C94_total_meets true 1 ltac:(lia)) as [r E].
  destruct r as [b|s'].
  2:{ exfalso. generalize (f_equal (fun r => match r with Ok (XSet _) => true | _ => false end) E). vm_compute. discriminate. }
  exists b, None, 0, 1, (fun _ => 0), [2], [1; 1]. split; [apply data_ok|]. split; [apply gives; lia|]. split; [apply data_nonempty|]. split; [exact E|]. split; [reflexivity|].
  eexists _, _. split; [reflexivity|]. split; [vm_compute; reflexivity|].
  assert (X : match call (want 1) (XArray (data true)) with Ok (XArray b) => value_at b (place (fun _ => 0) ["latitude"; "longitude"] [1; 1]) | _ => 1%Q end = 0%Q) by (vm_compute; reflexivity).
  rewrite E in X. rewrite X. reflexivity.
Qed.
(** A DataArray without times. *)
Example C94_empty_meets : forall r, call (want 1) (XArray (mkDA ["time"; "values"] (mkArr [0; 2] (fun _ => 0%Q)) true [] (Some 0))) <> Ok r.
Proof. intros r E. vm_compute in E. discriminate E. Qed.
(** The grids 2 and 4 meet the hypotheses of the refutations, and these calls raise. *)
Example C95_narrow_meets t r : call (want 2) (XArray (data t)) <> Ok r.
Proof.
  destruct (C94_slices_meets t 2 ltac:(lia)) as (W & D & NE).
  apply C95_narrow_refuted with (gnew := mkGeo [1; 2] (Ok (fl [10; 10], fl [0; 20])%Z) 2) (r := 1) (c := 2); try assumption; try reflexivity; try lia.
  - apply gives_grid. reflexivity.
  - eexists _, _. split; [reflexivity|split; reflexivity].
  - cbn. intuition discriminate.
Qed.
Example C95_curved_meets t r : call (want 4) (XArray (data t)) <> Ok r.
Proof.
  destruct (C94_slices_meets t 4 ltac:(lia)) as (W & D & NE).
  apply C95_curved_refuted with (gnew := mkGeo [2; 3] (Ok (fl [10; 11; 10; 0; 1; 0], fl [0; 20; 40; 0; 20; 40])%Z) 4) (r := 2) (c := 3); try assumption; try reflexivity.
  - apply gives_grid. reflexivity.
  - intros p. intros E. vm_compute in E. discriminate E.
  - cbn. intuition discriminate.
Qed.
(** Slanted rows of evenly spaced points are taken for regular ones: the result has the latitude
    10 for a point at latitude 11. *)
Theorem C95_slanted_refuted : exists x a b gnew, x_out_dims x = None /\ well_formed a /\ nonempty a ["values"] /\ delivers mir mean x /\ returns mir mean x gnew /\
  g_shape gnew = [2; 2] /\ listed gnew /\ call x (XArray a) = Ok (XArray b) /\ ~ located gnew ["latitude"; "longitude"] (da_coords b).
Proof.
  exists (want 3), (data false). destruct (call (want 3) (XArray (data false))) as [[b|s']|e|] eqn:E.
  2-4: exfalso; generalize (f_equal (fun r => match r with Ok (XArray _) => true | _ => false end) E); vm_compute; discriminate.
  exists b, (mkGeo [2; 2] (Ok (fl [10; 11; 0; 3], fl [0; 20; 1; 25])%Z) 3). split; [reflexivity|]. split; [apply data_ok|]. split; [apply data_nonempty|]. split; [apply gives; lia|]. split; [apply gives_grid; reflexivity|].
  split; [reflexivity|]. split; [eexists _, _; split; [reflexivity|split; reflexivity]|]. split; [reflexivity|].
  intros (lat & lon & L1 & L2 & _ & _ & P).
  assert (X : match call (want 3) (XArray (data false)) with Ok (XArray b) => match alookup "latitude" (da_coords b) with Some lat => coord_at lat (place (fun _ => 0) ["latitude"; "longitude"] [0; 1]) = CFloat (of_Z 10) | None => False end | _ => False end) by (vm_compute; reflexivity).
  rewrite E, L1 in X. destruct (P (fun _ => 0) [0; 1] ltac:(repeat constructor)) as [(y & (la & lo & G & N) & C) _]. rewrite X in C. injection C as <-. cbn in G. apply (f_equal (fun r => match r with Ok p => fst p | _ => [] end)) in G. cbn [fst] in G. subst la. vm_compute in N. discriminate N.
Qed.
(** The output dimension named "point" instead of "values". *)
Example C95_out_dims_meets r : call (mkArgs (Some 0) None None (Some (DStr "point")) []) (XArray (data false)) <> Ok r.
Proof.
  apply C95_out_dims_refuted with (gnew := mkGeo [2] (Ok (fl [0; 10], fl [0; 0])%Z) 0) (od := DStr "point"); try reflexivity; try (cbn; intuition discriminate).
  - apply data_ok.
  - intros ds I. rewrite (data_in false ds I). apply data_nonempty.
  - intros grid gout od XG MG OD. injection XG as <-. injection MG as <-. cbn in OD. subst od. split; [repeat constructor; cbn; intuition|]. split; [reflexivity|]. intros left src v o out B. injection B as <- _. reflexivity.
  - intros grid left src v o out XG B. injection XG as <-. injection B as _ <-. reflexivity.
  - left. split; [eexists; reflexivity|]. eexists _, _. split; [reflexivity|split; reflexivity].
  - intros ds J. rewrite (data_in false ds J). cbn. intuition discriminate.
Qed.
(** A Dataset with the variable alone, and with one that has no points as well. *)
Definition set_of (l : list (string * dataarray Q bool nat unit)) : dataset Q bool nat unit := mkDS ["time"; "values"] l (da_coords (data true)) (Some 0).
Example C96_variables_meets : exists s', call (want 1) (XSet (set_of [("t", data true); ("q", data false)])) = Ok (XSet s') /\ akeys (ds_vars s') = ["t"; "q"].
Proof. eexists. split; [vm_compute; reflexivity|reflexivity]. Qed.
Example C96_dims_meets : exists s', call (want 1) (XSet (set_of [("t", data true); ("q", data false)])) = Ok (XSet s') /\ ds_sizes s' = ["time"; "latitude"; "longitude"].
Proof. eexists. split; [vm_compute; reflexivity|reflexivity]. Qed.
Example C96_other_meets r : call (want 1) (XSet (set_of [("t", data true); ("flag", other_var)])) <> Ok r.
Proof.
  apply C96_other_variable_refuted with (n := "flag") (a := other_var); [reflexivity|right; left; reflexivity|]. intros ds [[pre E] H]. exists "values". cbn in E. split; [|cbn; intuition discriminate].
  destruct H as [->| ->]; [left; reflexivity|]. destruct pre as [|? [|? [|]]]; discriminate E.
Qed.
(** The result cannot be regridded again. *)
Example C97_meets : exists b, call (want 1) (XArray (data false)) = Ok b /\ call (want 0) b = Raise ValueError.
Proof.
  destruct (C94_total_meets false 1 ltac:(lia)) as [r E]. exists r. split; [exact E|]. apply (C97_refuted whole mir acc mean (want 1) (XArray (data false)) r (want 0) I E eq_refl). intros g. discriminate.
Qed.

Print Assumptions C94_slices_partial.
Print Assumptions C94_total_partial.
Print Assumptions C94_empty_refuted.
Print Assumptions C94_dtype_refuted.
Print Assumptions C95_located_partial.
Print Assumptions C95_located_set_partial.
Print Assumptions C95_kept.
Print Assumptions C95_curved_refuted.
Print Assumptions C95_narrow_refuted.
Print Assumptions C95_slanted_refuted.
Print Assumptions C95_out_dims_refuted.
Print Assumptions C96_variables_partial.
Print Assumptions C96_other_variable_refuted.
Print Assumptions C96_dims.
Print Assumptions C97_refuted.
