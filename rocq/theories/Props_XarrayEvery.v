(** C111: the weights applied to the slices of xarray objects. *)
From Verif Require Import PyBase ListLemmas PyStr Float64 GridSpec GridVocab GridProofs Index IndexSpec IndexProofs IndexProofs2
  Db MemCache MemCacheProofs MemCacheProofs2 Inventory Regrid RegridSpec RegridProofs Props_Regrid System SystemSpec SystemProofs Props_System
  Disk DiskSpec DiskProofs DiskProofs2 Props_Disk Key KeySpec KeyProofs Props_Key CacheFile Props_CacheFile Remote RemoteSpec RemoteProofs RemoteProofs2 RemoteProofs3 RemoteProofs4 Props_Remote
  Dispatch Props_Dispatch Xarray XarraySpec XarrayProofs XarrayProofs2 Props_Xarray
  Api ApiSpec ApiProofs Props_Api ApiTrace ApiRemote Props_ApiLocal Props_ApiRemote Props_ApiRemote2 Every EverySpec EveryProofs Props_Every Props_Every2 XarrayApi Props_XarrayApi.
Set Default Proof Using "Type".
Local Open Scope string_scope.
Local Open Scope list_scope.
Local Open Scope Z_scope.

(** What is said about inventories, for more calls. *)
Section More.
  Context {A rest blob : Type}.
  Variable parse : blob -> result (file rest).
  Variable gunzip : blob -> result blob.
  Variable load_npz : blob -> result (csr A).
  Variable sha : string -> string.
  Variable ext_of : string -> string.
  Variables (py_str : val -> string) (key_order : list string) (fuel : nat).
  Notation meets := (@emeets A rest blob).
  Variables C C' : meets -> EverySpec.place -> Prop.
  Hypothesis more : forall x q, C x q -> C' x q.
  Lemma served_more u b : served_in C u b -> served_in C' u b.
  Proof using more. intros (x & base & Q & R). exists x, base. auto. Qed.
  Lemma asked_more b : asked_in C b -> asked_in C' b.
  Proof using more. intros (x & Q). exists x. auto. Qed.
  Lemma seen_more p i : seen_in C p i -> seen_in C' p i.
  Proof using more. intros (x & Q & R). exists x. auto. Qed.
  Lemma file_more u b : file_at sha ext_of (served_in C) u b -> file_at sha ext_of (served_in C') u b.
  Proof using more. intros (u' & Q & R). exists u'. split; [exact Q|apply served_more; exact R]. Qed.
  Lemma index_more base (i : index rest) : index_at parse gunzip sha ext_of (served_in C) (asked_in C) base i -> index_at parse gunzip sha ext_of (served_in C') (asked_in C') base i.
  Proof using more.
    intros (b' & z & t & f & Q & F & R). exists b', z, t, f. split; [|split; [apply file_more; exact F|exact R]]. destruct Q as [Q|[Q1 Q2]]; [left; exact Q|right; split; [apply asked_more; exact Q1|exact Q2]].
  Qed.
  Lemma names_less : names parse gunzip sha ext_of (served_in C') (asked_in C') -> names parse gunzip sha ext_of (served_in C) (asked_in C).
  Proof using more.
    intros N q O. apply N. destruct O as [(u & (base & Q & R) & ->)|(b & Q & ->)]; [left|right; exists b; split; [apply asked_more; exact Q|reflexivity]].
    exists u. split; [|reflexivity]. exists base. split; [apply asked_more; exact Q|]. destruct R as [R|[R|(i & n & e & p & I & R)]]; [auto|auto|]. right. right. exists i, n, e, p. split; [apply index_more; exact I|exact R].
  Qed.
  Lemma proper_less : proper_all load_npz C' -> proper_all load_npz C.
  Proof using more. intros [P1 P2]. split; [intros x path p z Q; apply (P1 x path); auto|intros u b z Q; apply (P2 u); apply served_more; exact Q]. Qed.
  Lemma sound_less q di do m : sound_request parse gunzip sha ext_of py_str key_order fuel C' q di do m -> sound_request parse gunzip sha ext_of py_str key_order fuel C q di do m.
  Proof using more.
    intros (P1 & P2 & Q). split; [exact P1|]. split; [exact P2|]. intros gi go R. specialize (Q gi go R). destruct q as [p|b]; cbn [comparable_with] in *.
    - intros i n e SE. exact (Q i n e (seen_more _ _ SE)).
    - intros i n e IX. exact (Q i n e (index_more _ _ IX)).
  Qed.
  Lemma had_more x q gi go m z sh : had parse gunzip load_npz sha ext_of py_str key_order fuel C x q gi go m z sh -> had parse gunzip load_npz sha ext_of py_str key_order fuel C' x q gi go m z sh.
  Proof using more.
    destruct q as [p|b]; cbn [had].
    - intros (i & pre & n & e & post & f & SE & R). exists i, pre, n, e, post, f. split; [exact (seen_more _ _ SE)|exact R].
    - intros (i & pre & n & e & post & f & bl & IX & E & Y & N & MP & FA & R). exists i, pre, n, e, post, f, bl. split; [exact (index_more _ _ IX)|]. repeat (split; [assumption|]). split; [exact (file_more _ _ FA)|exact R].
  Qed.
End More.

Section Every.
  Context {A rest blob field dtype other : Type}.
  Variable cast : dtype -> A -> A.
  Variable mir_grid : dict -> result (geometry dict).
  Variable accessor : xobj A dtype dict other -> option (option dict).
  Variable grid_val : dict -> val.
  Variables (zero : A) (add mul : A -> A -> A).
  Variable parse : blob -> result (file rest).
  Variable gunzip : blob -> result blob.
  Variable digest : blob -> result string.
  Variable read_sha : blob -> result string.
  Variable load_npz : blob -> result (csr A).
  Variable weigh : blob -> node.
  Variable sha : string -> string.
  Variable dir : string.
  Variables limit usage : option Z.
  Variables check fetch : bool.
  Variable ext_of : string -> string.
  Variables (py_str : val -> string) (key_order : list string) (fuel : nat).
  Variable memory_of : rest -> Z.
  Variable float_text : f64 -> string.
  Variable mir_array : array A -> option dict -> option dict -> dict -> result (array A * dict).
  Variable mir_grib : string -> option dict -> dict -> result string.
  Variable field_values : field -> result (array A).
  Variable field_grid : field -> result (option dict).
  Variable field_with : field -> array A -> dict -> result field.
  Variable field_message : field -> result string.
  Variable message_field : string -> result field.
  Notation S := (@esys A rest blob).
  Notation meets := (@emeets A rest blob).
  Notation efind := (any_find parse gunzip digest read_sha load_npz weigh sha dir limit usage check fetch ext_of py_str key_order fuel memory_of float_text).
  Notation array_regrid := (array_regrid zero add mul efind mir_array).
  Notation xarray_regrid := (xarray_regrid cast mir_grid accessor zero add mul efind mir_array grid_val).
  Notation pafter := (pafter zero add mul efind mir_array mir_grib field_values field_grid field_with field_message message_field).
  Notation pcall := (@pop_call A S meets field).
  Notation then_calls := (then_calls zero add mul efind mir_array mir_grib field_values field_grid field_with field_message message_field).
  Notation requested := (@requested A rest blob field field_values field_grid).
  Notation called := (@called A rest blob field field_values field_grid).
  Notation collides_with := (@collides_with A rest blob field field_values field_grid sha float_text).
  Notation only_to := (@only_to A rest blob field field_values field_grid).
  Notation had H := (had parse gunzip load_npz sha ext_of py_str key_order fuel (called H)).
  Notation names H := (names parse gunzip sha ext_of (served_in (called H)) (asked_in (called H))).
  Notation sound_calls := (sound_calls parse gunzip sha ext_of py_str key_order fuel field_values field_grid).
  Notation cleared := (@cleared A rest blob field parse gunzip digest read_sha load_npz weigh sha dir limit usage check fetch ext_of py_str key_order fuel memory_of float_text).
  Notation known_between := (@known_between A rest blob field parse gunzip digest read_sha load_npz weigh sha dir limit usage check fetch ext_of py_str key_order fuel memory_of float_text).
  Notation origin := (origin zero add mul parse gunzip load_npz sha ext_of py_str key_order fuel float_text field_values field_grid).
  Notation dataarray := (dataarray A dtype dict other).
  Notation dataset := (dataset A dtype dict other).
  Implicit Types (H : list pcall) (x : meets) (w : args (spec := dict)).

  (** The call for one slice. *)
  Definition the_call x (m : string) (kw : dict) (src grid : dict) (v : array A) : pcall := slice_call x (VStr m) (VStr "precomputed") kw src grid v.

  (** Calls for slices ask for the same, whatever their numbers are. *)
  Lemma slices_requested H x m kw src grid l v x' q u di do m' : requested (H ++ map (the_call x m kw src grid) l) x' q u di do m' -> exists u', requested (H ++ [the_call x m kw src grid v]) x' q u' di do m'.
  Proof.
    intros (d & I & db & L & D). apply in_app_or in I. destruct I as [I|I].
    - exists u, d. split; [apply in_or_app; auto|]. exists db. auto.
    - apply in_map_iff in I. destruct I as (v' & <- & _). unfold the_call, slice_call in D. inversion D as [? ? ? ? ? ? ? P| | | |]; subst.
      exists v, (the_call x' m' kw di do v). split; [apply in_or_app; right; left; reflexivity|]. exists db. split; [exact L|]. constructor. exact P.
  Qed.
  Notation answered := (answered zero add mul parse gunzip load_npz sha ext_of py_str key_order fuel float_text field_values field_grid).
  Lemma slices_called H x m kw src grid l v x' q : called (H ++ map (the_call x m kw src grid) l) x' q -> called (H ++ [the_call x m kw src grid v]) x' q.
  Proof. intros (u & di & do & m' & R). destruct (slices_requested _ _ _ _ _ _ _ v _ _ _ _ _ _ R) as (u' & R'). exists u', di, do, m'. exact R'. Qed.
  Lemma slice_origin c H0 H x db kw m src grid v0 l v o g :
    forall HH, HH = H0 ++ H ++ [the_call x m kw src grid v0] ->
    (forall b, 0 <= n_size (weigh b)) -> fixed_length sha -> float_texts float_text -> names HH -> proper_all load_npz (called HH) ->
    cleared H0 -> known_between (H0 ++ H) -> sound_calls HH HH -> only_inventory "inventory" kw db ->
    snd (array_regrid x v (Some src) (Some grid) (VStr m) (VStr "precomputed") kw (then_calls (pafter (einit c) (H0 ++ H)) (map (the_call x m kw src grid) l))) = Ok (o, g) ->
    g = grid /\ origin HH (H ++ [the_call x m kw src grid v0]) v src grid m o.
  Proof.
    intros HH EH WP FL FT NM PF CL KB SC OI Q. set (HH' := H0 ++ H ++ map (the_call x m kw src grid) (l ++ [v])).
    assert (EH' : HH' = H0 ++ (H ++ map (the_call x m kw src grid) l) ++ [PArray x v (Some src) (Some grid) (VStr m) (VStr "precomputed") kw]).
    { unfold HH'. rewrite map_app, <- app_assoc. reflexivity. }
    assert (RQ : forall x' q u di do m', requested HH' x' q u di do m' -> exists u', requested HH x' q u' di do m').
    { intros x' q u di do m' R. unfold HH' in R. rewrite app_assoc in R. destruct (slices_requested _ _ _ _ _ _ _ v0 _ _ _ _ _ _ R) as (u' & R'). rewrite <- app_assoc, <- EH in R'. eauto. }
    assert (CA : forall x' q, called HH' x' q -> called HH x' q). { intros x' q (u & di & do & m' & R). destruct (RQ _ _ _ _ _ _ R) as (u' & R'). exists u', di, do, m'. exact R'. }
    assert (KB' : known_between (H0 ++ (H ++ map (the_call x m kw src grid) l))).
    { intros f I. apply KB. rewrite app_assoc in I. apply in_app_or in I. destruct I as [I|I]; [exact I|]. apply in_map_iff in I. destruct I as (v' & E & _). discriminate E. }
    assert (SC' : sound_calls HH' HH').
    { intros x' q u di do m' R. destruct (RQ _ _ _ _ _ _ R) as (u' & R'). exact (sound_less parse gunzip sha ext_of py_str key_order fuel _ _ CA q di do m' (SC _ _ _ _ _ _ R')). }
    rewrite calls_after, <- app_assoc in Q.
    destruct (array_origin zero add mul parse gunzip digest read_sha load_npz weigh sha dir limit usage check fetch ext_of py_str key_order fuel memory_of float_text mir_array mir_grib field_values field_grid field_with field_message message_field
      c H0 (H ++ map (the_call x m kw src grid) l) x db kw v src grid m o g HH') as (-> & OR); try assumption.
    - intros d I. rewrite EH'. exact I.
    - exact (names_less parse gunzip sha ext_of _ _ CA NM).
    - exact (proper_less load_npz _ _ CA PF).
    - split; [reflexivity|]. destruct OR as (gi & go & z & sh & n & R1 & R2 & R3 & R4). exists gi, go, z, sh, n. split; [exact R1|]. split; [exact R2|]. split; [exact R3|].
      assert (EM : (H ++ map (the_call x m kw src grid) l) ++ [PArray x v (Some src) (Some grid) (VStr m) (VStr "precomputed") kw] = H ++ map (the_call x m kw src grid) (l ++ [v])) by (rewrite map_app, <- app_assoc; reflexivity).
      rewrite EM in R4. destruct R4 as [(x' & q' & u & di & do & m' & gi' & go' & CQ & CR)|(x' & q' & u & di & do & gi' & go' & RR & RI & SI & SG & HD)].
      + left. destruct (slices_requested _ _ _ _ _ _ _ v0 _ _ _ _ _ _ CQ) as (u' & CQ'). exists x', q', u', di, do, m', gi', go'. auto.
      + right. destruct (slices_requested _ _ _ _ _ _ _ v0 _ _ _ _ _ _ RR) as (u' & RR'). exists x', q', u', di, do, gi', go'. split; [exact RR'|]. repeat (split; [assumption|]).
        exact (had_more parse gunzip load_npz sha ext_of py_str key_order fuel _ _ CA x' q' gi' go' m z sh HD).
  Qed.
  Lemma slice_answered c H0 H x db q kw m src grid v0 l v o g :
    forall HH, HH = H0 ++ H ++ [the_call x m kw src grid v0] ->
    (forall b, 0 <= n_size (weigh b)) -> fixed_length sha -> float_texts float_text -> names HH -> proper_all load_npz (called HH) ->
    cleared H0 -> known_between (H0 ++ H) -> sound_calls HH HH -> only_inventory "inventory" kw db ->
    (forall gi go, IndexSpec.request src grid gi go -> only_to q (H ++ [the_call x m kw src grid v0]) gi go m) ->
    snd (array_regrid x v (Some src) (Some grid) (VStr m) (VStr "precomputed") kw (then_calls (pafter (einit c) (H0 ++ H)) (map (the_call x m kw src grid) l))) = Ok (o, g) ->
    g = grid /\ answered HH (H ++ [the_call x m kw src grid v0]) q v src grid m o.
  Proof.
    intros HH EH WP FL FT NM PF CL KB SC OI AO Q. destruct (slice_origin c H0 H x db kw m src grid v0 l v o g HH EH WP FL FT NM PF CL KB SC OI Q) as [-> OR]. split; [reflexivity|].
    exact (origin_answered zero add mul parse gunzip load_npz sha ext_of py_str key_order fuel float_text field_values field_grid HH _ q v src grid m o AO OR).
  Qed.

  (** The shapes in the inventory are those of the target grid and no two requests have the same hash:
      results have the shape of the grid. *)
  Notation delivered := (delivered mir_grid zero add mul efind mir_array mir_grib field_values field_grid field_with field_message message_field grid_val).
  Lemma C111_delivered c H0 H x db q w m src gin grid gout v0 attr acc :
    source attr (x_grid_spec w) acc src None -> mir_grid src = Ok gin -> x_grid w = Some grid -> mir_grid grid = Ok gout ->
    forall HH, HH = H0 ++ H ++ [the_call x m (x_rest w) (g_spec gin) grid v0] ->
    (forall b, 0 <= n_size (weigh b)) -> fixed_length sha -> float_texts float_text -> names HH -> proper_all load_npz (called HH) ->
    cleared H0 -> known_between (H0 ++ H) -> sound_calls HH HH -> only_inventory "inventory" (x_rest w) db ->
    (forall gi go, IndexSpec.request (g_spec gin) grid gi go -> only_to q (H ++ [the_call x m (x_rest w) (g_spec gin) grid v0]) gi go m /\
       ~ collides_with (H ++ [the_call x m (x_rest w) (g_spec gin) grid v0]) gi go m /\
       forall x' z sh n, called (H ++ [the_call x m (x_rest w) (g_spec gin) grid v0]) x' q -> had HH x' q gi go m z sh -> is_shape sh n -> n = g_shape gout) ->
    (forall out_dims, output_dims (x_out_dims w) (g_shape gout) out_dims -> NoDup out_dims /\ List.length out_dims = List.length (g_shape gout)) ->
    delivered (pafter (einit c) (H0 ++ H)) x (VStr m) (VStr "precomputed") w attr acc.
  Proof.
    intros SO GI XG GO HH EH WP FL FT NM PF CL KB SC OI AO OD grid' gout' od XG' GO' OD'. rewrite XG in XG'. injection XG' as <-. rewrite GO in GO'. injection GO' as <-.
    destruct (OD od OD') as [ND L]. split; [exact ND|]. split; [exact L|]. intros src' left gin' kw SO' GI' PA l v o g Q.
    assert (EQ : src' = src /\ left = None).
    { destruct SO as [[S1 S2]|[(S1 & S2 & S3)|(S1 & S2 & S3 & S4)]], SO' as [[T1 T2]|[(T1 & T2 & T3)|(T1 & T2 & T3 & T4)]]; split; congruence. }
    destruct EQ as [-> ->]. rewrite GI in GI'. injection GI' as <-. destruct PA as [[_ ->]|(g0 & E & _)]; [|discriminate E].
    destruct (slice_answered c H0 H x db q (x_rest w) m (g_spec gin) grid v0 l v o g HH EH WP FL FT NM PF CL KB SC OI) as (_ & gi & go & RQ & [CO|(x' & z & sh & n & CX & HD & IS & AP)]).
    - intros gi go RQ. exact (proj1 (AO gi go RQ)).
    - exact Q.
    - destruct (AO gi go RQ) as (_ & NC & _). destruct (NC CO).
    - destruct (AO gi go RQ) as (_ & _ & SH). rewrite (SH x' z sh n CX HD IS) in AP. exact (proj1 (proj2 (proj2 AP))).
  Qed.

  (** ** C111 *)
  (** An answered call for a DataArray, with the precomputed backend: at each point of the other
      dimensions the result has what the weights of the inventory make of the slice there, and its
      coordinates are those of the target grid. *)
  Theorem C111_array_partial c H0 H x db q w (a : dataarray) m src gin grid v0 s' r :
    source (da_grid a) (x_grid_spec w) (accessor (XArray a)) src None -> mir_grid src = Ok gin -> x_grid w = Some grid ->
    forall HH, HH = H0 ++ H ++ [the_call x m (x_rest w) (g_spec gin) grid v0] ->
    (forall b, 0 <= n_size (weigh b)) -> fixed_length sha -> float_texts float_text -> names HH -> proper_all load_npz (called HH) ->
    cleared H0 -> known_between (H0 ++ H) -> sound_calls HH HH -> only_inventory "inventory" (x_rest w) db ->
    (forall gi go, IndexSpec.request (g_spec gin) grid gi go -> only_to q (H ++ [the_call x m (x_rest w) (g_spec gin) grid v0]) gi go m) ->
    well_formed a -> (forall in_dims, input_dims (x_in_dims w) (da_dims a) in_dims -> nonempty a in_dims) ->
    delivered (pafter (einit c) (H0 ++ H)) x (VStr m) (VStr "precomputed") w (da_grid a) (accessor (XArray a)) ->
    xarray_regrid x (VStr m) (VStr "precomputed") w (XArray a) (pafter (einit c) (H0 ++ H)) = (s', Ok r) ->
    exists b gout in_dims out_dims, r = XArray b /\ mir_grid grid = Ok gout /\
      input_dims (x_in_dims w) (da_dims a) in_dims /\ output_dims (x_out_dims w) (g_shape gout) out_dims /\
      sliced cast (fun v o => answered HH (H ++ [the_call x m (x_rest w) (g_spec gin) grid v0]) q v (g_spec gin) grid m o) in_dims out_dims (g_shape gout) a b /\
      located_on mir_grid grid (da_coords b).
  Proof.
    intros SO GI XG HH EH WP FL FT NM PF CL KB SC OI AO W NE D Q.
    destruct (C110_array_partial cast mir_grid accessor zero add mul efind mir_array mir_grib field_values field_grid field_with field_message message_field grid_val
      (pafter (einit c) (H0 ++ H)) x (VStr m) (VStr "precomputed") w a s' r W D NE Q) as (b & src' & left & gin' & grid' & gout & ind & outd & kw & l & -> & SO' & GI' & XG' & GO & ID & OD & PA & _ & LI & SL & out & LG & LO).
    rewrite XG in XG'. injection XG' as <-.
    assert (EQ : src' = src /\ left = None).
    { destruct SO as [[S1 S2]|[(S1 & S2 & S3)|(S1 & S2 & S3 & S4)]], SO' as [[T1 T2]|[(T1 & T2 & T3)|(T1 & T2 & T3 & T4)]]; split; congruence. }
    destruct EQ as [-> ->]. rewrite GI in GI'. injection GI' as <-. destruct PA as [[_ ->]|(g0 & E & _)]; [|discriminate E].
    pose proof (fun l v o g => slice_answered c H0 H x db q (x_rest w) m (g_spec gin) grid v0 l v o g HH EH WP FL FT NM PF CL KB SC OI AO) as SA.
    exists b, gout, ind, outd. split; [reflexivity|]. split; [exact GO|]. split; [exact ID|]. split; [exact OD|]. split.
    - eapply sliced_weaken; [|exact SL]. intros v o (before & behind & o' & _ & R). exact (proj2 (SA before v o o' R)).
    - destruct LG as [[_ ->]|(before & v & o & _ & R)]; [exact LO|]. destruct (SA before v o out R) as [-> _]. exact LO.
  Qed.
  (** And for a Dataset. *)
  Theorem C111_set_partial c H0 H x db q w (u : dataset) m src gin grid v0 s' r :
    source (ds_grid u) (x_grid_spec w) (accessor (XSet u)) src None -> mir_grid src = Ok gin -> x_grid w = Some grid ->
    forall HH, HH = H0 ++ H ++ [the_call x m (x_rest w) (g_spec gin) grid v0] ->
    (forall b, 0 <= n_size (weigh b)) -> fixed_length sha -> float_texts float_text -> names HH -> proper_all load_npz (called HH) ->
    cleared H0 -> known_between (H0 ++ H) -> sound_calls HH HH -> only_inventory "inventory" (x_rest w) db ->
    (forall gi go, IndexSpec.request (g_spec gin) grid gi go -> only_to q (H ++ [the_call x m (x_rest w) (g_spec gin) grid v0]) gi go m) ->
    NoDup (akeys (ds_vars u)) -> (forall n a, In (n, a) (ds_vars u) -> well_formed a) ->
    (forall in_dims n a, input_dims (x_in_dims w) (ds_sizes u) in_dims -> In (n, a) (ds_vars u) -> nonempty a in_dims) ->
    delivered (pafter (einit c) (H0 ++ H)) x (VStr m) (VStr "precomputed") w (ds_grid u) (accessor (XSet u)) ->
    xarray_regrid x (VStr m) (VStr "precomputed") w (XSet u) (pafter (einit c) (H0 ++ H)) = (s', Ok r) ->
    exists b gout in_dims out_dims, r = XSet b /\ mir_grid grid = Ok gout /\
      input_dims (x_in_dims w) (ds_sizes u) in_dims /\ output_dims (x_out_dims w) (g_shape gout) out_dims /\
      Forall2 (fun v v' => fst v' = fst v /\
        sliced cast (fun v o => answered HH (H ++ [the_call x m (x_rest w) (g_spec gin) grid v0]) q v (g_spec gin) grid m o) in_dims out_dims (g_shape gout) (snd v) (snd v')) (ds_vars u) (ds_vars b) /\
      located_on mir_grid grid (ds_coords b).
  Proof.
    intros SO GI XG HH EH WP FL FT NM PF CL KB SC OI AO NK W NE D Q.
    destruct (C110_set_partial cast mir_grid accessor zero add mul efind mir_array mir_grib field_values field_grid field_with field_message message_field grid_val
      (pafter (einit c) (H0 ++ H)) x (VStr m) (VStr "precomputed") w u s' r NK W D NE Q) as (b & src' & left & gin' & grid' & gout & ind & outd & kw & ls & l & -> & SO' & GI' & XG' & GO & ID & OD & PA & _ & _ & LI & SL & out & LG & LO).
    rewrite XG in XG'. injection XG' as <-.
    assert (EQ : src' = src /\ left = None).
    { destruct SO as [[S1 S2]|[(S1 & S2 & S3)|(S1 & S2 & S3 & S4)]], SO' as [[T1 T2]|[(T1 & T2 & T3)|(T1 & T2 & T3 & T4)]]; split; congruence. }
    destruct EQ as [-> ->]. rewrite GI in GI'. injection GI' as <-. destruct PA as [[_ ->]|(g0 & E & _)]; [|discriminate E].
    pose proof (fun l v o g => slice_answered c H0 H x db q (x_rest w) m (g_spec gin) grid v0 l v o g HH EH WP FL FT NM PF CL KB SC OI AO) as SA.
    exists b, gout, ind, outd. split; [reflexivity|]. split; [exact GO|]. split; [exact ID|]. split; [exact OD|]. split.
    - eapply Forall2_weaken; [|exact SL]. intros y y' [K S1]. split; [exact K|]. eapply sliced_weaken; [|exact S1]. intros v o (before & behind & o' & _ & R). exact (proj2 (SA before v o o' R)).
    - destruct LG as [[_ ->]|(before & v & o & _ & R)]; [exact LO|]. destruct (SA before v o out R) as [-> _]. exact LO.
  Qed.
End Every.

(** A series of three fields, after the history of [Props_Every2]. *)
Definition xe_geo (d : dict) (n : nat) : geometry dict := mkGeo [n] (Ok (repeat (of_Z 1) n, repeat (of_Z 2) n)) d.
Definition xe_mir (d : dict) : result (geometry dict) := Ok (xe_geo d 2).
Definition xe_acc (_ : xobj Z unit dict unit) : option (option dict) := None.
Definition xe_cast (_ : unit) (v : Z) : Z := v.
Definition xe_data : dataarray Z unit dict unit :=
  mkDA ["time"; "values"] (mkArr [3%nat; 2%nat] (fun idx => Z.of_nat (nth 0 idx 0%nat) * 100 + Z.of_nat (nth 1 idx 0%nat) + 7)) tt [] (Some demo_out).
Definition xe_args : args (spec := dict) := mkArgs (Some ll_out) None None None [("inventory", VStr "d")].
Notation xe_regrid := (xarray_regrid xe_cast xe_mir xe_acc 0 Z.add Z.mul mx_find ll_mir (fun _ => VNone)).
Lemma xe_requested v x q u di do m' gi go : requested ll_values ll_grid (mx_rest ++ [mx_given v matrix_a "d" "linear"]) x q u di do m' -> IndexSpec.request di do gi go ->
  gi = ll_gi /\ (go = ll_gs \/ go = ll_go) /\ net_method m'.
Proof.
  intros R [E1 E2]. assert (T : Forall mx_kind (mx_rest ++ [mx_given v matrix_a "d" "linear"])).
  { pose proof (mx_all_kind (mx_given v matrix_a "d" "linear") (proj2 (mx_kind_fields matrix_a "d" _ _ "linear" (or_introl eq_refl) mi_d (or_introl eq_refl)) v)) as T. unfold mx_all in T. apply Forall_app in T. exact (proj2 T). }
  destruct (mx_requested _ x q u di do m' T R) as (z & w & db & _ & _ & _ & -> & O & M).
  assert (X1 : from_dict demo_out = Ok ll_gi) by (vm_compute; reflexivity). assert (X2 : from_dict ll_out = Ok ll_gs) by (vm_compute; reflexivity). assert (X3 : from_dict (gd ll_gs) = Ok ll_go) by (vm_compute; reflexivity).
  rewrite X1 in E1. apply ok_inj in E1. split; [symmetry; exact E1|]. split; [|exact M]. destruct O as [->| ->]; [rewrite X2 in E2; left|rewrite X3 in E2; right]; apply ok_inj in E2; symmetry; exact E2.
Qed.
Lemma xe_collides v : forall gi go, IndexSpec.request demo_out ll_out gi go -> ~ collides_with ll_values ll_grid toy_sha demo_text (mx_rest ++ [mx_given v matrix_a "d" "linear"]) gi go "linear".
Proof.
  intros gi go [E1 E2] (x & q & u & di & do & m' & gi' & go' & R & RQ & N & E).
  assert (X1 : from_dict demo_out = Ok ll_gi) by (vm_compute; reflexivity). assert (X2 : from_dict ll_out = Ok ll_gs) by (vm_compute; reflexivity). rewrite X1 in E1. rewrite X2 in E2. apply ok_inj in E1, E2. subst gi go.
  destruct (xe_requested v x q u di do m' gi' go' R RQ) as (-> & [->| ->] & [->| ->]); first [apply N; vm_compute; reflexivity|vm_compute in E; discriminate E].
Qed.
Lemma xe_shape v x gi go z sh n : had page_parse page_gunzip page_npz toy_sha toy_ext demo_py COMPARE_KEYS 10 (called ll_values ll_grid (mx_all (mx_given v matrix_a "d" "linear"))) x (Here "d") gi go "linear" z sh -> is_shape sh n -> n = [2%nat].
Proof.
  intros (i & pre & nm & e & post & f & SE & E & _ & _ & _ & _ & SH) IS.
  apply (mx_seen _ _ _ (mx_all_kind (mx_given v matrix_a "d" "linear") (proj2 (mx_kind_fields matrix_a "d" _ _ "linear" (or_introl eq_refl) mi_d (or_introl eq_refl)) v))) in SE. rewrite E in SE.
  assert (IE : In (nm, e) [("w", toy_entry net_index)]) by (rewrite <- SE; apply in_or_app; right; left; reflexivity). destruct IE as [IE|[]]. apply pair_equal_spec in IE. destruct IE as [_ <-].
  assert (X : alookup "shape" (gd (e_output (toy_entry net_index))) = Some (VList [VInt 2])) by (vm_compute; reflexivity). rewrite X in SH. injection SH as <-. apply shape_spec in IS. vm_compute in IS. injection IS as <-. reflexivity.
Qed.
Lemma xe_kind v : mx_kind (mx_given v matrix_a "d" "linear").
Proof. apply (mx_kind_fields matrix_a "d" _ _ "linear" (or_introl eq_refl) mi_d (or_introl eq_refl)). Qed.
Lemma xe_ok : well_formed xe_data /\ forall ds, input_dims None (da_dims xe_data) ds -> nonempty xe_data ds.
Proof.
  split; [split; [repeat constructor; cbn; intuition discriminate|reflexivity]|]. intros ds _ d _ S0. cbn in S0. destruct S0 as [S0|[S0|[]]]; discriminate S0.
Qed.
Notation xe_delivered := (delivered xe_mir 0 Z.add Z.mul mx_find ll_mir ll_grib ll_values ll_grid ll_with ll_message ll_of_message (fun _ => VNone) (mx_after (mx_start ++ mx_rest)) (mx_meets matrix_a) (VStr "linear") (VStr "precomputed") xe_args).
Example C110_met : xe_delivered (da_grid xe_data) (xe_acc (XArray xe_data)).
Proof.
  destruct (C106_met _ (xe_kind demo_values)) as (WP & FL & FT & NM & PF & CL & KB & SC).
  refine (C111_delivered xe_mir (fun _ => VNone) 0 Z.add Z.mul page_parse page_gunzip page_digest page_sha page_npz page_weigh toy_sha "/c" None None true false toy_ext demo_py COMPARE_KEYS 10 (fun x : Z => x) demo_text
    ll_mir ll_grib ll_values ll_grid ll_with ll_message ll_of_message roomy mx_start mx_rest (mx_meets matrix_a) (FromPath "d") (Here "d") xe_args "linear" demo_out (xe_geo demo_out 2) ll_out (xe_geo ll_out 2) demo_values
    (da_grid xe_data) (xe_acc (XArray xe_data)) (or_introl (conj eq_refl eq_refl)) eq_refl eq_refl eq_refl _ eq_refl WP FL FT NM PF CL KB SC (oi_some _ _ _ (proj1 (mx_names _ _ _ mi_d))) _ _).
  - intros gi go RQ. split; [apply mx_only; left; reflexivity|]. split; [apply xe_collides; exact RQ|]. intros x z sh n _. apply xe_shape.
  - intros od OD. cbn in OD. destruct OD as [[_ ->]|[(r & c & more & E) _]]; [|discriminate E]. split; [repeat constructor; cbn; tauto|reflexivity].
Qed.
(** The theorem applied to this series. *)
Example C111_used : exists b, snd (xe_regrid (mx_meets matrix_a) (VStr "linear") (VStr "precomputed") xe_args (XArray xe_data) (mx_after (mx_start ++ mx_rest))) = Ok (XArray b) /\
  map (Regrid.item (da_data b)) [[0; 0]; [0; 1]; [2; 0]; [2; 1]]%nat = [21; 54; 621; 1454] /\
  sliced xe_cast (fun v o => answered 0 Z.add Z.mul page_parse page_gunzip page_npz toy_sha toy_ext demo_py COMPARE_KEYS 10 demo_text ll_values ll_grid
    (mx_all (mx_values matrix_a "d" "linear")) (mx_rest ++ [mx_values matrix_a "d" "linear"]) (Here "d") v demo_out ll_out "linear" o) ["values"] ["values"] [2%nat] xe_data b /\
  located (xe_geo ll_out 2) ["values"] (da_coords b).
Proof.
  destruct (C106_met _ (xe_kind demo_values)) as (WP & FL & FT & NM & PF & CL & KB & SC).
  destruct (xe_regrid (mx_meets matrix_a) (VStr "linear") (VStr "precomputed") xe_args (XArray xe_data) (mx_after (mx_start ++ mx_rest))) as [s' r] eqn:Q.
  assert (R : match r with Ok (XArray b) => map (Regrid.item (da_data b)) [[0; 0]; [0; 1]; [2; 0]; [2; 1]]%nat = [21; 54; 621; 1454] | _ => False end).
  { apply (f_equal snd) in Q. cbn [snd] in Q. rewrite <- Q. vm_compute. reflexivity. }
  destruct r as [[b|u]|e|]; try contradiction. exists b. split; [reflexivity|]. split; [exact R|].
  destruct (C111_array_partial xe_cast xe_mir xe_acc (fun _ => VNone) 0 Z.add Z.mul page_parse page_gunzip page_digest page_sha page_npz page_weigh toy_sha "/c" None None true false toy_ext demo_py COMPARE_KEYS 10 (fun x : Z => x) demo_text
    ll_mir ll_grib ll_values ll_grid ll_with ll_message ll_of_message roomy mx_start mx_rest (mx_meets matrix_a) (FromPath "d") (Here "d") xe_args xe_data "linear" demo_out (xe_geo demo_out 2) ll_out demo_values s' (XArray b)
    (or_introl (conj eq_refl eq_refl)) eq_refl eq_refl _ eq_refl WP FL FT NM PF CL KB SC (oi_some _ _ _ (proj1 (mx_names _ _ _ mi_d)))) as (b' & gout & ind & outd & E & GO & ID & OD & SL & g & MG & LO).
  - intros gi go _. apply mx_only. left. reflexivity.
  - exact (proj1 xe_ok).
  - exact (proj2 xe_ok).
  - exact C110_met.
  - exact Q.
  - injection E as <-. injection GO as <-. injection MG as <-. cbn in ID, OD.
    assert (ind = ["values"]) as ->. { destruct ID as [(pre & E) [->| ->]]; [reflexivity|]. destruct pre as [|? [|? [|? [|]]]]; discriminate E. }
    destruct OD as [[_ ->]|[(r & c & more & E) _]]; [|discriminate E]. split; [exact SL|].
    apply LO; [|left; split; [exists 2%nat; reflexivity|reflexivity]]. left. split; [exists 2%nat; reflexivity|]. eexists _, _. split; [reflexivity|]. split; reflexivity.
Qed.
Example C110_left_met : attr_of (XArray xe_data) = Some demo_out /\ python_kwargs (x_rest xe_args) /\ ~ In "grid_spec" (akeys (x_rest xe_args)) /\ distinct_out xe_args /\
  snd (xe_regrid (mx_meets matrix_a) (VStr "linear") (VStr "precomputed") (mkArgs (Some ll_out) (Some demo_out) None None [("inventory", VStr "d")]) (XArray xe_data) (mx_after (mx_start ++ mx_rest))) = Raise TypeError.
Proof.
  split; [reflexivity|]. split; [split; [repeat constructor; cbn; tauto|split; cbn; intuition discriminate]|]. split; [cbn; intuition discriminate|]. split; [intros ds [E|E]; discriminate E|]. vm_compute. reflexivity.
Qed.

Print Assumptions C110_array_partial.
Print Assumptions C110_set_partial.
Print Assumptions C110_left_refuted.
Print Assumptions C111_delivered.
Print Assumptions C111_array_partial.
Print Assumptions C111_set_partial.
