(** C39-C42, C60, C73-C76: from regrid() to the backends. *)
From Verif Require Import PyBase ListLemmas PyStr Float64 GridSpec GridProofs Dispatch.
Set Default Proof Using "Type".
Local Open Scope string_scope.
Local Open Scope list_scope.
Local Open Scope Z_scope.

(** ** C40: input dispatch *)
(** The kinds of input: earthkit-data field lists and fields (only recognised once the package
    is imported), GRIB messages, xarray objects. *)
Inductive supported (ms : modules) (v : kinds) : handler -> Prop :=
| s_fieldlist : earthkit_data ms = true -> k_fieldlist v = true -> supported ms v HFieldList
| s_field : earthkit_data ms = true -> k_field v = true -> supported ms v HField
| s_bytes : k_bytes v = true -> supported ms v HGrib
| s_bytesio : k_bytesio v = true -> supported ms v HGrib
| s_dataarray : xarray ms = true -> k_dataarray v = true -> supported ms v HXarray
| s_dataset : xarray ms = true -> k_dataset v = true -> supported ms v HXarray.
Lemma supported_matches ms v h : supported ms v h <-> matches ms v h = true.
Proof.
  split.
  - intros H. destruct H; cbn; rewrite ?H, ?H0, ?orb_true_r; reflexivity.
  - destruct h; cbn; rewrite ?andb_true_iff, ?orb_true_iff; intros H.
    + destruct H. apply s_fieldlist; assumption.
    + destruct H. apply s_field; assumption.
    + destruct H; [apply s_bytes|apply s_bytesio]; assumption.
    + destruct H as [A [B|B]]; [apply s_dataarray|apply s_dataset]; assumption.
Qed.
Theorem C40_own_handler ms v h : supported ms v h -> (forall h', supported ms v h' -> h' = h) -> dispatch ms v = Ok h.
Proof.
  intros S U. assert (M : forall h', matches ms v h' = true -> h' = h) by (intros h' M; apply U, supported_matches, M).
  apply supported_matches in S. unfold dispatch, get_data_handler, DATA_HANDLERS. cbn [find].
  destruct (matches ms v HFieldList) eqn:A; [rewrite (M _ A); reflexivity|].
  destruct (matches ms v HField) eqn:B; [rewrite (M _ B); reflexivity|].
  destruct (matches ms v HGrib) eqn:C; [rewrite (M _ C); reflexivity|].
  destruct (matches ms v HXarray) eqn:D; [rewrite (M _ D); reflexivity|].
  destruct h; congruence.
Qed.
Theorem C40_refused ms v : (forall h, ~ supported ms v h) <-> dispatch ms v = Raise ValueError.
Proof.
  assert (E : dispatch ms v = Raise ValueError <-> forall h, matches ms v h = false).
  { unfold dispatch, get_data_handler. destruct (find (matches ms v) DATA_HANDLERS) as [h|] eqn:F.
    - apply find_some in F. destruct F as [_ F]. split; [discriminate|]. intros H. rewrite H in F. discriminate F.
    - split; [|reflexivity]. intros _ h. apply (find_none _ _ F). destruct h; cbn; tauto. }
  rewrite E. split; intros H h; [destruct (matches ms v h) eqn:M; [|reflexivity]; apply supported_matches in M; destruct (H h M)|].
  intros S. apply supported_matches in S. rewrite H in S. discriminate S.
Qed.
(** A value that passes for several kinds goes to the first of the list. *)
Theorem C40_chosen ms v h : dispatch ms v = Ok h -> supported ms v h.
Proof.
  unfold dispatch, get_data_handler. destruct (find (matches ms v) DATA_HANDLERS) as [h'|] eqn:F; [|discriminate].
  intros H. inversion H; subst. apply find_some in F. apply supported_matches. apply F.
Qed.
Example C40_example : dispatch (mkModules true true) (mkKinds false true false false false false) = Ok HField /\
  dispatch (mkModules false false) (mkKinds false false true false false false) = Ok HGrib /\
  dispatch (mkModules false true) (mkKinds true false false false false false) = Raise ValueError.
Proof. repeat split. Qed.

(** ** C73: the backend, its inventory and the other options are taken apart correctly *)
Theorem C73_backend kwargs name b_kw kw : NoDup (akeys kwargs) -> backend_from_kwargs kwargs = Ok (name, b_kw, kw) ->
  alookup "backend" kwargs = Some name /\ name <> VNone /\
  (forall k, alookup k b_kw = if String.eqb k "inventory" then alookup k kwargs else None) /\
  (forall k, alookup k kw = if String.eqb k "inventory" || String.eqb k "backend" then None else alookup k kwargs).
Proof.
  intros N H. unfold backend_from_kwargs, pop in H. destruct (alookup "backend" kwargs) as [n|] eqn:B; [|discriminate H].
  assert (R : forall k (d : dict), alookup k (aremove k d) = None) by (intros; apply alookup_aremove_eq).
  assert (R' : forall k k' (d : dict), k <> k' -> alookup k (aremove k' d) = alookup k d) by (intros; apply alookup_aremove_neq; congruence).
  cbn [fold_left OPTIONAL_BACKENDS_KWARGS] in H. rewrite R' in H by discriminate.
  assert (G : exists l kw', (match alookup "inventory" kwargs with Some v => ([("inventory", v)], aremove "inventory" (aremove "backend" kwargs)) | None => ([], aremove "backend" kwargs) end) = (l, kw') /\
     (name, b_kw, kw) = (n, l, kw') /\ n <> VNone).
  { cbn [app] in H. destruct (alookup "inventory" kwargs); (destruct n; [discriminate H|..]; inversion H; subst; do 2 eexists; (split; [reflexivity|split; [reflexivity|discriminate]])). }
  destruct G as (l & kw' & E & Q & NN). inversion Q; subst. clear Q H. split; [reflexivity|]. split; [exact NN|].
  destruct (alookup "inventory" kwargs) as [v|] eqn:I; inversion E; subst; clear E.
  - split; intros k.
    + cbn [alookup]. destruct (String.eqb_spec k "inventory"); [subst; symmetry; exact I|reflexivity].
    + destruct (String.eqb_spec k "inventory") as [->|N1]; [apply R|]. destruct (String.eqb_spec k "backend") as [->|N2].
      * cbn [orb]. rewrite R' by discriminate. apply R.
      * cbn [orb]. rewrite !R' by assumption. reflexivity.
  - split; intros k.
    + destruct (String.eqb_spec k "inventory"); [subst; symmetry; exact I|reflexivity].
    + destruct (String.eqb_spec k "inventory") as [->|N1]; [cbn [orb]; rewrite R' by discriminate; exact I|].
      destruct (String.eqb_spec k "backend") as [->|N2]; [apply R|]. cbn [orb]. apply R'. assumption.
Qed.
Theorem C73_no_backend kwargs : alookup "backend" kwargs = None \/ alookup "backend" kwargs = Some VNone -> backend_from_kwargs kwargs = Raise ValueError.
Proof. intros [H|H]; unfold backend_from_kwargs, pop; rewrite H; reflexivity. Qed.
Example C73_example : backend_from_kwargs [("interpolation", VStr "linear"); ("inventory", VStr "/x"); ("backend", VStr "precomputed")] =
  Ok (VStr "precomputed", [("inventory", VStr "/x")], [("interpolation", VStr "linear")]).
Proof. reflexivity. Qed.

(** ** C42: one backend object per name and inventory *)
Section Maker.
  Variable backends : list string.
  Variable construct : string -> dict -> result unit.
  Notation get_backend := (get_backend backends construct).
  Notation calls := (calls backends construct).

  (** Arguments as users give them: strings or None. *)
  Definition plain (d : dict) : Prop := Forall (fun p => snd p = VNone \/ exists s, snd p = VStr s) d.
  Lemma plain_hashable d : plain d -> forallb (fun p => hashable (snd p)) d = true.
  Proof using. clear. intros P. apply forallb_forall. intros p I. unfold plain in P. rewrite Forall_forall in P. destruct (P p I) as [->|[s ->]]; reflexivity. Qed.
  Lemma items_eq_spec a b : plain a -> (items_eq a b = true <-> a = b).
  Proof using.
    clear. revert b. induction a as [|[k v] a IH]; intros [|[k' v'] b] P; cbn; try (split; [discriminate||reflexivity|discriminate||reflexivity]).
    inversion P as [|? ? P1 P2]; subst. cbn [snd] in P1. rewrite !andb_true_iff, IH by exact P2. rewrite String.eqb_eq.
    assert (E : py_eq v v' = true <-> v = v').
    { destruct P1 as [->|[s ->]]; destruct v'; cbn; try (split; [discriminate|discriminate||congruence]); try tauto. rewrite String.eqb_eq. split; congruence. }
    rewrite E. split; [intros [[-> ->] ->]; reflexivity|intros H; inversion H; auto].
  Qed.
  Lemma key_eq_spec n kw n' kw' : plain kw -> (key_eq (make_key n kw) (make_key n' kw') = true <-> n = n' /\ kw = kw').
  Proof using.
    clear. intros P. destruct kw as [|p kw], kw' as [|p' kw']; cbn [make_key key_eq].
    - rewrite String.eqb_eq. split; [intros ->; auto|tauto].
    - split; [discriminate|intros [_ H]; discriminate H].
    - split; [discriminate|intros [_ H]; discriminate H].
    - rewrite andb_true_iff, String.eqb_eq, items_eq_spec by exact P. tauto.
  Qed.

  (** Reachable makers. *)
  Definition maker_ok (m : maker) : Prop :=
    Forall (fun p => fst p = make_key (o_name (snd p)) (o_kwargs (snd p)) /\ plain (o_kwargs (snd p)) /\ (o_id (snd p) < m_count m)%nat) (m_objects m) /\
    (forall p q, In p (m_objects m) -> In q (m_objects m) -> o_id (snd p) = o_id (snd q) -> p = q) /\
    (forall p q, In p (m_objects m) -> In q (m_objects m) -> fst p = fst q -> p = q).
  Lemma get_ok m n kw : maker_ok m -> plain kw ->
    maker_ok (fst (get_backend m n kw)) /\ incl (m_objects m) (m_objects (fst (get_backend m n kw))) /\
    (forall o, snd (get_backend m n kw) = Ok o -> o_name o = n /\ o_kwargs o = kw /\ In (make_key n kw, o) (m_objects (fst (get_backend m n kw)))) /\
    (forall o, In (make_key n kw, o) (m_objects m) -> snd (get_backend m n kw) = Ok o) /\
    (is_ok (snd (get_backend m n kw)) = false -> fst (get_backend m n kw) = m).
  Proof.
    intros (F & U & V) P. unfold Dispatch.get_backend.
    assert (HK : key_hashable (make_key n kw) = true) by (destruct kw as [|p kw]; [reflexivity|exact (plain_hashable _ P)]).
    rewrite HK. cbn [negb].
    assert (K : forall p, In p (m_objects m) -> key_eq (fst p) (make_key n kw) = true <-> o_name (snd p) = n /\ o_kwargs (snd p) = kw).
    { intros p I. rewrite Forall_forall in F. destruct (F p I) as (E & Q & _). rewrite E. apply key_eq_spec. exact Q. }
    destruct (find (fun p => key_eq (fst p) (make_key n kw)) (m_objects m)) as [[k o]|] eqn:FD.
    - apply find_some in FD. destruct FD as [I E]. pose proof (proj1 (K _ I) E) as [N Q]. cbn [fst snd] in *.
      split; [exact (conj F (conj U V))|]. split; [apply incl_refl|]. split; [|split].
      + intros o' H. inversion H; subst o'. split; [exact N|]. split; [exact Q|]. rewrite Forall_forall in F. destruct (F _ I) as (E' & _). cbn in E'. rewrite N, Q in E'. subst k. exact I.
      + intros o' I'. f_equal. rewrite Forall_forall in F. destruct (F _ I) as (E' & _). cbn in E'. rewrite N, Q in E'. assert (G := V _ _ I I' E'). inversion G. reflexivity.
      + discriminate.
    - assert (NO : forall o, ~ In (make_key n kw, o) (m_objects m)).
      { intros o I. pose proof (find_none _ _ FD _ I) as Q. cbn [fst] in Q. assert (T : key_eq (make_key n kw) (make_key n kw) = true) by (apply key_eq_spec; [exact P|auto]). congruence. }
      assert (SAME : forall e : result obj, is_ok e = false ->
        maker_ok (fst (m, e)) /\ incl (m_objects m) (m_objects (fst (m, e))) /\
        (forall o, snd (m, e) = Ok o -> o_name o = n /\ o_kwargs o = kw /\ In (make_key n kw, o) (m_objects (fst (m, e)))) /\
        (forall o, In (make_key n kw, o) (m_objects m) -> snd (m, e) = Ok o) /\ (is_ok (snd (m, e)) = false -> fst (m, e) = m)).
      { intros e He. cbn [fst snd]. split; [exact (conj F (conj U V))|]. split; [apply incl_refl|]. split; [intros o ->; discriminate He|]. split; [|reflexivity]. intros o I. destruct (NO o I). }
      destruct (existsb (String.eqb n) backends); [|apply SAME; reflexivity].
      destruct (construct n kw) as [[]|e|]; [|apply SAME; reflexivity..]. cbn [fst snd m_objects m_count]. clear SAME.
      split; [|split; [|split; [|split]]].
      + split; [|split].
        * apply Forall_app. split; [|constructor; [|constructor]]; cbn.
          -- eapply Forall_impl; [|exact F]. cbn. intros p (A & B & C). split; [exact A|]. split; [exact B|lia].
          -- split; [reflexivity|]. split; [exact P|lia].
        * intros p r I J E. cbn [m_objects] in I, J. apply in_app_or in I, J. rewrite Forall_forall in F. destruct I as [I|[<-|[]]], J as [J|[<-|[]]].
          -- apply U; assumption.
          -- destruct (F _ I) as (_ & _ & L). cbn in E. lia.
          -- destruct (F _ J) as (_ & _ & L). cbn in E. lia.
          -- reflexivity.
        * intros p r I J E. cbn [m_objects] in I, J. apply in_app_or in I, J. destruct I as [I|[<-|[]]], J as [J|[<-|[]]].
          -- apply V; assumption.
          -- destruct p as [k o]. cbn in E. subst k. destruct (NO o I).
          -- destruct r as [k o]. cbn in E. subst k. destruct (NO o J).
          -- reflexivity.
      + apply incl_appl, incl_refl.
      + intros o H. inversion H; subst o. cbn. split; [reflexivity|]. split; [reflexivity|]. apply in_or_app. right. left. reflexivity.
      + intros o I. destruct (NO o I).
      + discriminate.
  Qed.
  Lemma calls_ok l : forall m, maker_ok m -> Forall (fun c => plain (snd c)) l ->
    incl (m_objects m) (m_objects (fst (calls m l))) /\ maker_ok (fst (calls m l)) /\
    Forall2 (fun c x => forall o, x = Ok o -> o_name o = fst c /\ o_kwargs o = snd c /\ In (make_key (fst c) (snd c), o) (m_objects (fst (calls m l)))) l (snd (calls m l)).
  Proof.
    induction l as [|[n kw] l IH]; intros m M F; cbn [Dispatch.calls].
    - cbn. split; [apply incl_refl|]. split; [exact M|constructor].
    - inversion F as [|? ? F1 F2]; subst. cbn [snd] in F1. destruct (get_ok m n kw M F1) as (A & B & C & _).
      destruct (get_backend m n kw) as [m1 x] eqn:G. cbn [fst snd] in *. destruct (IH m1 A F2) as (D & E & H).
      destruct (calls m1 l) as [m2 xs] eqn:R. cbn [fst snd] in *. split; [eapply incl_tran; eassumption|]. split; [exact E|]. constructor; [|exact H].
      intros o ->. destruct (C o eq_refl) as (N & Q & I). cbn. auto.
  Qed.
  Definition no_objects : maker := mkMaker [] 0.
  Lemma no_objects_ok : maker_ok no_objects.
  Proof using. clear. split; [constructor|]. split; intros p q []. Qed.
  (** In any history of calls, two calls that succeed get the same object exactly if they ask for
      the same backend with the same arguments, and the object was made for those. *)
  Theorem C42_objects l i j ci cj oi oj : Forall (fun c => plain (snd c)) l ->
    nth_error l i = Some ci -> nth_error l j = Some cj ->
    nth_error (snd (calls no_objects l)) i = Some (Ok oi) -> nth_error (snd (calls no_objects l)) j = Some (Ok oj) ->
    (o_name oi, o_kwargs oi) = ci /\ (o_id oi = o_id oj <-> ci = cj) /\ (o_id oi = o_id oj <-> oi = oj).
  Proof.
    intros P Li Lj Ri Rj. destruct (calls_ok l no_objects no_objects_ok P) as (_ & (F & U & V) & H).
    assert (G : forall k c o, nth_error l k = Some c -> nth_error (snd (calls no_objects l)) k = Some (Ok o) ->
      o_name o = fst c /\ o_kwargs o = snd c /\ In (make_key (fst c) (snd c), o) (m_objects (fst (calls no_objects l)))).
    { clear - H. generalize dependent (snd (calls no_objects l)). generalize (m_objects (fst (calls no_objects l))) as objs. intros objs xs H. induction H as [|c x l xs A H IH]; intros [|k] c' o Lk Rk; cbn in *; try discriminate.
      - inversion Lk; subst. inversion Rk; subst. auto.
      - exact (IH k c' o Lk Rk). }
    destruct (G _ _ _ Li Ri) as (A & B & I), (G _ _ _ Lj Rj) as (C & D & J). destruct ci as [ni ki], cj as [nj kj]. cbn [fst snd] in *. subst.
    split; [reflexivity|]. assert (X : o_id oi = o_id oj <-> oi = oj).
    { split; [intros E; pose proof (U _ _ I J E) as Q; inversion Q; reflexivity|intros ->; reflexivity]. }
    split; [|exact X]. rewrite X. split; [intros ->; reflexivity|]. intros E. inversion E as [[E1 E2]].
    assert (Q := V _ _ I J). cbn [fst] in Q. rewrite E1, E2 in Q. specialize (Q eq_refl). inversion Q. reflexivity.
  Qed.
  (** What fails is not remembered. *)
  Theorem C42_failures m n kw : maker_ok m -> plain kw -> is_ok (snd (get_backend m n kw)) = false -> fst (get_backend m n kw) = m.
  Proof. intros M P. apply get_ok; assumption. Qed.
  Theorem C42_unknown m n kw : maker_ok m -> plain kw -> ~ In n backends -> (forall p, In p (m_objects m) -> In (o_name (snd p)) backends) ->
    snd (get_backend m n kw) = Raise ValueError.
  Proof.
    intros M P N A. destruct (snd (get_backend m n kw)) as [o|e|] eqn:E.
    - destruct (get_ok m n kw M P) as (_ & _ & C & _ & _). pose proof (C o E) as (Q & _ & I). exfalso.
      revert E I. unfold Dispatch.get_backend. destruct (negb (key_hashable (make_key n kw))); [discriminate|].
      destruct (find _ (m_objects m)) as [[k o']|] eqn:FD.
      + cbn. intros E I. inversion E; subst o'. apply find_some in FD. destruct FD as [J _]. apply N. rewrite <- Q. exact (A _ J).
      + assert (X : existsb (String.eqb n) backends = false) by (apply not_true_is_false; intros X; apply existsb_exists in X; destruct X as (y & Y & Z); apply String.eqb_eq in Z; subst y; exact (N Y)).
        rewrite X. discriminate.
    - revert E. unfold Dispatch.get_backend. assert (HK : key_hashable (make_key n kw) = true) by (destruct kw as [|p kw]; [reflexivity|exact (plain_hashable _ P)]).
      rewrite HK. cbn [negb]. destruct (find _ (m_objects m)) as [[k o']|]; [discriminate|].
      assert (X : existsb (String.eqb n) backends = false) by (apply not_true_is_false; intros X; apply existsb_exists in X; destruct X as (y & Y & Z); apply String.eqb_eq in Z; subst y; exact (N Y)).
      rewrite X. cbn. auto.
    - revert E. unfold Dispatch.get_backend. destruct (negb (key_hashable (make_key n kw))); [discriminate|]. destruct (find _ (m_objects m)) as [[k o']|]; [discriminate|].
      assert (X : existsb (String.eqb n) backends = false) by (apply not_true_is_false; intros X; apply existsb_exists in X; destruct X as (y & Y & Z); apply String.eqb_eq in Z; subst y; exact (N Y)).
      rewrite X. discriminate.
  Qed.
End Maker.
Definition ctor (n : string) (kw : dict) : result unit :=
  if String.eqb n "precomputed" then x <- get_db (match alookup "inventory" kw with Some v => v | None => VNone end) ;; Ok tt else Ok tt.
Example C42_example :
  map (fun x => match x with Ok o => Some (o_id o) | _ => None end)
    (snd (calls BACKENDS ctor no_objects [("precomputed", [("inventory", VStr "/a")]); ("mir", []); ("precomputed", [("inventory", VStr "")]); ("precomputed", [("inventory", VStr "/a")]); ("nope", []); ("precomputed", [])]))
  = [Some 0%nat; Some 1%nat; None; Some 0%nat; None; Some 2%nat].
Proof. reflexivity. Qed.
(** Spelling the default inventory out gives an other object (for the same database). *)
Theorem C42_default_refuted : exists a b c,
  snd (calls BACKENDS ctor no_objects [("precomputed", []); ("precomputed", [("inventory", VNone)]); ("precomputed", [("inventory", VStr "ecmwf")])]) = [Ok a; Ok b; Ok c] /\
  o_id a <> o_id b /\ o_id b <> o_id c /\ get_db VNone = get_db (VStr "ecmwf").
Proof. do 3 eexists. split; [reflexivity|]. cbn. repeat split; discriminate. Qed.

(** ** C74: which database an inventory is *)
Theorem C74_system s : get_db (VStr s) = Ok SysDb <-> s = "ecmwf".
Proof.
  unfold get_db. destruct (String.eqb_spec s "ecmwf") as [->|N]; [tauto|]. split; [|congruence].
  destruct (prefix "http://" s || prefix "https://" s); [discriminate|]. destruct (negb (String.eqb s "")); discriminate.
Qed.
Theorem C74_url s r : s = ("http://" ++ r)%string \/ s = ("https://" ++ r)%string -> get_db (VStr s) = Ok (FromUrl s).
Proof.
  intros H. unfold get_db. destruct (String.eqb_spec s "ecmwf") as [->|N]; [destruct H; discriminate|].
  assert (E : prefix "http://" s || prefix "https://" s = true).
  { destruct H as [->| ->]; unfold prefix; rewrite chars_app; [|rewrite orb_true_iff; right]; reflexivity. }
  rewrite E. reflexivity.
Qed.
Theorem C74_path s : s <> "" -> s <> "ecmwf" -> (forall r, s <> ("http://" ++ r)%string /\ s <> ("https://" ++ r)%string) -> get_db (VStr s) = Ok (FromPath s).
Proof.
  intros NE N H. unfold get_db. destruct (String.eqb_spec s "ecmwf"); [contradiction|].
  assert (PX : forall p t, prefix p t = true -> exists r, t = (p ++ r)%string).
  { clear. unfold prefix. induction p as [|c p IH]; intros t E; [exists t; reflexivity|]. destruct t as [|d t]; [discriminate E|]. cbn in E.
    apply andb_prop in E. destruct E as [E1 E2]. apply Ascii.eqb_eq in E1. subst d. destruct (IH t E2) as [r ->]. exists r. reflexivity. }
  destruct (prefix "http://" s) eqn:A; [destruct (PX _ _ A) as [r R]; destruct (H r); contradiction|].
  destruct (prefix "https://" s) eqn:B; [destruct (PX _ _ B) as [r R]; destruct (H r); contradiction|].
  cbn [orb]. destruct (String.eqb_spec s ""); [contradiction|reflexivity].
Qed.
Theorem C74_empty : get_db (VStr "") = Raise ValueError /\ get_db VNone = Ok SysDb.
Proof. split; reflexivity. Qed.

(** ** C41: options of MIR jobs *)
Section Mir.
  Variable py_str : val -> string.
  Definition options : list string := ["interpolation"; "nearest_method"; "distance"; "distance_tolerance"; "nclosest"].
  Definition documented_default (k : string) : option val := alookup k
    [("interpolation", VStr "linear"); ("nearest_method", VStr "automatic"); ("distance", VInt 1); ("distance_tolerance", VInt 1); ("nclosest", VInt 4)].
  Definition option_value (kwargs : dict) (k : string) : option val :=
    match alookup k kwargs with Some v => Some v | None => documented_default k end.
  (** The area as MIR takes it: north/west/south/east. *)
  Inductive area_text : val -> val -> Prop :=
  | a_string s : area_text (VStr s) (VStr s)
  | a_list n w s e : area_text (VList [n; w; s; e]) (VStr (py_str n ++ "/" ++ py_str w ++ "/" ++ py_str s ++ "/" ++ py_str e)%string)
  | a_tuple n w s e : area_text (VTup [n; w; s; e]) (VStr (py_str n ++ "/" ++ py_str w ++ "/" ++ py_str s ++ "/" ++ py_str e)%string).
  Lemma area_spec a v : normalise_area py_str a = Ok v <-> area_text a v.
  Proof.
    split.
    - destruct a as [|b|z|f|s|l|l]; cbn; try discriminate; [intros H; inversion H; constructor|..];
        (destruct l as [|n [|w [|s [|e [|? ?]]]]]; try discriminate; intros H; inversion H; constructor).
    - intros H. destruct H; reflexivity.
  Qed.
  Lemma lookup_set_all d : forall (j : job) k, NoDup (akeys d) ->
    alookup k (set_all j d) = match alookup k d with Some v => Some (JVal v) | None => alookup k j end.
  Proof using.
    clear. induction d as [|[k' v] d IH]; intros j k N; [reflexivity|]. cbn [akeys] in N. inversion N as [|? ? N1 N2]; subst.
    cbn [set_all fold_left fst snd alookup]. fold (set_all (aset k' (JVal v) j) d). rewrite IH by exact N2. rewrite alookup_aset, String.eqb_sym.
    destruct (String.eqb_spec k k') as [->|NE]; [|reflexivity]. destruct (alookup k' d) eqn:E; [|reflexivity].
    exfalso. apply N1. apply alookup_In in E. apply In_akeys in E. exact E.
  Qed.
  Lemma bound kwargs opts : bind_options kwargs = Ok opts ->
    (forall k, alookup k opts = if existsb (String.eqb k) options then option_value kwargs k else None) /\ akeys opts = options /\
    (forall k v, alookup k kwargs = Some v -> In k options).
  Proof using.
    clear. unfold bind_options. destruct (forallb _ kwargs) eqn:F; [|discriminate]. intros H. inversion H; subst opts. clear H. split; [|split; [reflexivity|]].
    - intros k. unfold option_value, documented_default. cbn [signature map fst snd alookup existsb options].
      destruct (String.eqb_spec k "interpolation") as [->|]; [destruct (alookup _ kwargs); reflexivity|].
      destruct (String.eqb_spec k "nearest_method") as [->|]; [destruct (alookup _ kwargs); reflexivity|].
      destruct (String.eqb_spec k "distance") as [->|]; [destruct (alookup _ kwargs); reflexivity|].
      destruct (String.eqb_spec k "distance_tolerance") as [->|]; [destruct (alookup _ kwargs); reflexivity|].
      destruct (String.eqb_spec k "nclosest") as [->|]; [destruct (alookup _ kwargs); reflexivity|]. reflexivity.
    - intros k v E. rewrite forallb_forall in F. apply alookup_In in E. specialize (F _ E). cbn [fst] in F. unfold amem in F.
      destruct (alookup k signature) eqn:S; [|discriminate F]. apply alookup_In in S. apply In_akeys in S. exact S.
  Qed.
  (** GRIB input: every option given, and the defaults of the others, are part of the job. *)
  Theorem C41_grib grid kwargs j : grib_job py_str grid kwargs = Ok j ->
    (forall k v, alookup k kwargs = Some v -> alookup k j = Some (JVal v)) /\
    (forall k, In k options -> alookup k kwargs = None -> alookup k j = option_map JVal (documented_default k)) /\
    (forall a, alookup "area" grid = Some a -> exists t, area_text a t /\ alookup "area" j = Some (JVal t) /\ alookup "grid" j = Some (JGrid (aremove "area" grid))) /\
    (alookup "area" grid = None -> alookup "area" j = None /\ alookup "grid" j = Some (JGrid grid)).
  Proof.
    intros H. unfold grib_job in H. destruct (bind_options kwargs) as [opts|e|] eqn:B; try discriminate H. cbn [bind] in H.
    destruct (bound _ _ B) as (L & K & G).
    assert (NA : forall v, NoDup (akeys (aset "area" v opts))) by (intros v; apply NoDup_aset; rewrite K; repeat constructor; cbn; intuition discriminate).
    assert (N0 : NoDup (akeys opts)) by (rewrite K; repeat constructor; cbn; intuition discriminate).
    assert (IN : forall k, In k options -> existsb (String.eqb k) options = true) by (intros k I; apply existsb_exists; exists k; split; [exact I|apply String.eqb_refl]).
    assert (NG : forall k, In k options -> k <> "area") by (intros k I ->; cbn in I; intuition discriminate).
    unfold adjust_options in H. destruct (alookup "area" grid) as [a|] eqn:A.
    - destruct (normalise_area py_str a) as [t|e|] eqn:T; try discriminate H. cbn [bind fst snd] in H. inversion H; subst j. clear H.
      assert (LK : forall k, In k options -> alookup k (set_all (aset "grid" (JGrid (aremove "area" grid)) []) (aset "area" t opts)) = option_map JVal (option_value kwargs k)).
      { intros k I. rewrite lookup_set_all by apply NA. rewrite alookup_aset. destruct (String.eqb_spec "area" k) as [E|_]; [destruct (NG k I); congruence|].
        rewrite L, (IN k I). destruct (option_value kwargs k) eqn:V; [reflexivity|]. exfalso. unfold option_value in V. destruct (alookup k kwargs); [discriminate V|].
        cbn in I. repeat (destruct I as [<-|I]; [discriminate V|]). destruct I. }
      split; [intros k v E; rewrite LK by exact (G _ _ E); unfold option_value; rewrite E; reflexivity|].
      split; [intros k I E; rewrite LK by exact I; unfold option_value; rewrite E; reflexivity|].
      split; [|discriminate]. intros a' E. inversion E; subst a'. exists t. split; [apply area_spec; exact T|].
      rewrite !lookup_set_all by apply NA. rewrite !alookup_aset. cbn [String.eqb Ascii.eqb Bool.eqb]. rewrite L. split; reflexivity.
    - cbn [bind fst snd] in H. inversion H; subst j. clear H.
      assert (LK : forall k, In k options -> alookup k (set_all (aset "grid" (JGrid grid) []) opts) = option_map JVal (option_value kwargs k)).
      { intros k I. rewrite lookup_set_all by exact N0. rewrite L, (IN k I). destruct (option_value kwargs k) eqn:V; [reflexivity|]. exfalso. unfold option_value in V. destruct (alookup k kwargs); [discriminate V|].
        cbn in I. repeat (destruct I as [<-|I]; [discriminate V|]). destruct I. }
      split; [intros k v E; rewrite LK by exact (G _ _ E); unfold option_value; rewrite E; reflexivity|].
      split; [intros k I E; rewrite LK by exact I; unfold option_value; rewrite E; reflexivity|].
      split; [discriminate|]. intros _. rewrite !lookup_set_all by exact N0. rewrite !L. split; reflexivity.
  Qed.
  (** Arrays: only the interpolation, the grid and the area. *)
  Theorem C41_array_partial out_grid kwargs j : array_job py_str out_grid kwargs = Ok j ->
    alookup "interpolation" j = option_map JVal (option_value kwargs "interpolation") /\
    (forall a, alookup "area" out_grid = Some a -> exists t, area_text a t /\ alookup "area" j = Some (JVal t) /\ alookup "grid" j = Some (JGrid (aremove "area" out_grid))) /\
    (alookup "area" out_grid = None -> alookup "area" j = None /\ alookup "grid" j = Some (JGrid out_grid)).
  Proof.
    intros H. unfold array_job in H. destruct (bind_options kwargs) as [opts|e|] eqn:B; try discriminate H. cbn [bind] in H.
    destruct (bound _ _ B) as (L & K & G). unfold dget in H. rewrite L in H. cbn [existsb options String.eqb Ascii.eqb Bool.eqb orb] in H.
    unfold adjust_options in H. destruct (alookup "area" out_grid) as [a|] eqn:A.
    - destruct (normalise_area py_str a) as [t|e|] eqn:T; try discriminate H. cbn [bind fst snd] in H.
      destruct (option_value kwargs "interpolation") as [v|] eqn:V; [|discriminate H]. cbn [bind] in H. inversion H; subst j. cbn.
      split; [reflexivity|]. split; [|discriminate]. intros a' E. inversion E; subst a'. exists t. split; [apply area_spec; exact T|]. split; reflexivity.
    - cbn [bind fst snd] in H. destruct (option_value kwargs "interpolation") as [v|] eqn:V; [|discriminate H]. cbn [bind] in H. inversion H; subst j. cbn.
      split; [reflexivity|]. split; [discriminate|]. intros _. split; reflexivity.
  Qed.
  (** An option no backend knows is refused, not ignored. *)
  Theorem C41_unknown_option grid kwargs k v : alookup k kwargs = Some v -> ~ In k options ->
    grib_job py_str grid kwargs = Raise TypeError /\ array_job py_str grid kwargs = Raise TypeError.
  Proof.
    intros E N. assert (B : bind_options kwargs = Raise TypeError).
    { destruct (bind_options kwargs) as [opts|e|] eqn:B.
      - destruct (bound _ _ B) as (_ & _ & G). destruct (N (G _ _ E)).
      - unfold bind_options in B. destruct (forallb _ kwargs) in B; inversion B. reflexivity.
      - unfold bind_options in B. destruct (forallb _ kwargs) in B; discriminate B. }
    unfold grib_job, array_job. rewrite B. split; reflexivity.
  Qed.
  (** For arrays all other options are dropped. *)
  Theorem C41_array_refuted grid kw : array_job py_str grid [("interpolation", VStr "k-nearest-neighbours"); ("nclosest", VInt 7)] =
    array_job py_str grid [("interpolation", VStr "k-nearest-neighbours"); ("nclosest", VInt 1); ("distance", VInt kw)].
  Proof. reflexivity. Qed.
End Mir.
Example C41_example : exists j, grib_job (fun _ => "0") [("grid", VStr "O32"); ("area", VList [VInt 9; VInt 0; VInt 0; VInt 9])] [("nclosest", VInt 7)] = Ok j /\
  alookup "nclosest" j = Some (JVal (VInt 7)) /\ alookup "area" j = Some (JVal (VStr "0/0/0/0")).
Proof. eexists. split; [reflexivity|]. split; reflexivity. Qed.

(** ** C39: fields one by one *)
Section Fields.
  Context {field message values : Type}.
  Variable regrid_one : field -> dict -> result (values * dict).
  Variable out_field : field -> values -> dict -> result field.
  Variable to_message : field -> result message.
  Variable grib_one : message -> dict -> result field.
  Notation regrid_array := (regrid_array field values regrid_one out_field).
  Notation regrid_grib := (regrid_grib field message to_message grib_one).
  Notation alone := (single field).

  Lemma grib_spec fs grid : forall r, grib_loop field message to_message grib_one fs grid r =
    fold_left (fun acc f => l <- acc ;; o <- (m <- to_message f ;; grib_one m grid) ;; Ok (l ++ [o])) fs (Ok r).
  Proof using.
    clear. induction fs as [|f fs IH]; intros r; [reflexivity|]. cbn [grib_loop fold_left bind].
    destruct (to_message f) as [m|e|]; cbn [bind]; [|clear; induction fs; [reflexivity|exact IHfs]..].
    destruct (grib_one m grid) as [o|e|]; cbn [bind]; [apply IH|clear; induction fs; [reflexivity|exact IHfs]..].
  Qed.
  Lemma fold_fields (one : field -> result field) fs : forall r,
    fold_left (fun acc f => l <- acc ;; o <- one f ;; Ok (l ++ [o])) fs (Ok r) =
    (l <- fold_right (fun f acc => o <- one f ;; l <- acc ;; Ok (o :: l)) (Ok []) fs ;; Ok (r ++ l)).
  Proof using.
    clear. induction fs as [|f fs IH]; intros r; cbn [fold_left fold_right bind]; [rewrite app_nil_r; reflexivity|].
    destruct (one f) as [o|e|]; cbn [bind].
    - rewrite IH. destruct (fold_right _ _ fs); cbn [bind]; [rewrite <- app_assoc; reflexivity|reflexivity..].
    - clear. induction fs as [|g fs IH]; [reflexivity|exact IH].
    - clear. induction fs as [|g fs IH]; [reflexivity|exact IH].
  Qed.
  Definition in_turn (one : field -> result field) (fs : list field) : result (list field) :=
    fold_right (fun f acc => o <- one f ;; l <- acc ;; Ok (o :: l)) (Ok []) fs.
  Lemma in_turn_ok one fs rs : in_turn one fs = Ok rs <-> Forall2 (fun f r => one f = Ok r) fs rs.
  Proof using.
    clear. revert rs. induction fs as [|f fs IH]; intros rs; cbn [in_turn fold_right].
    - split; intros H; inversion H; [constructor|reflexivity].
    - fold (in_turn one fs). split.
      + destruct (one f) as [o|e|] eqn:E; try discriminate. cbn [bind]. destruct (in_turn one fs) as [l|e|]; try discriminate. cbn [bind].
        intros H. inversion H; subst. constructor; [exact E|]. apply IH. reflexivity.
      + intros H. inversion H as [|? r ? rs' E F]; subst. rewrite E. cbn [bind]. apply IH in F. rewrite F. reflexivity.
  Qed.
  Lemma in_turn_raise one pre f e post : Forall (fun g => is_ok (one g) = true) pre -> one f = Raise e -> in_turn one (pre ++ f :: post) = Raise e.
  Proof using.
    clear. induction 1 as [|g pre G F IH]; intros E; cbn [in_turn app fold_right]; [rewrite E; reflexivity|].
    fold (in_turn one (pre ++ f :: post)). rewrite (IH E). destruct (one g); try discriminate G. reflexivity.
  Qed.
  Lemma grib_in_turn fs grid : regrid_grib fs grid = in_turn (fun f => m <- to_message f ;; grib_one m grid) fs.
  Proof using.
    clear. unfold Dispatch.regrid_grib. rewrite grib_spec, (fold_fields (fun f => m <- to_message f ;; grib_one m grid)). fold (in_turn (fun f => m <- to_message f ;; grib_one m grid) fs).
    destruct (in_turn _ fs); reflexivity.
  Qed.
  Lemma grib_alone f grid : alone regrid_grib f grid = (m <- to_message f ;; grib_one m grid).
  Proof using.
    clear. unfold single. rewrite grib_in_turn. cbn [in_turn fold_right]. destruct (to_message f); [|reflexivity..]. cbn [bind]. destruct (grib_one a grid); reflexivity.
  Qed.
  (** GRIB path (MIR). *)
  Theorem C39_grib fs grid : regrid_grib fs grid = in_turn (fun f => alone regrid_grib f grid) fs.
  Proof using.
    clear. rewrite grib_in_turn. clear. unfold in_turn. induction fs as [|f fs IH]; [reflexivity|]. cbn [fold_right]. rewrite IH, grib_alone. reflexivity.
  Qed.
  (** Array path: the backend returns the target grid unchanged, as the precomputed one does
      (C38_returns). *)
  Hypothesis keeps_grid : forall f g v g', regrid_one f g = Ok (v, g') -> g' = g.
  Lemma array_spec fs g : forall r, array_loop field values regrid_one out_field fs g r =
    fold_left (fun acc f => l <- acc ;; o <- (vg <- regrid_one f g ;; out_field f (fst vg) g) ;; Ok (l ++ [o])) fs (Ok r).
  Proof using keeps_grid.
    induction fs as [|f fs IH]; intros r; [reflexivity|]. cbn [array_loop fold_left bind].
    destruct (regrid_one f g) as [[v g']|e|] eqn:E; cbn [bind fst snd]; [|clear; induction fs; [reflexivity|assumption]..].
    rewrite (keeps_grid _ _ _ _ E). destruct (out_field f v g) as [o|e|]; cbn [bind]; [apply IH|clear; induction fs; [reflexivity|assumption]..].
  Qed.
  Definition one_array (g : dict) (f : field) : result field := vg <- regrid_one f g ;; out_field f (fst vg) g.
  Lemma array_in_turn fs grid : regrid_array fs grid = (g <- from_dict grid ;; if is_regular_ll g then in_turn (one_array (gd g)) fs else Raise ValueError).
  Proof using keeps_grid.
    unfold Dispatch.regrid_array. destruct (from_dict grid) as [g|e|]; [|reflexivity..]. cbn [bind]. destruct (is_regular_ll g); [|reflexivity].
    rewrite array_spec, (fold_fields (one_array (gd g))). fold (in_turn (one_array (gd g)) fs). destruct (in_turn _ fs); reflexivity.
  Qed.
  Lemma array_alone f grid : alone regrid_array f grid = (g <- from_dict grid ;; if is_regular_ll g then one_array (gd g) f else Raise ValueError).
  Proof using keeps_grid.
    unfold single. rewrite array_in_turn. destruct (from_dict grid) as [g|e|]; [|reflexivity..]. cbn [bind]. destruct (is_regular_ll g); [|reflexivity].
    cbn [in_turn fold_right]. destruct (one_array (gd g) f); reflexivity.
  Qed.
  Theorem C39_array fs grid : fs <> [] -> regrid_array fs grid = in_turn (fun f => alone regrid_array f grid) fs.
  Proof using keeps_grid.
    intros NE. rewrite array_in_turn. destruct fs as [|f0 fs0]; [contradiction|]. clear NE.
    assert (X : forall fs, in_turn (fun f => alone regrid_array f grid) fs = in_turn (fun f => g <- from_dict grid ;; if is_regular_ll g then one_array (gd g) f else Raise ValueError) fs).
    { induction fs as [|f fs IH]; [reflexivity|]. cbn [in_turn fold_right]. fold (in_turn (fun f => alone regrid_array f grid) fs). rewrite IH, array_alone. reflexivity. }
    rewrite X. destruct (from_dict grid) as [g|e|]; [|reflexivity..]. cbn [bind]. destruct (is_regular_ll g); reflexivity.
  Qed.
  Theorem C39_array_empty grid g : from_dict grid = Ok g -> cls g = LL -> regrid_array [] grid = Ok [].
  Proof using. clear. intros E C. unfold Dispatch.regrid_array. rewrite E. cbn [bind]. unfold is_regular_ll. rewrite C. reflexivity. Qed.
  (** The array path takes regular latitude-longitude targets only. *)
  Theorem C39_array_target fs grid g : from_dict grid = Ok g -> cls g <> LL -> regrid_array fs grid = Raise ValueError.
  Proof using. clear. intros E C. unfold Dispatch.regrid_array. rewrite E. cbn [bind]. unfold is_regular_ll. destruct (cls g); try reflexivity. contradiction. Qed.
End Fields.
(** What [in_turn] means: as many results, in order, each that of the field alone; if a field
    fails, its exception and no result. *)
Theorem C39_in_turn {field} (one : field -> result field) fs rs : in_turn one fs = Ok rs <-> Forall2 (fun f r => one f = Ok r) fs rs.
Proof. apply in_turn_ok. Qed.
Theorem C39_failure {field} (one : field -> result field) pre f e post : Forall (fun g => is_ok (one g) = true) pre -> one f = Raise e ->
  in_turn one (pre ++ f :: post) = Raise e.
Proof. apply in_turn_raise. Qed.
Example C39_example :
  let one (f : Z) (g : dict) := if f =? 3 then Raise ValueError else Ok (f * 2, g) in
  let out (f v : Z) (g : dict) := Ok v in
  let grid := [("grid", VList [VInt 1; VInt 1])] in
  regrid_array Z Z one out [1; 2] grid = Ok [2; 4] /\ regrid_array Z Z one out [1; 3; 2] grid = Raise ValueError.
Proof. vm_compute. auto. Qed.

(** ** C75: xarray dimensions *)
Theorem C75_values dims : xr_geo_dims (dims ++ ["values"]) = Ok ["values"].
Proof. unfold xr_geo_dims. rewrite rev_app_distr. reflexivity. Qed.
Theorem C75_lat_lon dims : xr_geo_dims (dims ++ ["latitude"; "longitude"]) = Ok ["latitude"; "longitude"].
Proof. unfold xr_geo_dims. rewrite rev_app_distr. reflexivity. Qed.
Theorem C75_refused dims : (forall d, dims <> d ++ ["values"]) -> (forall d, dims <> d ++ ["latitude"; "longitude"]) -> xr_geo_dims dims = Raise ValueError.
Proof.
  intros A B. unfold xr_geo_dims. destruct (rev dims) as [|x [|y r]] eqn:R; [reflexivity|..].
  - apply (f_equal (@rev string)) in R. rewrite rev_involutive in R. cbn in R. destruct (String.eqb_spec x "values") as [->|]; [destruct (A [] R)|reflexivity].
  - apply (f_equal (@rev string)) in R. rewrite rev_involutive in R. cbn [rev] in R. destruct (String.eqb_spec x "values") as [->|]; [destruct (A _ R)|].
    destruct (String.eqb_spec y "latitude") as [->|]; [|reflexivity]. destruct (String.eqb_spec x "longitude") as [->|]; [|reflexivity].
    exfalso. apply (B (rev r)). rewrite R, <- app_assoc. reflexivity.
Qed.

(** ** C76: the input grid of xarray objects *)
Theorem C76_precedence {grid} (attr kwarg : option grid) acc g k : get_in_grid grid attr kwarg acc = Ok (g, k) ->
  attr = Some g \/ (attr = None /\ kwarg = Some g) \/ (attr = None /\ kwarg = None /\ acc = Some (Some g)).
Proof.
  unfold get_in_grid. destruct attr; [intros H; inversion H; auto|]. destruct kwarg; [intros H; inversion H; auto|]. destruct acc as [[x|]|]; intros H; inversion H; auto.
Qed.
Theorem C76_explicit_partial {grid} (kwarg : grid) acc : get_in_grid grid None (Some kwarg) acc = Ok (kwarg, None).
Proof. reflexivity. Qed.
Theorem C76_refused {grid} (acc : option (option grid)) : (forall g, acc <> Some (Some g)) -> get_in_grid grid None None acc = Raise ValueError.
Proof. intros H. unfold get_in_grid. destruct acc as [[g|]|]; [destruct (H g eq_refl)|reflexivity..]. Qed.
(** If the data carry a grid, the one given by the caller is not used, and is left among the
    options of the backend (which refuses it: C41_unknown_option). *)
Theorem C76_explicit_refuted : get_in_grid Z (Some 1) (Some 2) None = Ok (1, Some 2) /\ ~ In "grid_spec" options.
Proof. split; [reflexivity|]. cbn. intuition discriminate. Qed.

(** ** C60: distinct latitudes and longitudes *)
Lemma fsub_same x : finite x = true -> exists s, fsub x x = S754_zero s.
Proof.
  destruct x as [s|s| |s m e]; try discriminate; intros _; unfold fsub, SFsub.
  - destruct s; exists false; reflexivity.
  - cbv zeta. rewrite Z.sub_diag. exists false. reflexivity.
Qed.
Lemma close_zero s t : isclose (S754_zero s) (S754_zero t) = true.
Proof. destruct s, t; vm_compute; reflexivity. Qed.
(** Rows of one repeated value (at least two columns) are accepted, with that value. *)
Theorem C60_constant_partial rows : rows <> [] -> Forall (fun p => finite (fst p) = true) rows ->
  distinct (map (fun p => repeat (fst p) (S (S (snd p)))) rows) = Ok (Some (map fst rows)).
Proof.
  intros NE F. assert (R : forall x n, finite x = true -> distinct_row (repeat x (S (S n))) = Ok (Some x)).
  { clear. intros x n Fx. destruct (fsub_same x Fx) as [s E]. assert (D : forall n, diff (repeat x (S n)) = repeat (S754_zero s) n).
    { induction n0 as [|n0 IH]; [reflexivity|]. change (repeat x (S (S n0))) with (x :: x :: repeat x n0). cbn [diff]. rewrite E. change (repeat (S754_zero s) (S n0)) with (S754_zero s :: repeat (S754_zero s) n0). f_equal. exact IH. }
    unfold distinct_row. rewrite D. cbn [repeat]. assert (A : forallb (fun y => isclose y (S754_zero s)) (S754_zero s :: repeat (S754_zero s) n) = true).
    { apply forallb_forall. intros y I. change (S754_zero s :: repeat (S754_zero s) n) with (repeat (S754_zero s) (S n)) in I. apply repeat_spec in I. subst y. apply close_zero. }
    rewrite A. reflexivity. }
  assert (L : forall rows r, Forall (fun p => finite (fst p) = true) rows -> distinct_loop (map (fun p => repeat (fst p) (S (S (snd p)))) rows) r = Ok (Some (r ++ map fst rows))).
  { clear - R. induction rows as [|[x n] rows IH]; intros r F; cbn [map distinct_loop]; [rewrite app_nil_r; reflexivity|].
    inversion F as [|? ? F1 F2]; subst. cbn [fst snd] in *. rewrite (R x n F1). cbn [bind]. rewrite IH by exact F2. rewrite <- app_assoc. reflexivity. }
  unfold distinct. destruct rows as [|p rows]; [contradiction|]. cbn [map]. exact (L (p :: rows) [] F).
Qed.
(** What is returned is the first value of each row. *)
Theorem C60_first_partial rows r : distinct rows = Ok (Some r) -> Forall2 (fun vals v => exists l, vals = v :: l) rows r.
Proof.
  assert (L : forall rows acc r, distinct_loop rows acc = Ok (Some r) -> exists r', r = acc ++ r' /\ Forall2 (fun vals v => exists l, vals = v :: l) rows r').
  { clear. induction rows as [|vals rows IH]; intros acc r H; cbn [distinct_loop] in H.
    - inversion H; subst. exists []. split; [rewrite app_nil_r; reflexivity|constructor].
    - unfold distinct_row in H. destruct (diff vals) as [|d delta]; [discriminate H|]. destruct vals as [|v vals]; [discriminate H|]. cbn [bind] in H.
      destruct (forallb _ (d :: delta)); [|discriminate H]. apply IH in H. destruct H as (r' & -> & F). exists (v :: r'). split; [rewrite <- app_assoc; reflexivity|].
      constructor; [eauto|exact F]. }
  intros H. unfold distinct in H. destruct rows as [|v rows]; [discriminate H|]. destruct (L _ _ _ H) as (r' & -> & F). exact F.
Qed.
(** Evenly spaced latitudes along a row are accepted too: 0, 1, 2 is reported as constant 0. *)
Theorem C60_sound_refuted : distinct [[of_Z 0; of_Z 1; of_Z 2]; [of_Z 5; of_Z 7; of_Z 9]] = Ok (Some [of_Z 0; of_Z 5]).
Proof. vm_compute. reflexivity. Qed.
Example C60_example : distinct [[of_Z 0; of_Z 1; of_Z 4]] = Ok None /\ distinct [[of_Z 0]] = Raise IndexError.
Proof. vm_compute. auto. Qed.

Print Assumptions C40_own_handler.
Print Assumptions C40_refused.
Print Assumptions C40_chosen.
Print Assumptions C73_backend.
Print Assumptions C73_no_backend.
Print Assumptions C42_objects.
Print Assumptions C42_failures.
Print Assumptions C42_unknown.
Print Assumptions C42_default_refuted.
Print Assumptions C74_system.
Print Assumptions C74_url.
Print Assumptions C74_path.
Print Assumptions C74_empty.
Print Assumptions C41_grib.
Print Assumptions C41_array_partial.
Print Assumptions C41_unknown_option.
Print Assumptions C41_array_refuted.
Print Assumptions C39_grib.
Print Assumptions C39_array.
Print Assumptions C39_array_empty.
Print Assumptions C39_array_target.
Print Assumptions C39_in_turn.
Print Assumptions C39_failure.
Print Assumptions C75_values.
Print Assumptions C75_lat_lon.
Print Assumptions C75_refused.
Print Assumptions C76_precedence.
Print Assumptions C76_refused.
Print Assumptions C76_explicit_partial.
Print Assumptions C76_explicit_refuted.
Print Assumptions C60_constant_partial.
Print Assumptions C60_first_partial.
Print Assumptions C60_sound_refuted.
