(** Lemmas about remote inventories with the cache policy "off": files do not matter. *)
From Verif Require Import PyBase ListLemmas PyStr Float64 GridSpec GridVocab Index IndexSpec Db MemCache Inventory Regrid System SystemSpec
  Disk Key KeySpec KeyProofs Props_Key CacheFile Props_CacheFile Remote RemoteSpec RemoteOff RemoteOffSpec.
Set Default Proof Using "Type".
Local Open Scope string_scope.
Local Open Scope list_scope.
Local Open Scope Z_scope.

(** The memory cache uses only what its callables give for the request. *)
Lemma get_same {Req Ent W} (key_of : Req -> string) (est size : _ -> Z) (i j : inventory Req Ent W) q (s : MemCache.state W) :
  i_find i q = i_find j q -> (forall e, i_load i e = i_load j e) -> MemCache.get key_of est size i q s = MemCache.get key_of est size j q s.
Proof.
  intros F L. assert (C : MemCache.create i q = MemCache.create j q).
  { unfold MemCache.create. rewrite F. destruct (i_find j q) as [[e|]|x|]; cbn [bind]; [|reflexivity..]. unfold create_from_entry. rewrite L. reflexivity. }
  assert (K : create_calls i q = create_calls j q) by (unfold create_calls; rewrite F; reflexivity).
  assert (P : create_with_pre_check est i q s = create_with_pre_check est j q s).
  { unfold create_with_pre_check. rewrite F. destruct (i_find j q) as [[e|]|x|]; [|reflexivity..]. destruct (max_mem s); [|reflexivity].
    match goal with |- (let '(_, _) := ?X in _) = _ => destruct X as [s2 r2] end. destruct r2; [|reflexivity..]. unfold create_from_entry. rewrite L. reflexivity. }
  unfold MemCache.get. rewrite C, K, P. reflexivity.
Qed.

Section Files.
  Context {A rest blob : Type}.
  Variable parse : blob -> result (file rest).
  Variable gunzip : blob -> result blob.
  Variable digest : blob -> result string.
  Variable load_npz : blob -> result (csr A).
  Variable weigh : blob -> node.
  Variable sha : string -> string.
  Variable dir : string.
  Variable ext_of : string -> string.
  Variables (py_str : val -> string) (key_order : list string) (fuel : nat).
  Hypothesis FL : fixed_length sha.
  Notation world := (@world blob).
  Notation omeets := (@omeets blob).
  Notation off_download := (off_download weigh sha dir ext_of).
  Notation off_get := (off_get gunzip digest weigh sha dir ext_of).
  Notation off_got := (@off_got rest blob gunzip digest weigh sha dir ext_of).
  Notation off_load := (off_load parse gunzip digest weigh sha dir ext_of).
  Notation off_index_find := (@off_index_find rest blob py_str key_order fuel).
  Notation off_find_entry := (off_find_entry parse gunzip digest weigh sha dir ext_of py_str key_order fuel).
  Notation off_weights := (@off_weights A rest blob load_npz weigh sha dir ext_of).
  Notation drawn := (drawn sha).
  Implicit Types (w : world) (x : omeets) (ks : list string).

  (** Files whose names have the hash [k] in them; all files have one of [ks]. *)
  Definition labelled (k p : string) : Prop := exists o r, (o = "url" \/ o = "regrid") /\ p = (dir ++ "/" ++ o ++ "-" ++ k ++ r)%string.
  Definition named_in ks w : Prop := forall p, there w p = true -> exists t, In (drawn t) ks /\ labelled (drawn t) p.
  Lemma labelled_one t t' p : labelled (drawn t) p -> labelled (drawn t') p -> drawn t = drawn t'.
  Proof using FL.
    intros (o & r & O & E) (o' & r' & O' & E'). rewrite E in E'. apply sapp_inv_head in E'. apply (sapp_inv_head "/") in E'.
    assert (o = o') as ->. { destruct O as [->| ->], O' as [->| ->]; try reflexivity; discriminate E'. }
    apply sapp_inv_head in E'. apply (sapp_inv_head "-") in E'. apply sapp_same_length in E'; [|apply FL]. apply E'.
  Qed.
  Lemma off_path_labelled q t : lower (q_owner q) = "url" \/ lower (q_owner q) = "regrid" -> labelled (drawn t) (off_path sha dir q (fst t) (snd t)).
  Proof. intros O. exists (lower (q_owner q)), (q_ext q). split; [exact O|reflexivity]. Qed.
  Lemma sapp_more a b c : ((a ++ b) ++ c)%string = (a ++ b ++ c)%string.
  Proof. induction a as [|d a IH]; cbn; [reflexivity|]. rewrite IH. reflexivity. Qed.
  Lemma labelled_tmp k p s : labelled k p -> labelled k (p ++ s)%string.
  Proof. intros (o & r & O & ->). exists o, (r ++ s)%string. split; [exact O|]. rewrite !sapp_more. reflexivity. Qed.
  Lemma named_more ks ks' w : (forall k, In k ks -> In k ks') -> named_in ks w -> named_in ks' w.
  Proof. intros I N p T. destruct (N p T) as (t & J & L). eauto. Qed.
  Lemma not_there ks w t p : named_in ks w -> ~ In (drawn t) ks -> labelled (drawn t) p -> there w p = false.
  Proof using FL.
    intros N I L. destruct (there w p) eqn:T; [|reflexivity]. exfalso. destruct (N p T) as (t' & J & L'). apply I. rewrite (labelled_one t t' p L L'). exact J.
  Qed.
  Lemma named_write ks w t p b : named_in ks w -> labelled (drawn t) p -> named_in (drawn t :: ks) (write weigh p b w).
  Proof.
    intros N L y. rewrite there_write. destruct (String.eqb_spec y p) as [->|NE].
    - intros _. exists t. split; [left; reflexivity|exact L].
    - intros T. destruct (N y T) as (t' & J & L'). exists t'. split; [right; exact J|exact L'].
  Qed.
  Lemma named_erase ks w p : named_in ks w -> named_in ks (erase p w).
  Proof. intros N y. rewrite there_erase. destruct (String.eqb y p); [discriminate|]. exact (N y). Qed.
  Lemma content_write w p b y : content (write weigh p b w) y = if String.eqb y p then Some b else content w y.
  Proof.
    unfold content. rewrite there_write. destruct (String.eqb_spec y p) as [->|NE]; cbn [write w_text]; [apply alookup_aset_eq|]. rewrite alookup_aset_neq by congruence. reflexivity.
  Qed.
  Lemma content_erase w p y : content (erase p w) y = if String.eqb y p then None else content w y.
  Proof. unfold content. rewrite there_erase. destruct (String.eqb y p); reflexivity. Qed.
  Lemma content_logged p w y : content (logged p w) y = content w y.
  Proof. reflexivity. Qed.
  Lemma content_there w p b : content w p = Some b -> there w p = true.
  Proof. unfold content. destruct (there w p); [reflexivity|discriminate]. Qed.
  (** Files of other names are left alone. *)
  Definition leaves (k : string) w w' : Prop := forall p, ~ labelled k p -> content w' p = content w p.

  (** A new file: the creation function writes its temporary file, or raises. *)
  Lemma off_file ks q t create w : named_in ks w -> ~ In (drawn t) ks -> lower (q_owner q) = "url" \/ lower (q_owner q) = "regrid" ->
    let p := off_path sha dir q (fst t) (snd t) in
    cache_file_off weigh sha dir q (fst t) (snd t) create w =
      match create (p ++ ".tmp")%string (q_args q) (logged p w) with
      | (w1, Ok _) => match content w1 (p ++ ".tmp") with Some c => (write weigh p c (erase (p ++ ".tmp") w1), Ok p) | None => (w1, Raise FileNotFoundError) end
      | (w1, Raise e) => (w1, Raise e)
      | (w1, OutOfFuel) => (w1, OutOfFuel)
      end.
  Proof using FL.
    intros N I O p. unfold cache_file_off. fold p. rewrite (not_there ks w t p N I (off_path_labelled q t O)).
    destruct (create (p ++ ".tmp")%string (q_args q) (logged p w)) as [w1 [d|e|]]; [|reflexivity..]. rewrite andthen_ok. unfold rename. destruct (content w1 (p ++ ".tmp")) as [c|]; reflexivity.
  Qed.

  Lemma off_download_spec ks x t url w : named_in ks w -> ~ In (drawn t) ks ->
    named_in (drawn t :: ks) (fst (off_download x t url w)) /\ leaves (drawn t) w (fst (off_download x t url w)) /\
    match sv_get (o_server x) url with
    | Ok b => exists p, snd (off_download x t url w) = Ok p /\ content (fst (off_download x t url w)) p = Some b
    | Raise e => snd (off_download x t url w) = Raise e
    | OutOfFuel => snd (off_download x t url w) = OutOfFuel
    end.
  Proof using FL.
    intros N I. set (q := url_request "url" url JNull (ext_of url)). set (p := off_path sha dir q (fst t) (snd t)).
    assert (LP : labelled (drawn t) p) by (apply off_path_labelled; left; reflexivity). pose proof (labelled_tmp _ _ ".tmp" LP) as LT.
    unfold RemoteOff.off_download. fold q. rewrite (off_file ks q t _ w N I (or_introl eq_refl)). fold p. cbn [dl_download downloader_of m_server].
    assert (NL : named_in ks (logged p w)) by exact N.
    destruct (sv_get (o_server x) url) as [b|e|].
    - rewrite content_write, String.eqb_refl. cbn [fst snd]. split; [|split].
      + apply (named_more (drawn t :: drawn t :: ks)); [intros k [->|[->|J]]; [left; reflexivity|left; reflexivity|right; exact J]|]. apply named_write; [|exact LP]. apply named_erase, named_write; [exact NL|exact LT].
      + intros y NY. rewrite content_write. destruct (String.eqb_spec y p) as [->|_]; [contradiction|]. rewrite content_erase, content_write. destruct (String.eqb_spec y (p ++ ".tmp")) as [->|_]; [contradiction|reflexivity].
      + exists p. split; [reflexivity|]. rewrite content_write, String.eqb_refl. reflexivity.
    - destruct (sv_left (o_server x) url) as [b|]; cbn [fst snd]; (split; [|split; [|reflexivity]]).
      + apply named_write; [exact NL|exact LT].
      + intros y NY. rewrite content_write. destruct (String.eqb_spec y (p ++ ".tmp")) as [->|_]; [contradiction|reflexivity].
      + apply (named_more ks); [intros k J; right; exact J|exact NL].
      + intros y _. reflexivity.
    - cbn [fst snd]. split; [|split; [|reflexivity]]; [apply (named_more ks); [intros k J; right; exact J|exact NL]|intros y _; reflexivity].
  Qed.

  Definition fetched x (base : string) : result blob :=
    z <- sv_get (o_server x) (join_path base "index.json.gz") ;; b <- gunzip z ;; _ <- digest b ;; Ok b.
  Lemma off_get_spec ks x t tz base w : named_in ks w -> ~ In (drawn t) ks -> ~ In (drawn tz) ks -> drawn t <> drawn tz ->
    named_in (drawn t :: drawn tz :: ks) (fst (off_get x t tz base w)) /\
    match fetched x base with
    | Ok b => exists p, snd (off_get x t tz base w) = Ok p /\ content (fst (off_get x t tz base w)) p = Some b
    | Raise e => snd (off_get x t tz base w) = Raise e
    | OutOfFuel => snd (off_get x t tz base w) = OutOfFuel
    end.
  Proof using FL.
    intros N I IZ NE. set (q := index_request base). set (p := off_path sha dir q (fst t) (snd t)).
    assert (LP : labelled (drawn t) p) by (apply off_path_labelled; right; reflexivity). pose proof (labelled_tmp _ _ ".tmp" LP) as LT.
    unfold RemoteOff.off_get. fold q. rewrite (off_file ks q t _ w N I (or_intror eq_refl)). fold p.
    assert (NL : named_in ks (logged p w)) by exact N.
    unfold off_create. destruct (off_download_spec ks x tz (join_path base "index.json.gz") (logged p w) NL IZ) as (N1 & _ & D). unfold fetched.
    assert (MO : forall w', named_in (drawn tz :: ks) w' -> named_in (drawn t :: drawn tz :: ks) w') by (intros w'; apply named_more; intros k J; right; exact J).
    destruct (off_download x tz (join_path base "index.json.gz") (logged p w)) as [w1 r]. cbn [fst snd] in *.
    destruct (sv_get (o_server x) (join_path base "index.json.gz")) as [z|e|]; [|rewrite D; split; [apply MO; exact N1|reflexivity]..].
    destruct D as (pz & -> & CZ). cbn [bind]. rewrite andthen_ok. unfold reading. rewrite CZ. destruct (gunzip z) as [b|e|]; cbn [bind].
    2,3: unfold andthen; cbn [fst snd]; split; [apply MO; exact N1|reflexivity].
    rewrite andthen_ok. pose proof (named_write _ w1 t (p ++ ".tmp") b N1 LT) as N2.
    destruct (digest b) as [s|e|]; cbn [bind fst snd]; [|split; [exact N2|reflexivity]..].
    rewrite content_write, String.eqb_refl. cbn [fst snd]. split.
    - apply (named_more (drawn t :: drawn t :: drawn tz :: ks)); [intros k [->|J]; [left; reflexivity|exact J]|]. apply named_write; [|exact LP]. apply named_erase. exact N2.
    - exists p. split; [reflexivity|]. rewrite content_write, String.eqb_refl. reflexivity.
  Qed.

  Definition odb_ok (d : odb (rest := rest)) : Prop := o_index d = None -> o_path d = None.
  Definition read_index x base : result (index rest) := direct_index parse gunzip digest (sv_get (o_server x)) base.
  Lemma read_fetched x base : read_index x base = (b <- fetched x base ;; f <- parse b ;; load [] f).
  Proof. unfold read_index, direct_index, fetched. destruct (sv_get _ _) as [z|e|]; cbn [bind]; [|reflexivity..]. destruct (gunzip z) as [b|e|]; cbn [bind]; [|reflexivity..]. destruct (digest b); reflexivity. Qed.

  (** Loading the index: from the server if no path is known, from the file if it was just made. *)
  Lemma off_load_new ks x base w i : named_in ks w -> ~ In (drawn (d_index1 (o_draws x))) ks -> ~ In (drawn (d_gz1 (o_draws x))) ks -> drawn (d_index1 (o_draws x)) <> drawn (d_gz1 (o_draws x)) ->
    let out := off_load x base (mkO w (mkODb i None)) in
    named_in (drawn (d_index1 (o_draws x)) :: drawn (d_gz1 (o_draws x)) :: ks) (os_world (fst out)) /\
    (o_index (os_db (fst out)), snd out) = direct_load parse gunzip digest (sv_get (o_server x)) base.
  Proof using FL.
    intros N I IZ NE. unfold RemoteOff.off_load, off_index_path, off_set. cbn [os_db os_world o_path o_index].
    destruct (off_get_spec ks x _ _ base w N I IZ NE) as [N1 G]. unfold RemoteOff.off_got. cbn [os_db os_world o_path o_index].
    unfold direct_load. fold (read_index x base). rewrite read_fetched.
    destruct (off_get x (d_index1 (o_draws x)) (d_gz1 (o_draws x)) base w) as [w1 r]. cbn [fst snd] in *.
    destruct (fetched x base) as [b|e|]; [|rewrite G; cbn; split; [exact N1|reflexivity]..].
    destruct G as (p & -> & C). cbn [bind os_world]. unfold reading. rewrite C. cbn [bind snd].
    destruct (parse b) as [f|e|]; cbn [bind]; [|split; [exact N1|reflexivity]..]. destruct (load [] f) as [i0|e|]; cbn; (split; [exact N1|reflexivity]).
  Qed.
  Lemma off_load_known x base w i p b : content w p = Some b ->
    let out := off_load x base (mkO w (mkODb i (Some p))) in
    os_world (fst out) = w /\
    (o_index (os_db (fst out)), snd out) = match (f <- parse b ;; load [] f) with Ok i => (Some i, Ok tt) | Raise e => (Some [], Raise e) | OutOfFuel => (Some [], OutOfFuel) end.
  Proof.
    intros C. unfold RemoteOff.off_load, off_index_path, off_set. cbn [os_db os_world o_path o_index]. rewrite (content_there _ _ _ C). cbn [bind os_world]. unfold reading. rewrite C. cbn [bind snd].
    destruct (parse b) as [f|e|]; cbn [bind]; [|split; reflexivity..]. destruct (load [] f) as [i0|e|]; split; reflexivity.
  Qed.
  Lemma off_search w i p di do m : let out := off_index_find (mkO w (mkODb i p)) di do m in
    os_world (fst out) = w /\ o_path (os_db (fst out)) = p /\ (o_index (os_db (fst out)), snd out) = direct_search py_str key_order fuel i di do m.
  Proof. unfold RemoteOff.off_index_find, direct_search. cbn [os_db o_index]. destruct i as [i|]; [|auto]. destruct (find py_str key_order fuel i di do m). auto. Qed.

  Definition new_names x ks : Prop := NoDup (names_of sha (o_draws x)) /\ forall k, In k (names_of sha (o_draws x)) -> ~ In k ks.
  Definition first_four x : list string := map drawn [d_index1 (o_draws x); d_gz1 (o_draws x); d_index2 (o_draws x); d_gz2 (o_draws x)].
  Lemma entry_direct ks x base w d di do m : named_in ks w -> odb_ok d -> new_names x ks ->
    let out := off_find_entry x base (mkO w d) di do m in
    named_in (first_four x ++ ks) (os_world (fst out)) /\ odb_ok (os_db (fst out)) /\
    (o_index (os_db (fst out)), snd out) = direct_entry parse gunzip digest py_str key_order fuel (sv_get (o_server x)) base (o_index d) di do m.
  Proof using FL.
    intros N OK [ND NI]. unfold names_of in ND, NI. cbn [map] in ND, NI.
    set (k1 := drawn (d_index1 (o_draws x))) in *. set (k2 := drawn (d_gz1 (o_draws x))) in *. set (k3 := drawn (d_index2 (o_draws x))) in *. set (k4 := drawn (d_gz2 (o_draws x))) in *. set (k5 := drawn (d_matrix (o_draws x))) in *.
    assert (F4 : first_four x ++ ks = k1 :: k2 :: k3 :: k4 :: ks) by reflexivity. rewrite F4.
    inversion ND as [|? ? A1 ND1]; subst. inversion ND1 as [|? ? A2 ND2]; subst. inversion ND2 as [|? ? A3 ND3]; subst. cbn in A1, A2, A3.
    assert (I1 : ~ In k1 ks) by (apply NI; cbn; tauto). assert (I2 : ~ In k2 ks) by (apply NI; cbn; tauto). assert (I3 : ~ In k3 ks) by (apply NI; cbn; tauto). assert (I4 : ~ In k4 ks) by (apply NI; cbn; tauto).
    destruct d as [i pth]. unfold odb_ok in OK. cbn [o_index o_path] in *.
    (* after the first load *)
    assert (X : let out := off_get_or_load parse gunzip digest weigh sha dir ext_of x base (mkO w (mkODb i pth)) in
      named_in (k1 :: k2 :: ks) (os_world (fst out)) /\ (exists j, o_index (os_db (fst out)) = Some j) /\
      (o_index (os_db (fst out)), snd out) = match i with Some _ => (i, Ok tt) | None => direct_load parse gunzip digest (sv_get (o_server x)) base end).
    { unfold off_get_or_load. cbn [os_db o_index]. destruct i as [i|].
      - cbn. split; [apply (named_more ks); [intros k J; right; right; exact J|exact N]|]. split; [eauto|reflexivity].
      - rewrite (OK eq_refl). assert (E12 : k1 <> k2) by (intros E; apply A1; left; symmetry; exact E). destruct (off_load_new ks x base w None N I1 I2 E12) as [N1 E]. split; [exact N1|]. split; [|exact E].
        assert (Y : fst (direct_load parse gunzip digest (sv_get (o_server x)) base) <> None) by (unfold direct_load; destruct (direct_index _ _ _ _ _); discriminate). rewrite <- E in Y. cbn [fst] in Y.
        destruct (o_index _) as [j|]; [eauto|contradiction]. }
    unfold RemoteOff.off_find_entry, direct_entry. destruct (off_get_or_load parse gunzip digest weigh sha dir ext_of x base (mkO w (mkODb i pth))) as [[w1 [i1 p1]] r1]. cbn [fst snd os_world os_db o_index] in X.
    destruct X as (N1 & (j & ->) & E). rewrite <- E.
    assert (M1 : forall w', named_in (k1 :: k2 :: ks) w' -> named_in (k1 :: k2 :: k3 :: k4 :: ks) w') by (intros w'; apply named_more; cbn; tauto).
    destruct r1 as [u|e|]; [|cbn [fst snd os_world os_db o_index]; split; [exact (M1 _ N1)|split; [discriminate|reflexivity]]..].
    destruct (off_search w1 (Some j) p1 di do (method_alias m)) as (EW & EP & ES). rewrite <- ES.
    assert (NJ : o_index (os_db (fst (off_index_find (mkO w1 (mkODb (Some j) p1)) di do (method_alias m)))) <> None).
    { unfold RemoteOff.off_index_find. cbn [os_db o_index]. destruct (find py_str key_order fuel j di do (method_alias m)). discriminate. }
    destruct (off_index_find (mkO w1 (mkODb (Some j) p1)) di do (method_alias m)) as [[w2 [i2 p2]] r2]. cbn [fst snd os_world os_db o_index o_path] in EW, EP, ES, NJ |- *. subst w2 p2.
    destruct r2 as [[e|]|e|]; try (cbn [fst snd os_world os_db o_index]; split; [exact (M1 _ N1)|split; [intros Y; contradiction|reflexivity]]).
    (* reloading *)
    assert (J3 : ~ In k3 (k1 :: k2 :: ks)) by (cbn; intros [Y|[Y|Y]]; [apply A1; auto|apply A2; auto|exact (I3 Y)]).
    assert (J4 : ~ In k4 (k1 :: k2 :: ks)) by (cbn; intros [Y|[Y|Y]]; [apply A1; auto|apply A2; auto|exact (I4 Y)]).
    assert (E34 : k3 <> k4) by (intros Y; apply A3; left; symmetry; exact Y).
    destruct (off_get_spec _ x (d_index2 (o_draws x)) (d_gz2 (o_draws x)) base w1 N1 J3 J4 E34) as [N3 G]. fold k3 k4 in N3. unfold RemoteOff.off_got. cbn [os_world os_db o_index o_path].
    destruct (off_get x (d_index2 (o_draws x)) (d_gz2 (o_draws x)) base w1) as [w3 r3]. cbn [fst snd] in N3, G. fold (fetched x base).
    assert (N3' : named_in (k1 :: k2 :: k3 :: k4 :: ks) w3) by (revert N3; apply named_more; clear; cbn; tauto).
    destruct (fetched x base) as [b|e|].
    2,3: rewrite G; cbn [fst snd os_world os_db o_index]; split; [exact N3'|split; [intros Y; contradiction|reflexivity]].
    destruct G as (p & -> & C). destruct (off_load_known x base w3 i2 p b C) as [EW EL].
    destruct (off_load x base (mkO w3 (mkODb i2 (Some p)))) as [[w4 [i4 p4]] r4]. cbn [fst snd os_world os_db o_index] in EW, EL. subst w4.
    destruct (f <- parse b ;; load [] f) as [i0|e|]; injection EL as -> ->; [|cbn [fst snd os_world os_db o_index]; split; [exact N3'|split; [discriminate|reflexivity]]..].
    destruct (off_search w3 (Some i0) p4 di do (method_alias m)) as (EW & _ & ES4).
    assert (NJ4 : o_index (os_db (fst (off_index_find (mkO w3 (mkODb (Some i0) p4)) di do (method_alias m)))) <> None).
    { unfold RemoteOff.off_index_find. cbn [os_db o_index]. destruct (find py_str key_order fuel i0 di do (method_alias m)). discriminate. }
    rewrite EW. split; [exact N3'|]. split; [intros Y; contradiction|exact ES4].
  Qed.

  Lemma weights_direct ks x base e w : named_in ks w -> ~ In (drawn (d_matrix (o_draws x))) ks ->
    named_in (drawn (d_matrix (o_draws x)) :: ks) (fst (off_weights x base e w)) /\
    snd (off_weights x base e w) = direct_weights load_npz (sv_get (o_server x)) base e.
  Proof using FL.
    intros N I. unfold RemoteOff.off_weights, direct_weights. destruct (matrix_path e) as [n|y|]; cbn [bind]; [|split; [apply (named_more ks); [intros k J; right; exact J|exact N]|reflexivity]..].
    destruct (off_download_spec ks x _ (join_path base n) w N I) as (N1 & _ & D). destruct (off_download x (d_matrix (o_draws x)) (join_path base n) w) as [w1 r]. cbn [fst snd] in *.
    destruct (sv_get (o_server x) (join_path base n)) as [b|y|]; [|rewrite D; cbn; split; [exact N1|reflexivity]..].
    destruct D as (p & -> & C). rewrite andthen_ok. unfold reading. rewrite C. cbn [bind]. destruct (load_npz b) as [z|y|]; unfold andthen; cbn [fst snd bind]; (split; [exact N1|reflexivity]).
  Qed.

  (** ** Histories *)
  Variables (zero : A) (add mul : A -> A -> A).
  Variable memory_of : rest -> Z.
  Variable float_text : f64 -> string.
  Notation osys := (@osys A rest blob).
  Notation oop := (@oop A blob).
  Notation key_of := (System.key_of sha float_text).
  Notation off_find := (off_find parse gunzip digest load_npz weigh sha dir ext_of py_str key_order fuel memory_of float_text).
  Notation oafter := (oafter parse gunzip digest load_npz weigh sha dir ext_of py_str key_order fuel zero add mul memory_of float_text).
  Notation ostep := (ostep parse gunzip digest load_npz weigh sha dir ext_of py_str key_order fuel zero add mul memory_of float_text).
  Notation direct_find := (direct_find parse gunzip digest load_npz py_str key_order fuel memory_of key_of).
  Notation direct_step := (direct_step parse gunzip digest load_npz py_str key_order fuel memory_of key_of).
  Notation direct_after := (direct_after parse gunzip digest load_npz py_str key_order fuel memory_of key_of).
  Implicit Types (s : osys) (h : list oop) (t : @direct A rest).

  Definition matches ks s t : Prop :=
    named_in ks (u_world s) /\ (forall base, odb_ok (odb_of base s)) /\ u_mem s = t_mem t /\ forall base, o_index (odb_of base s) = t_index t base.
  Lemma find_direct ks s t x base di do m : matches ks s t -> new_names x ks ->
    matches (ks ++ names_of sha (o_draws x)) (fst (off_find x base di do m s)) (fst (direct_find (sv_get (o_server x)) base di do m t)) /\
    snd (off_find x base di do m s) = snd (direct_find (sv_get (o_server x)) base di do m t).
  Proof using FL.
    clear zero add mul. intros (N & OK & EM & EI) NN. unfold RemoteOff.off_find, RemoteOffSpec.direct_find.
    assert (MO : forall w', named_in ks w' -> named_in (ks ++ names_of sha (o_draws x)) w') by (intros w'; apply named_more; intros k J; apply in_or_app; left; exact J).
    destruct (from_dict di) as [gi|y|]; cbn [bind]; [|split; [exact (conj (MO _ N) (conj OK (conj EM EI)))|reflexivity]..].
    destruct (from_dict do) as [go|y|]; cbn [bind]; [|split; [exact (conj (MO _ N) (conj OK (conj EM EI)))|reflexivity]..].
    set (s0 := mkO (u_world s) (odb_of base s)).
    destruct (entry_direct ks x base (u_world s) (odb_of base s) (gd gi) (gd go) m N (OK base) NN) as (N1 & OK1 & E1). fold s0 in N1, OK1, E1.
    change (off_find_entry x base s0 (gd gi) (gd go) m) with (off_lookup parse gunzip digest weigh sha dir ext_of py_str key_order fuel x base s0 (gi, go, m)) in *.
    rewrite (EI base) in E1.
    assert (I5 : ~ In (drawn (d_matrix (o_draws x))) (first_four x ++ ks)).
    { destruct NN as [ND NI]. unfold names_of in ND, NI. cbn [map] in ND, NI. unfold first_four. cbn [map]. intros J. apply in_app_or in J. destruct J as [J|J]; [|refine (NI (drawn (d_matrix (o_draws x))) _ J); cbn; tauto].
      apply (NoDup_remove_2 [drawn (d_index1 (o_draws x)); drawn (d_gz1 (o_draws x)); drawn (d_index2 (o_draws x)); drawn (d_gz2 (o_draws x))] []) in ND. apply ND. rewrite app_nil_r. exact J. }
    assert (GE : MemCache.get key_of (System.est_size memory_of) System.size_of (off_inventory parse gunzip digest load_npz weigh sha dir ext_of py_str key_order fuel x base s0 (gi, go, m)) (gi, go, m) (u_mem s) =
                 MemCache.get key_of (System.est_size memory_of) System.size_of (direct_inventory parse gunzip digest load_npz py_str key_order fuel (sv_get (o_server x)) base (t_index t base)) (gi, go, m) (t_mem t)).
    { rewrite EM. apply get_same.
      - unfold off_inventory, direct_inventory. cbn [i_find]. rewrite <- E1. reflexivity.
      - intros e. unfold off_inventory, direct_inventory. cbn [i_load]. exact (proj2 (weights_direct _ x base e _ N1 I5)). }
    rewrite GE. clear GE. match goal with |- context [MemCache.get ?a ?b ?d ?e ?f ?g] => destruct (MemCache.get a b d e f g) as [[mem calls] y] end. cbn [fst snd].
    assert (SUB : forall w', named_in (drawn (d_matrix (o_draws x)) :: first_four x ++ ks) w' -> named_in (ks ++ names_of sha (o_draws x)) w').
    { intros w'. apply named_more. unfold first_four, names_of. cbn. intros k J. apply in_or_app. cbn. tauto. }
    destruct calls as [|c0 calls]; cbn [fst snd]; (split; [|reflexivity]).
    - split; [apply MO, N|]. split; [exact OK|]. split; [reflexivity|]. intros b. cbn [t_index]. rewrite <- (EI b). destruct (String.eqb_spec b base) as [->|_]; [exact (EI base)|reflexivity].
    - split; [|split; [|split; [reflexivity|]]].
      + cbn [u_world]. match goal with |- named_in _ (match ?X with Some _ => _ | None => _ end) => destruct X as [e|] end; apply SUB.
        * exact (proj1 (weights_direct _ x base e _ N1 I5)).
        * revert N1. apply named_more. intros k J. right. exact J.
      + intros b. unfold odb_of. cbn [u_dbs]. destruct (string_dec b base) as [->|NE]; [rewrite alookup_aset_eq; exact OK1|rewrite alookup_aset_neq by exact (not_eq_sym NE); exact (OK b)].
      + intros b. unfold odb_of. cbn [u_dbs t_index]. destruct (String.eqb_spec b base) as [->|NE]; [rewrite alookup_aset_eq; rewrite <- E1; reflexivity|rewrite alookup_aset_neq by exact (not_eq_sym NE); exact (EI b)].
  Qed.
  Lemma empty_matches c : matches [] (oinit c) (mkDirect (fst (MemCache.init c)) (fun _ => None)).
  Proof. split; [intros p E; discriminate E|]. split; [intros b _; reflexivity|]. split; [reflexivity|]. intros b. reflexivity. Qed.
  Lemma step_direct ks s t o : matches ks s t -> (match o with OCall x _ _ _ _ _ => new_names x ks | _ => True end) ->
    matches (match o with OCall x _ _ _ _ _ => ks ++ names_of sha (o_draws x) | ORestart _ => [] | _ => ks end) (ostep s o) (direct_step t o).
  Proof using FL.
    intros M NN. destruct o as [x base values di do m|c| |c|p]; cbn [RemoteOff.ostep RemoteOffSpec.direct_step].
    - unfold off_regrid. destruct (find_direct ks s t x base di do m M NN) as [M1 _]. destruct (off_find x base di do m s) as [s' r]. cbn [fst] in *. exact M1.
    - destruct M as (N & OK & EM & EI). split; [exact N|]. split; [exact OK|]. split; [cbn; rewrite EM; reflexivity|exact EI].
    - destruct M as (N & OK & EM & EI). split; [exact N|]. split; [exact OK|]. split; [cbn; rewrite EM; reflexivity|exact EI].
    - apply empty_matches.
    - destruct M as (N & OK & EM & EI). split; [apply named_erase, N|]. split; [exact OK|]. split; [exact EM|exact EI].
  Qed.
  Lemma drawn_once_less h o : drawn_once sha (h ++ [o]) -> drawn_once sha h.
  Proof. intros D pre post E. apply (D pre (post ++ [o])). rewrite E, <- app_assoc. reflexivity. Qed.
  Lemma NoDup_parts {T} (l1 l2 : list T) : NoDup (l1 ++ l2) -> NoDup l2 /\ forall k, In k l2 -> ~ In k l1.
  Proof.
    induction l1 as [|a l1 IH]; cbn; [intros D; split; [exact D|intros k _ []]|]. intros D. inversion D as [|? ? NI D']; subst. destruct (IH D') as [D2 X]. split; [exact D2|].
    intros k J [->|J']; [apply NI, in_or_app; right; exact J|exact (X k J J')].
  Qed.
  Lemma drawn_new h x base values di do m : drawn_once sha (h ++ [OCall x base values di do m]) -> new_names x (names_drawn sha h).
  Proof.
    intros D. specialize (D _ [] (eq_sym (app_nil_r _))). unfold names_drawn in D. rewrite fold_left_app in D. cbn [fold_left] in D. fold (names_drawn sha h) in D. exact (NoDup_parts _ _ D).
  Qed.
  Lemma after_direct c h : drawn_once sha h -> matches (names_drawn sha h) (oafter c h) (direct_after c h).
  Proof using FL.
    induction h as [|o h IH] using rev_ind; intros D; [apply empty_matches|]. specialize (IH (drawn_once_less h o D)).
    unfold RemoteOff.oafter, RemoteOffSpec.direct_after, names_drawn. rewrite !fold_left_app. cbn [fold_left]. fold (oafter c h) (direct_after c h) (names_drawn sha h).
    pose proof (step_direct _ _ _ o IH) as X. destruct o as [x base values di do m|c'| |c'|p]; try exact (X Logic.I). apply X. exact (drawn_new h x base values di do m D).
  Qed.
End Files.
