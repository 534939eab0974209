(** Lemmas about the process without files: what is found, and where weights come from. *)
From Verif Require Import PyBase ListLemmas PyStr Float64 GridSpec GridVocab GridProofs GridProofs3 Index IndexSpec IndexProofs IndexProofs2
  Db MemCache MemCacheProofs MemCacheProofs2 Inventory Regrid RegridSpec System SystemSpec SystemProofs
  Disk Key CacheFile Remote RemoteSpec RemoteProofs6 RemoteOff RemoteOffSpec.
Set Default Proof Using "Type".
Local Open Scope string_scope.
Local Open Scope list_scope.
Local Open Scope Z_scope.

Section Direct.
  Context {A rest blob : Type}.
  Variable parse : blob -> result (file rest).
  Variable gunzip : blob -> result blob.
  Variable digest : blob -> result string.
  Variable load_npz : blob -> result (csr A).
  Variables (py_str : val -> string) (key_order : list string) (fuel : nat).
  Variable memory_of : rest -> Z.
  Variables (sha : string -> string) (float_text : f64 -> string).
  Notation oop := (@oop A blob).
  Notation W := (weights A).
  Notation first := (@IndexProofs.first rest py_str key_order fuel).
  Notation seen_in := (@seen_in A rest blob parse gunzip).
  Notation named_by := (@named_by A rest blob load_npz py_str key_order fuel).
  Notation silent := (@silent rest py_str key_order fuel).
  Notation comparable_in := (@comparable_in A rest blob parse gunzip py_str key_order fuel).
  Notation sound_off := (@sound_off A rest blob parse gunzip py_str key_order fuel).
  Notation key_of := (System.key_of sha float_text).
  Notation direct_index := (direct_index parse gunzip digest).
  Notation direct_entry := (direct_entry parse gunzip digest py_str key_order fuel).
  Notation direct_search := (@direct_search rest py_str key_order fuel).
  Notation direct_inventory := (direct_inventory parse gunzip digest load_npz py_str key_order fuel).
  Notation direct_find := (direct_find parse gunzip digest load_npz py_str key_order fuel memory_of key_of).
  Notation direct_step := (direct_step parse gunzip digest load_npz py_str key_order fuel memory_of key_of).
  Notation direct_after := (direct_after parse gunzip digest load_npz py_str key_order fuel memory_of key_of).
  Implicit Types (h : list oop) (gi go : gspec) (i : index rest) (t : @direct A rest) (get : string -> result blob).

  Lemma seen_more h h' base i : (forall o, In o h -> In o h') -> seen_in h base i -> seen_in h' base i.
  Proof. intros I (x & v & di & do & m & J & C). exists x, v, di, do, m. auto. Qed.
  Lemma index_current get base i : direct_index get base = Ok i -> current parse gunzip get base i.
  Proof.
    unfold RemoteOffSpec.direct_index, current. destruct (get (join_path base "index.json.gz")) as [z|e|]; cbn [bind]; try discriminate. destruct (gunzip z) as [b|e|] eqn:EB; cbn [bind]; try discriminate.
    destruct (digest b) as [s|e|]; cbn [bind]; try discriminate. destruct (parse b) as [f|e|] eqn:EF; cbn [bind]; try discriminate. intros E. exists z, b, f. auto.
  Qed.
  Lemma named_first get base i gi go m z sh : named_by get base i gi go m z sh <->
    exists e p b, first i gi go (method_alias m) = Ok (Some e) /\ matrix_path e = Ok p /\ get (join_path base p) = Ok b /\ load_npz b = Ok z /\ alookup "shape" (gd (e_output e)) = Some sh.
  Proof.
    split.
    - intros (pre & n & e & post & p & b & E & Y & N & R). exists e, p, b. split; [|exact R]. apply first_some. exists pre, n, post. auto.
    - intros (e & p & b & F & R). apply first_some in F. destruct F as (pre & n & post & E & Y & N). exists pre, n, e, post, p, b. exact (conj E (conj Y (conj N R))).
  Qed.
  Lemma named_same get base i gi go gi' go' m z sh : same_spec gi gi' -> same_spec go go' -> named_by get base i gi go m z sh -> named_by get base i gi' go' m z sh.
  Proof. intros P T H. apply named_first in H. apply named_first. destruct H as (e & p & b & F & R). exists e, p, b. split; [|exact R]. rewrite <- (first_same py_str key_order fuel i gi gi' go go' _ P T). exact F. Qed.
  Lemma silent_first i gi go m : silent i gi go m <-> first i gi go (method_alias m) = Ok None.
  Proof. symmetry. apply first_none. Qed.

  (** The index kept for an inventory: none, one seen with some memos, or the empty one. *)
  Definition kept_index h (base : string) (j : option (index rest)) : Prop :=
    match j with None => True | Some j => (exists i, seen_in h base i /\ used_index fuel i j) \/ j = [] end.

  Lemma search_spec h base j di do gi go m : kept_index h base (Some j) -> NoDup (akeys di) -> NoDup (akeys do) -> from_dict di = Ok gi -> from_dict do = Ok go -> comparable_in h base gi go m ->
    let out := direct_search (Some j) (gd gi) (gd go) (method_alias m) in
    kept_index h base (fst out) /\ (exists j', fst out = Some j') /\
    (forall e, snd out = Ok (Some e) -> exists i e0, seen_in h base i /\ first i gi go (method_alias m) = Ok (Some e0) /\ used_entry fuel e0 e) /\
    (forall i, seen_in h base i -> used_index fuel i j -> snd out = Ok None -> first i gi go (method_alias m) = Ok None) /\
    exists y, snd out = Ok y.
  Proof.
    intros K N N' GI GO CO. set (m' := method_alias m).
    pose proof (idempotent di gi N GI) as SI. pose proof (idempotent do go N' GO) as SO.
    destruct (from_dict (gd gi)) as [g1|x1|] eqn:E1; try contradiction SI. destruct (from_dict (gd go)) as [g2|x2|] eqn:E2; try contradiction SO. cbn in SI, SO.
    assert (U0 : forall i, seen_in h base i -> used_index fuel i j -> exists o, first i gi go m' = Ok o /\
      match o with Some e0 => exists e, snd (find py_str key_order fuel j (gd gi) (gd go) m') = Ok (Some e) /\ used_entry fuel e0 e | None => snd (find py_str key_order fuel j (gd gi) (gd go) m') = Ok None end /\
      used_index fuel i (fst (find py_str key_order fuel j (gd gi) (gd go) m'))).
    { intros i SE U. pose proof (find_used py_str key_order fuel i j (gd gi) (gd go) m' U) as F. rewrite E1, E2 in F. cbn [bind] in F. rewrite (first_same py_str key_order fuel i g1 gi g2 go m' SI SO) in F. destruct F as [F V].
      destruct (first_ok py_str key_order fuel i gi go m' (fun n e H => CO i n e SE H)) as (o & FO). rewrite FO in F. exists o. split; [exact FO|].
      destruct (snd (find py_str key_order fuel j (gd gi) (gd go) m')) as [[e|]|y|]; destruct o as [e0|]; cbn in F; try discriminate F; try contradiction F; (split; [|exact (V _ eq_refl)]).
      - exists e. auto.
      - reflexivity. }
    cbn zeta. unfold RemoteOffSpec.direct_search. destruct K as [(i & SE & U)| ->].
    - destruct (U0 i SE U) as (o & FO & Y & V). destruct (find py_str key_order fuel j (gd gi) (gd go) m') as [j' y]. cbn [fst snd] in *.
      split; [left; exists i; auto|]. split; [eauto|]. split; [|split].
      + intros e ->. destruct o as [e0|]; [|discriminate Y]. destruct Y as (e1 & E & UE). injection E as <-. exists i, e0. auto.
      + intros i' SE' U' ->. destruct (U0 i' SE' U') as (o' & FO' & Y' & _). destruct o' as [e0|]; [destruct Y' as (e1 & E & _); discriminate E|exact FO'].
      + destruct o as [e0|]; [destruct Y as (e1 & -> & _); eauto|eauto].
    - assert (F : find (rest := rest) py_str key_order fuel [] (gd gi) (gd go) m' = ([], Ok None)) by (unfold find; rewrite E1, E2; reflexivity). rewrite F. cbn [fst snd].
      split; [right; reflexivity|]. split; [eauto|]. split; [discriminate|]. split; [|eauto]. intros i' SE' U' _. inversion U'; subst. reflexivity.
  Qed.

  Lemma entry_spec h x base values di do gi go m j : In (OCall x base values di do m) h -> kept_index h base j ->
    NoDup (akeys di) -> NoDup (akeys do) -> from_dict di = Ok gi -> from_dict do = Ok go -> comparable_in h base gi go m ->
    let out := direct_entry (sv_get (o_server x)) base j (gd gi) (gd go) m in
    kept_index h base (fst out) /\
    (forall e, snd out = Ok (Some e) -> exists i e0, seen_in h base i /\ first i gi go (method_alias m) = Ok (Some e0) /\ used_entry fuel e0 e) /\
    (snd out = Ok None -> exists i, direct_index (sv_get (o_server x)) base = Ok i /\ first i gi go (method_alias m) = Ok None) /\
    (forall i, direct_index (sv_get (o_server x)) base = Ok i -> exists y, snd out = Ok y).
  Proof.
    intros IN K N N' GI GO CO. set (get := sv_get (o_server x)) in *.
    assert (SN : forall i, direct_index get base = Ok i -> seen_in h base i) by (intros i E; exists x, values, di, do, m; split; [exact IN|apply index_current, E]).
    assert (K1 : let p := match j with Some _ => (j, Ok tt) | None => direct_load parse gunzip digest get base end in
      kept_index h base (fst p) /\ (exists j1, fst p = Some j1) /\ forall i, direct_index get base = Ok i -> snd p = Ok tt).
    { destruct j as [j|]; [cbn; split; [exact K|eauto]|]. unfold direct_load. destruct (direct_index get base) as [i|e|] eqn:E; cbn [fst snd]; (split; [|split; [eauto|intros i' E'; congruence]]).
      - left. exists i. split; [exact (SN i eq_refl)|apply used_index_refl].
      - right. reflexivity.
      - right. reflexivity. }
    cbn zeta. unfold RemoteOffSpec.direct_entry. destruct (match j with Some _ => (j, Ok tt) | None => direct_load parse gunzip digest get base end) as [j1' r1]. cbn [fst snd] in K1. destruct K1 as (K1 & (j1 & ->) & R1).
    destruct r1 as [u|e|]; [|cbn [fst snd]; split; [exact K1|split; [discriminate|split; [discriminate|intros i E; specialize (R1 i E); discriminate R1]]]..].
    destruct (search_spec h base j1 di do gi go m K1 N N' GI GO CO) as (K2 & _ & F2 & _ & (y2 & Y2)). destruct (direct_search (Some j1) (gd gi) (gd go) (method_alias m)) as [j2 r2]. cbn [fst snd] in K2, F2, Y2. subst r2.
    destruct y2 as [e|]; [cbn [fst snd]; split; [exact K2|split; [exact F2|split; [discriminate|eauto]]]|].
    assert (DI : direct_index get base = (b <- (z <- get (join_path base "index.json.gz") ;; b <- gunzip z ;; _ <- digest b ;; Ok b) ;; f <- parse b ;; load [] f)).
    { unfold RemoteOffSpec.direct_index. destruct (get _) as [z|e|]; cbn [bind]; [|reflexivity..]. destruct (gunzip z) as [b|e|]; cbn [bind]; [|reflexivity..]. destruct (digest b); reflexivity. }
    destruct (z <- get (join_path base "index.json.gz") ;; b <- gunzip z ;; _ <- digest b ;; Ok b) as [b|e|]; cbn [bind] in DI.
    2,3: cbn [fst snd]; split; [exact K2|split; [discriminate|split; [discriminate|intros i E; rewrite DI in E; discriminate E]]].
    rewrite <- DI. destruct (direct_index get base) as [i|e|] eqn:DX.
    2,3: cbn [fst snd]; split; [right; reflexivity|split; [discriminate|split; [discriminate|intros i E; discriminate E]]].
    assert (K3 : kept_index h base (Some i)) by (left; exists i; split; [exact (SN i eq_refl)|apply used_index_refl]).
    destruct (search_spec h base i di do gi go m K3 N N' GI GO CO) as (K4 & _ & F4 & N4 & Y4). split; [exact K4|]. split; [exact F4|]. split; [|intros _ _; exact Y4].
    intros E. exists i. split; [reflexivity|]. exact (N4 i (SN i eq_refl) (used_index_refl fuel i) E).
  Qed.

  Lemma weights_spec get base (e0 e : entry rest) z sh : used_entry fuel e0 e -> direct_weights load_npz get base e = Ok (z, sh) <->
    exists p b, matrix_path e0 = Ok p /\ get (join_path base p) = Ok b /\ load_npz b = Ok z /\ alookup "shape" (gd (e_output e0)) = Some sh.
  Proof.
    intros (_ & (_ & G & _) & N & R). unfold direct_weights, dget. assert (matrix_path e = matrix_path e0) as -> by (unfold matrix_path; rewrite N, R; reflexivity). rewrite G. split.
    - destruct (matrix_path e0) as [p|y|]; cbn [bind]; try discriminate. destruct (get (join_path base p)) as [b|y|] eqn:EB; cbn [bind]; try discriminate. destruct (load_npz b) as [z'|y|] eqn:EZ; cbn [bind]; try discriminate.
      destruct (alookup "shape" (gd (e_output e0))); cbn; try discriminate. intros E. injection E as <- <-. exists p, b. auto.
    - intros (p & b & -> & EB & EZ & ->). cbn [bind]. rewrite EB. cbn [bind]. rewrite EZ. reflexivity.
  Qed.

  (** Where the weights kept under a key come from: a call since the memory cache was cleared
      read the matrix, by an index seen in this process up to that call. *)
  Definition dorigin h1 h2 (k : string) (w : W) : Prop :=
    exists pre post x base values di do m gi go i, h2 = pre ++ OCall x base values di do m :: post /\ IndexSpec.request di do gi go /\ key_of (gi, go, m) = k /\
      seen_in (h1 ++ pre ++ [OCall x base values di do m]) base i /\ named_by (sv_get (o_server x)) base i gi go m (fst w) (snd w).
  Lemma dorigin_more h1 h2 o k w : dorigin h1 h2 k w -> dorigin h1 (h2 ++ [o]) k w.
  Proof. intros (pre & post & x & b & v & di & do & m & gi & go & i & -> & R). exists pre, (post ++ [o]), x, b, v, di, do, m, gi, go, i. split; [rewrite <- app_assoc; reflexivity|exact R]. Qed.
  Definition dinv h1 h2 t : Prop :=
    MemCacheProofs.Inv W (t_mem t) /\ (forall base, kept_index (h1 ++ h2) base (t_index t base)) /\ kept W (dorigin h1 h2) (t_mem t).
  Lemma kept_more h h' base j : (forall o, In o h -> In o h') -> kept_index h base j -> kept_index h' base j.
  Proof. intros I. destruct j as [j|]; [|auto]. intros [(i & S & U)| ->]; [left; exists i; split; [exact (seen_more h h' base i I S)|exact U]|right; reflexivity]. Qed.

  (** [HP] is a history of the process that has everything. *)
  Lemma direct_find_spec h1 h2 t x base values di do m t' r : dinv h1 h2 t -> sound_off (h1 ++ h2 ++ [OCall x base values di do m]) (OCall x base values di do m) ->
    direct_find (sv_get (o_server x)) base di do m t = (t', r) ->
    dinv h1 (h2 ++ [OCall x base values di do m]) t' /\
    (forall w : W, r = Ok (Some w) -> exists gi go, IndexSpec.request di do gi go /\ dorigin h1 (h2 ++ [OCall x base values di do m]) (key_of (gi, go, m)) w) /\
    (r = Ok None -> exists gi go, IndexSpec.request di do gi go /\ nothing_now parse gunzip py_str key_order fuel (sv_get (o_server x)) base gi go m).
  Proof.
    intros (HI & HX & HK) (P1 & P2 & CO). set (o := OCall x base values di do m) in *. unfold RemoteOffSpec.direct_find.
    assert (HK' : kept W (dorigin h1 (h2 ++ [o])) (t_mem t)) by (intros k it J; apply dorigin_more, HK, J).
    assert (IO : forall q, In q (h1 ++ h2) -> In q (h1 ++ h2 ++ [o])) by (intros q J; rewrite app_assoc; apply in_or_app; left; exact J).
    assert (HX' : forall b, kept_index (h1 ++ h2 ++ [o]) b (t_index t b)) by (intros b; exact (kept_more _ _ b _ IO (HX b))).
    destruct (from_dict di) as [gi|e|] eqn:GI; cbn [bind].
    2,3: intros H; injection H as <- <-; split; [exact (conj HI (conj HX' HK'))|split; discriminate].
    destruct (from_dict do) as [go|e|] eqn:GO; cbn [bind].
    2,3: intros H; injection H as <- <-; split; [exact (conj HI (conj HX' HK'))|split; discriminate].
    assert (RQ : IndexSpec.request di do gi go) by (split; assumption).
    assert (IN : In o (h1 ++ h2 ++ [o])) by (apply in_or_app; right; apply in_or_app; right; left; reflexivity).
    destruct (entry_spec (h1 ++ h2 ++ [o]) x base values di do gi go m (t_index t base) IN (HX' base) (proj1 P1) (proj1 P2) GI GO (CO gi go RQ)) as (K1 & F1 & N1 & _).
    set (inv := direct_inventory (sv_get (o_server x)) base (t_index t base)). destruct (MemCache.get key_of (System.est_size memory_of) System.size_of inv (gi, go, m) (t_mem t)) as [[mem calls] y] eqn:GE.
    assert (OC : forall w : W, MemCache.create inv (gi, go, m) = Ok (Some w) -> dorigin h1 (h2 ++ [o]) (key_of (gi, go, m)) w).
    { intros [z sh] E. unfold MemCache.create, inv, RemoteOffSpec.direct_inventory, create_from_entry in E. cbn [i_find i_load] in E.
      destruct (snd (direct_entry (sv_get (o_server x)) base (t_index t base) (gd gi) (gd go) m)) as [[e|]|e|]; cbn [bind] in E; try discriminate E.
      destruct (direct_weights load_npz (sv_get (o_server x)) base e) as [w|y0|] eqn:EW; cbn [bind] in E; try discriminate E. injection E as ->.
      destruct (F1 e eq_refl) as (i & e0 & SE & FI & U). apply (weights_spec _ _ e0 e z sh U) in EW. destruct EW as (p & b & R).
      exists h2, [], x, base, values, di, do, m, gi, go, i. split; [reflexivity|]. split; [exact RQ|]. split; [reflexivity|]. split; [exact SE|]. apply named_first. exists e0, p, b. split; [exact FI|exact R]. }
    destruct (get_kept mreq (entry rest) W key_of (System.est_size memory_of) System.size_of size_nonneg (dorigin h1 (h2 ++ [o])) inv (gi, go, m) (t_mem t) mem calls y OC HI HK' GE) as (G1 & G2 & _).
    pose proof (get_inv mreq (entry rest) W key_of (System.est_size memory_of) System.size_of _ _ _ _ _ _ size_nonneg HI GE) as [HI' _].
    intros H. injection H as <- <-. split; [|split].
    - split; [exact HI'|]. split; [|exact G1]. intros b. cbn [t_index]. destruct (String.eqb_spec b base) as [->|_]; [|apply HX']. destruct calls; [apply HX'|exact K1].
    - intros w E. exists gi, go. split; [exact RQ|exact (G2 w E)].
    - intros ->. exists gi, go. split; [exact RQ|]. apply RemoteProofs6.get_none in GE. destruct (N1 GE) as (i & DX & FN). exists i. split; [apply index_current, DX|]. apply first_none. exact FN.
  Qed.

  Lemma comparable_less h h' base gi go m : (forall q, In q h -> In q h') -> comparable_in h' base gi go m -> comparable_in h base gi go m.
  Proof. intros I C i n e S. apply C. exact (seen_more h h' base i I S). Qed.
  Lemma sound_less h h' o : (forall q, In q h -> In q h') -> sound_off h' o -> sound_off h o.
  Proof. intros I. destruct o as [x b v di do m|c| |c|p]; [|auto..]. intros (P1 & P2 & C). split; [exact P1|]. split; [exact P2|]. intros gi go RQ. exact (comparable_less h h' b gi go m I (C gi go RQ)). Qed.

  Lemma direct_step_inv h1 h2 t o : dinv h1 h2 t -> (forall c, o <> ORestart c) -> sound_off (h1 ++ h2 ++ [o]) o -> dinv h1 (h2 ++ [o]) (direct_step t o).
  Proof.
    intros D NR SO.
    assert (IO : forall q, In q (h1 ++ h2) -> In q (h1 ++ h2 ++ [o])) by (intros q J; rewrite app_assoc; apply in_or_app; left; exact J).
    destruct o as [x base values di do m|c| |c|p]; cbn [RemoteOffSpec.direct_step].
    - destruct (direct_find (sv_get (o_server x)) base di do m t) as [t' r] eqn:E. exact (proj1 (direct_find_spec h1 h2 t x base values di do m t' r D SO E)).
    - destruct D as (HI & HX & HK). split; [exact (update_pre_inv W c (t_mem t) HI)|]. split; [intros b; exact (kept_more _ _ b _ IO (HX b))|].
      intros k it J. apply dorigin_more, HK. cbn in J. exact (update_subset W c (t_mem t) HI _ J).
    - destruct D as (HI & HX & HK). split; [|split; [intros b; exact (kept_more _ _ b _ IO (HX b))|intros k it []]].
      exact (step_inv mreq (entry rest) W key_of (System.est_size memory_of) System.size_of (t_mem t) OpClear size_nonneg HI).
    - exfalso. exact (NR c eq_refl).
    - destruct D as (HI & HX & HK). split; [exact HI|]. split; [intros b; exact (kept_more _ _ b _ IO (HX b))|]. intros k it J. apply dorigin_more, HK, J.
  Qed.
  Lemma direct_run h1 h2 t : dinv h1 [] t -> one_process h2 -> Forall (sound_off (h1 ++ h2)) h2 -> dinv h1 h2 (fold_left direct_step h2 t).
  Proof.
    intros D. induction h2 as [|o h2 IH] using rev_ind; intros OP SO; [exact D|]. rewrite fold_left_app. cbn [fold_left].
    apply Forall_app in SO. destruct SO as [S1 S2]. inversion S2; subst. apply direct_step_inv; [|intros c ->; apply (OP c), in_or_app; right; left; reflexivity|assumption].
    apply IH; [intros c J; apply (OP c), in_or_app; left; exact J|]. revert S1. apply Forall_impl. intros a. apply sound_less. intros q J. rewrite app_assoc. apply in_or_app. left. exact J.
  Qed.
  (** The state after a history whose last process did [h1], which emptied the memory cache, and [h2]. *)
  Lemma after_process c h0 h1 h2 : new_process h0 -> one_process (h1 ++ h2) -> forgotten_off h1 -> Forall (sound_off (h1 ++ h2)) (h1 ++ h2) -> dinv h1 h2 (direct_after c (h0 ++ h1 ++ h2)).
  Proof.
    intros NP OP FG SO. unfold RemoteOffSpec.direct_after. rewrite !fold_left_app. fold (direct_after c h0).
    assert (D0 : dinv [] [] (direct_after c h0)).
    { assert (X : forall c', dinv [] [] (mkDirect (fst (@MemCache.init W c')) (fun _ : string => @None (index rest)))).
      { intros c'. split; [apply init_inv|]. split; [intros b; exact I|]. unfold kept. cbn [t_mem]. rewrite init_items. intros k it []. }
      destruct NP as [->|(h' & c' & ->)]; [exact (X c)|]. unfold RemoteOffSpec.direct_after. rewrite fold_left_app. exact (X c'). }
    apply Forall_app in SO. destruct SO as [S1 S2]. assert (OP1 : one_process h1) by (intros c' J; apply (OP c'), in_or_app; left; exact J).
    pose proof (direct_run [] h1 _ D0 OP1) as D1. cbn [app] in D1.
    assert (S1' : Forall (sound_off h1) h1). { revert S1. apply Forall_impl. intros a. apply sound_less. intros q J. apply in_or_app. left. exact J. }
    specialize (D1 S1'). apply direct_run; [|intros c' J; apply (OP c'), in_or_app; right; exact J|exact S2].
    destruct D1 as (HI & HX & _). split; [exact HI|]. split; [rewrite app_nil_r; exact HX|].
    assert (IT : items (t_mem (fold_left direct_step h1 (direct_after c h0))) = []).
    { destruct FG as [->|(h' & ->)]; [|rewrite fold_left_app; reflexivity]. cbn [fold_left]. destruct NP as [->|(h' & c' & ->)]; [apply init_items|]. unfold RemoteOffSpec.direct_after. rewrite fold_left_app. apply init_items. }
    unfold kept. rewrite IT. intros k it [].
  Qed.

  (** If the index on the server can be read, and what each index seen names is on the server, an
      entry is found and its weights are read. *)
  Lemma direct_find_total h x base values di do m t t' r gi go : In (OCall x base values di do m) h -> kept_index h base (t_index t base) -> GInv W (t_mem t) ->
    plain_dict di -> plain_dict do -> IndexSpec.request di do gi go -> comparable_in h base gi go m ->
    direct_find (sv_get (o_server x)) base di do m t = (t', r) ->
    (exists i, direct_index (sv_get (o_server x)) base = Ok i) ->
    (forall i, seen_in h base i -> silent i gi go m \/ exists z sh, named_by (sv_get (o_server x)) base i gi go m z sh) ->
    (exists y, r = Ok y) \/
    (r = Raise WeightsTooLarge /\ strict (t_mem t) = true /\ exists i n e limit, seen_in h base i /\ In (n, e) i /\ answers py_str key_order fuel e gi go (method_alias m) /\
       max_mem (t_mem t) = Some limit /\ memory_of (r_rest (e_raw e)) > limit).
  Proof.
    intros IN KI GI0 (N & _) (N' & _) [GI GO] CO H (i1 & DX) NB. unfold RemoteOffSpec.direct_find in H. rewrite GI, GO in H. cbn [bind] in H.
    destruct (entry_spec h x base values di do gi go m (t_index t base) IN KI N N' GI GO CO) as (_ & F1 & _ & T1). destruct (T1 i1 DX) as (y1 & Y1).
    set (inv := direct_inventory (sv_get (o_server x)) base (t_index t base)) in *. destruct (MemCache.get key_of (System.est_size memory_of) System.size_of inv (gi, go, m) (t_mem t)) as [[mem calls] y] eqn:GE. injection H as _ <-.
    assert (FI : i_find inv (gi, go, m) = Ok y1) by exact Y1.
    assert (CE : exists w, MemCache.create inv (gi, go, m) = Ok w).
    { unfold MemCache.create, create_from_entry. rewrite FI. cbn [bind]. destruct y1 as [e|]; [|eauto]. destruct (F1 e Y1) as (i & e0 & SE & FF & U).
      destruct (NB i SE) as [SI|(z & sh & NM)]; [apply silent_first in SI; rewrite SI in FF; discriminate FF|]. apply named_first in NM. destruct NM as (e0' & p & b & FF' & R). rewrite FF in FF'. injection FF' as <-.
      unfold inv. cbn [i_load RemoteOffSpec.direct_inventory]. rewrite (proj2 (weights_spec (sv_get (o_server x)) base e0 e z sh U) (ex_intro _ p (ex_intro _ b R))). eexists. reflexivity. }
    destruct CE as (w0 & CE).
    destruct (get_failures mreq (entry rest) W key_of (System.est_size memory_of) System.size_of size_nonneg _ _ _ _ _ _ GI0 GE) as [G1 G2].
    destruct y as [y|y|]; [left; eauto| |rewrite (G2 eq_refl) in CE; discriminate CE].
    destruct (G1 y eq_refl) as [E|(-> & _ & STR & ent & mx & FN & MX & LT)]; [rewrite E in CE; discriminate CE|]. right. split; [reflexivity|]. split; [exact STR|].
    rewrite FI in FN. injection FN as ->. destruct (F1 ent Y1) as (i & e0 & SE & FF & (_ & _ & _ & RA)). apply first_some in FF. destruct FF as (pre & n & post & -> & Y & _).
    exists (pre ++ (n, e0) :: post), n, e0, mx. split; [exact SE|]. split; [apply in_or_app; right; left; reflexivity|]. split; [exact Y|]. split; [exact MX|]. unfold System.est_size in LT. rewrite RA in LT. exact LT.
  Qed.
End Direct.
