(** C133, C134: whole calls of [regrid] with remote inventories and the cache policy "off". *)
From Verif Require Import PyBase ListLemmas PyStr Float64 GridSpec GridVocab GridProofs Index IndexSpec IndexProofs IndexProofs2
  Db MemCache MemCacheProofs MemCacheProofs2 Inventory Regrid RegridSpec RegridProofs Props_Regrid System SystemSpec SystemProofs Props_System
  Disk Key KeySpec KeyProofs Props_Key CacheFile Remote RemoteSpec RemoteProofs3 Props_Remote Props_Current RemoteOff RemoteOffSpec RemoteOffProofs RemoteOffProofs2.
Set Default Proof Using "Type".
Local Open Scope string_scope.
Local Open Scope list_scope.
Local Open Scope Z_scope.

Section Any.
  Context {A rest blob : Type}.
  Variables (zero : A) (add mul : A -> A -> A).
  Variable parse : blob -> result (file rest).
  Variable gunzip : blob -> result blob.
  Variable digest : blob -> result string.
  Variable load_npz : blob -> result (csr A).
  Variable weigh : blob -> node.
  Variable sha : string -> string.
  Variable dir : string.
  Variable ext_of : string -> string.
  Variables (py_str : val -> string) (key_order : list string) (fuel : nat).
  Variable memory_of : rest -> Z.
  Variable float_text : f64 -> string.
  Notation oop := (@oop A blob).
  Notation off_find := (off_find parse gunzip digest load_npz weigh sha dir ext_of py_str key_order fuel memory_of float_text).
  Notation regrid_call := (off_regrid parse gunzip digest load_npz weigh sha dir ext_of py_str key_order fuel zero add mul memory_of float_text).
  Notation oafter := (oafter parse gunzip digest load_npz weigh sha dir ext_of py_str key_order fuel zero add mul memory_of float_text).
  Notation key_of := (System.key_of sha float_text).
  Notation direct_find := (direct_find parse gunzip digest load_npz py_str key_order fuel memory_of key_of).
  Notation direct_after := (direct_after parse gunzip digest load_npz py_str key_order fuel memory_of key_of).
  Notation seen_in := (@seen_in A rest blob parse gunzip).
  Notation named_by := (@named_by A rest blob load_npz py_str key_order fuel).
  Notation silent := (@silent rest py_str key_order fuel).
  Notation sound_off := (@sound_off A rest blob parse gunzip py_str key_order fuel).
  Notation weights_now := (weights_now parse gunzip load_npz py_str key_order fuel).
  Notation nothing_now := (nothing_now parse gunzip py_str key_order fuel).
  Notation collides_off := (@collides_off A blob sha float_text).
  Implicit Types (h : list oop) (values r : array A).

  (** Files do not matter: a call gives what the process without files gives. *)
  Theorem C133_no_disk c h x base values di do m : fixed_length sha -> drawn_once sha (h ++ [OCall x base values di do m]) ->
    snd (regrid_call x base values di do m (oafter c h)) =
    regrid_from zero add mul (snd (direct_find (sv_get (o_server x)) base di do m (direct_after c h))) values do.
  Proof.
    intros FL D. unfold off_regrid.
    pose proof (after_direct parse gunzip digest load_npz weigh sha dir ext_of py_str key_order fuel FL zero add mul memory_of float_text c h (drawn_once_less sha h _ D)) as M.
    destruct (find_direct parse gunzip digest load_npz weigh sha dir ext_of py_str key_order fuel FL memory_of float_text _ _ _ x base di do m M (drawn_new sha h x base values di do m D)) as [_ E].
    destruct (off_find x base di do m (oafter c h)) as [s' r]. cbn [snd] in *. rewrite E. reflexivity.
  Qed.
  Lemma find_no_disk c h x base values di do m : fixed_length sha -> drawn_once sha (h ++ [OCall x base values di do m]) ->
    snd (off_find x base di do m (oafter c h)) = snd (direct_find (sv_get (o_server x)) base di do m (direct_after c h)).
  Proof.
    intros FL D. pose proof (after_direct parse gunzip digest load_npz weigh sha dir ext_of py_str key_order fuel FL zero add mul memory_of float_text c h (drawn_once_less sha h _ D)) as M.
    exact (proj2 (find_direct parse gunzip digest load_npz weigh sha dir ext_of py_str key_order fuel FL memory_of float_text _ _ _ x base di do m M (drawn_new sha h x base values di do m D))).
  Qed.
  Lemma mem_no_disk c h : fixed_length sha -> drawn_once sha h -> u_mem (oafter c h) = t_mem (direct_after c h).
  Proof. intros FL D. exact (proj1 (proj2 (proj2 (after_direct parse gunzip digest load_npz weigh sha dir ext_of py_str key_order fuel FL zero add mul memory_of float_text c h D)))). Qed.

  Lemma process_call c h0 h1 h2 o HP : HP = h1 ++ h2 ++ [o] -> new_process h0 -> one_process HP -> forgotten_off h1 -> Forall (sound_off HP) HP ->
    dinv parse gunzip load_npz py_str key_order fuel sha float_text h1 h2 (direct_after c (h0 ++ h1 ++ h2)) /\ sound_off (h1 ++ h2 ++ [o]) o.
  Proof.
    intros -> NP OP FG SO. rewrite app_assoc in SO. apply Forall_app in SO. destruct SO as [S1 S2]. split; [|inversion S2; subst; rewrite app_assoc; assumption].
    apply after_process; [exact NP|intros c' J; apply (OP c'); rewrite app_assoc; apply in_or_app; left; exact J|exact FG|].
    revert S1. apply Forall_impl. intros a. apply sound_less. intros q J. apply in_or_app. left. exact J.
  Qed.
  Lemma call_in h1 h2 (o : oop) HP : HP = h1 ++ h2 ++ [o] -> In o HP.
  Proof. intros ->. apply in_or_app. right. apply in_or_app. right. left. reflexivity. Qed.
  Lemma key_collides h2 x base values di do gi go m pre post x' base' values' di' do' m' gi' go' :
    float_texts float_text -> plain_dict di -> plain_dict do -> plain_dict di' -> plain_dict do' -> IndexSpec.request di do gi go -> IndexSpec.request di' do' gi' go' ->
    h2 ++ [OCall x base values di do m] = pre ++ OCall x' base' values' di' do' m' :: post -> key_of (gi', go', m') = key_of (gi, go, m) ->
    (same_spec gi gi' /\ same_spec go go' /\ m' = m) \/ collides_off h2 gi go m.
  Proof.
    intros FT P1 P2 P3 P4 RQ RQ' EH KE. destruct (key_spec sha float_text FT di do di' do' gi go gi' go' m m' P1 P2 P3 P4 RQ RQ' (eq_sym KE)) as [(SI & SG & ->)|[NE CO]]; [left; auto|right].
    assert (I : In (OCall x' base' values' di' do' m') (h2 ++ [OCall x base values di do m])) by (rewrite EH; apply in_or_app; right; left; reflexivity).
    exists x', base', values', di', do', m', gi', go'. split; [|exact (conj RQ' (conj NE CO))]. apply in_app_or in I. destruct I as [I|[I|[]]]; [exact I|].
    exfalso. injection I as <- <- <- <- <- <-. destruct RQ as [R1 R2], RQ' as [R3 R4]. apply NE. congruence.
  Qed.
  Lemma plain_of HP x base values di do m : Forall (sound_off HP) HP -> In (OCall x base values di do m) HP -> plain_dict di /\ plain_dict do.
  Proof. intros SO I. rewrite Forall_forall in SO. destruct (SO _ I) as (P1 & P2 & _). auto. Qed.

  (** Where the weights of an answered call come from: a call since the memory cache was last
      emptied read the matrix from the server, by the first answering entry of an index that the
      server had, in this process, during that call or an earlier one for the same inventory. *)
  Theorem C133_origin c h0 h1 h2 x base values di do m r g :
    fixed_length sha -> float_texts float_text ->
    forall HP, HP = h1 ++ h2 ++ [OCall x base values di do m] -> drawn_once sha (h0 ++ HP) -> new_process h0 -> one_process HP -> forgotten_off h1 ->
    proper_served load_npz HP -> Forall (sound_off HP) HP ->
    snd (regrid_call x base values di do m (oafter c (h0 ++ h1 ++ h2))) = Ok (r, g) ->
    g = do /\ exists gi go z sh n, IndexSpec.request di do gi go /\ is_shape sh n /\ applies zero add mul z n values r /\
      (collides_off h2 gi go m \/
       exists pre post x' base' values' di' do' gi' go' i, h2 ++ [OCall x base values di do m] = pre ++ OCall x' base' values' di' do' m :: post /\
         IndexSpec.request di' do' gi' go' /\ same_spec gi gi' /\ same_spec go go' /\
         seen_in (h1 ++ pre ++ [OCall x' base' values' di' do' m]) base' i /\ named_by (sv_get (o_server x')) base' i gi' go' m z sh).
  Proof.
    intros FL FT HP EH D NP OP FG PF SO R. pose proof (process_call c h0 h1 h2 _ HP EH NP OP FG SO) as [DI SC].
    assert (D' : drawn_once sha ((h0 ++ h1 ++ h2) ++ [OCall x base values di do m])) by (rewrite <- !app_assoc; rewrite <- EH; exact D).
    rewrite (C133_no_disk c _ x base values di do m FL D') in R. destruct (direct_find (sv_get (o_server x)) base di do m (direct_after c (h0 ++ h1 ++ h2))) as [t' y] eqn:E. cbn [snd] in R.
    apply regrid_from_ok in R. destruct R as (z & sh & n & -> & SH & R). apply shape_spec in SH.
    destruct (direct_find_spec parse gunzip digest load_npz py_str key_order fuel memory_of sha float_text h1 h2 _ x base values di do m t' _ DI SC E) as (_ & K & _).
    destruct (K _ eq_refl) as (gi & go & RQ & pre & post & x' & base' & values' & di' & do' & m' & gi' & go' & i & EP & RQ' & KE & SE & NB). cbn [fst snd] in NB.
    assert (IN' : In (OCall x' base' values' di' do' m') HP). { rewrite EH. apply in_or_app. right. rewrite EP. apply in_or_app. right. left. reflexivity. }
    assert (P : proper_csr z). { destruct NB as (pr & nm & e & po & p & b & _ & _ & _ & _ & EB & LZ & _). exact (PF _ _ _ _ _ _ _ _ _ IN' EB LZ). }
    destruct (regrid_applies zero add mul z n values do r g P R) as [-> AP]. split; [reflexivity|]. exists gi, go, z, sh, n. split; [exact RQ|]. split; [exact SH|]. split; [exact AP|].
    destruct (plain_of HP _ _ _ _ _ _ SO (call_in h1 h2 _ HP EH)) as [P1 P2]. destruct (plain_of HP _ _ _ _ _ _ SO IN') as [P3 P4].
    destruct (key_collides h2 x base values di do gi go m pre post x' base' values' di' do' m' gi' go' FT P1 P2 P3 P4 RQ RQ' EP KE) as [(SI & SG & ->)|C]; [right|left; exact C].
    exists pre, post, x', base', values', di', do', gi', go', i. exact (conj EP (conj RQ' (conj SI (conj SG (conj SE NB))))).
  Qed.

  (** Nothing is found only if the index that the server has now has no answer: an index kept
      from before is never the reason. *)
  Theorem C133_nothing c h0 h1 h2 x base values di do m :
    fixed_length sha ->
    forall HP, HP = h1 ++ h2 ++ [OCall x base values di do m] -> drawn_once sha (h0 ++ HP) -> new_process h0 -> one_process HP -> forgotten_off h1 -> Forall (sound_off HP) HP ->
    snd (off_find x base di do m (oafter c (h0 ++ h1 ++ h2))) = Ok None ->
    exists gi go, IndexSpec.request di do gi go /\ nothing_now (sv_get (o_server x)) base gi go m.
  Proof.
    intros FL HP EH D NP OP FG SO R. pose proof (process_call c h0 h1 h2 _ HP EH NP OP FG SO) as [DI SC].
    assert (D' : drawn_once sha ((h0 ++ h1 ++ h2) ++ [OCall x base values di do m])) by (rewrite <- !app_assoc; rewrite <- EH; exact D).
    rewrite (find_no_disk c _ x base values di do m FL D') in R. destruct (direct_find (sv_get (o_server x)) base di do m (direct_after c (h0 ++ h1 ++ h2))) as [t' y] eqn:E. cbn [snd] in R. subst y.
    exact (proj2 (proj2 (direct_find_spec parse gunzip digest load_npz py_str key_order fuel memory_of sha float_text h1 h2 _ x base values di do m t' _ DI SC E)) eq_refl).
  Qed.

  (** The configurations of the memory cache were accepted. *)
  Definition accepted_off (c : mconf) h : Prop :=
    snd (@MemCache.init (weights A) c) = Ok tt /\
    (forall pre c' post, h = pre ++ OConfigure c' :: post -> snd (MemCache.update c' (u_mem (oafter c pre))) = Ok tt) /\
    (forall c', In (ORestart c') h -> snd (@MemCache.init (weights A) c') = Ok tt).
  Lemma accepted_off_ginv c h : accepted_off c h -> GInv (weights A) (u_mem (oafter c h)).
  Proof.
    assert (X : forall c, snd (@MemCache.init (weights A) c) = Ok tt -> GInv (weights A) (fst (@MemCache.init (weights A) c))).
    { clear. intros c C. unfold MemCache.init in *. destruct (MemCache.update c fresh) as [s r] eqn:E. cbn in *. subst r. exact (proj1 (MemCacheProofs2.update_ok (weights A) c fresh s (fresh_ginv (weights A)) E)). }
    intros (C0 & C1 & C2). induction h as [|o h IH] using rev_ind; [exact (X c C0)|].
    assert (Y : GInv (weights A) (u_mem (oafter c h))). { apply IH; [intros pre c' post E; apply (C1 pre c' (post ++ [o])); rewrite E, <- app_assoc; reflexivity|intros c' I; apply C2, in_or_app; left; exact I]. }
    unfold RemoteOff.oafter. rewrite fold_left_app. cbn [fold_left]. fold (oafter c h). destruct o as [x base values di do m|c'| |c'|p]; cbn [RemoteOff.ostep]; try exact Y.
    - unfold off_regrid, RemoteOff.off_find. destruct (from_dict di) as [gi|y|]; [|exact Y..]. cbn [bind]. destruct (from_dict do) as [go|y|]; [|exact Y..]. cbn [bind].
      match goal with |- context [MemCache.get ?a ?b ?d ?e ?f ?g] => destruct (MemCache.get a b d e f g) as [[mem calls] y] eqn:GE end.
      pose proof (proj1 (get_ginv mreq (entry rest) (weights A) key_of (System.est_size memory_of) System.size_of size_nonneg _ _ _ _ _ _ Y GE)) as R. destruct calls; exact R.
    - specialize (C1 h c' [] eq_refl). cbn [u_mem]. destruct (MemCache.update c' (u_mem (oafter c h))) as [s r] eqn:E. cbn in C1. subst r. exact (proj1 (MemCacheProofs2.update_ok (weights A) c' _ s Y E)).
    - exact (step_ginv mreq (entry rest) (weights A) key_of (System.est_size memory_of) System.size_of size_nonneg (u_mem (oafter c h)) OpClear Y I).
    - apply X, C2, in_or_app. right. left. reflexivity.
  Qed.
  Lemma healthy_index (get : string -> result blob) base : healthy (rest := rest) parse gunzip digest get base -> exists i, direct_index parse gunzip digest get base = Ok i.
  Proof.
    intros ((i & z & t & f & G & GZ & P & L) & DG). exists i. unfold direct_index. rewrite G. cbn [bind]. rewrite GZ. cbn [bind]. destruct (DG z t G GZ) as (s & ->). cbn [bind]. rewrite P. exact L.
  Qed.
  Definition too_large_seen h (base : string) (gi go : gspec) (m : string) (mem : MemCache.state (weights A)) : Prop :=
    strict mem = true /\ exists i n e limit, seen_in h base i /\ In (n, e) i /\ answers py_str key_order fuel e gi go (method_alias m) /\ max_mem mem = Some limit /\ memory_of (r_rest (e_raw e)) > limit.

  (** If the server now has weights for the request, weights are found; but the index kept may
      name others, which must be there too. *)
  Theorem C134_found_partial c h0 h1 h2 x base values di do m gi go z sh :
    fixed_length sha ->
    forall HP, HP = h1 ++ h2 ++ [OCall x base values di do m] -> drawn_once sha (h0 ++ HP) -> new_process h0 -> one_process HP -> forgotten_off h1 -> Forall (sound_off HP) HP ->
    accepted_off c (h0 ++ h1 ++ h2) -> IndexSpec.request di do gi go ->
    healthy (rest := rest) parse gunzip digest (sv_get (o_server x)) base -> weights_now (sv_get (o_server x)) base gi go m z sh ->
    (forall i, seen_in (h1 ++ h2) base i -> silent i gi go m \/ exists z' sh', named_by (sv_get (o_server x)) base i gi go m z' sh') ->
    (exists w : weights A, snd (off_find x base di do m (oafter c (h0 ++ h1 ++ h2))) = Ok (Some w)) \/
    (snd (off_find x base di do m (oafter c (h0 ++ h1 ++ h2))) = Raise WeightsTooLarge /\ too_large_seen HP base gi go m (u_mem (oafter c (h0 ++ h1 ++ h2)))).
  Proof.
    intros FL HP EH D NP OP FG SO AC RQ HL WN NB. pose proof (process_call c h0 h1 h2 _ HP EH NP OP FG SO) as [DI SC].
    assert (D' : drawn_once sha ((h0 ++ h1 ++ h2) ++ [OCall x base values di do m])) by (rewrite <- !app_assoc; rewrite <- EH; exact D).
    pose proof (accepted_off_ginv c _ AC) as GV. rewrite (mem_no_disk c _ FL (drawn_once_less sha _ _ D')) in *.
    rewrite (find_no_disk c _ x base values di do m FL D'). destruct (direct_find (sv_get (o_server x)) base di do m (direct_after c (h0 ++ h1 ++ h2))) as [t' y] eqn:E. cbn [snd].
    pose proof (call_in h1 h2 _ HP EH) as IN. pose proof SC as (P1 & P2 & CO). rewrite <- EH in CO.
    assert (KI : kept_index parse gunzip fuel HP base (t_index (direct_after c (h0 ++ h1 ++ h2)) base)).
    { destruct DI as (_ & HX & _). revert HX. intros HX. refine (kept_more parse gunzip fuel (h1 ++ h2) HP base _ _ (HX base)). intros q J. rewrite EH, app_assoc. apply in_or_app. left. exact J. }
    assert (NB' : forall i, seen_in HP base i -> silent i gi go m \/ exists z' sh', named_by (sv_get (o_server x)) base i gi go m z' sh').
    { intros i (x' & v & d1 & d2 & m' & J & CU). rewrite EH, app_assoc in J. apply in_app_or in J. destruct J as [J|[J|[]]]; [apply NB; exists x', v, d1, d2, m'; auto|]. injection J as <- <- <- <- <-.
      right. destruct WN as (i' & pre & n & e & post & p & b & CU' & -> & R). pose proof (current_one parse gunzip _ base _ _ CU CU') as ->. exists z, sh, pre, n, e, post, p, b. split; [reflexivity|exact R]. }
    destruct (direct_find_total parse gunzip digest load_npz py_str key_order fuel memory_of sha float_text HP x base values di do m _ t' y gi go IN KI GV P1 P2 RQ (CO gi go RQ) E (healthy_index _ base HL) NB') as [(w & ->)|(-> & TL)]; [|right; split; [reflexivity|exact TL]].
    destruct w as [w|]; [left; eauto|]. exfalso.
    destruct (direct_find_spec parse gunzip digest load_npz py_str key_order fuel memory_of sha float_text h1 h2 _ x base values di do m t' _ DI SC E) as (_ & _ & NO).
    destruct (NO eq_refl) as (gi' & go' & [E1 E2] & i' & CU' & NN). destruct RQ as [E3 E4]. rewrite E3 in E1. rewrite E4 in E2. injection E1 as <-. injection E2 as <-.
    destruct WN as (i & pre & n & e & post & p & b & CU & -> & Y & N & _). pose proof (current_one parse gunzip _ base _ _ CU' CU) as EI. subst i'.
    assert (F1 : first py_str key_order fuel (pre ++ (n, e) :: post) gi go (method_alias m) = Ok (Some e)) by (apply first_some; exists pre, n, post; auto).
    assert (F2 : first py_str key_order fuel (pre ++ (n, e) :: post) gi go (method_alias m) = Ok None) by (apply first_none; exact NN). rewrite F1 in F2. discriminate F2.
  Qed.

  (** ** A server that serves the same all the time *)
  Variable G : string -> result blob.
  Definition steady_off h : Prop := forall x base values di do m, In (OCall x base values di do m) h -> forall u, sv_get (o_server x) u = G u.
  Lemma current_ext (g g' : string -> result blob) base (i : index rest) : (forall u, g u = g' u) -> current parse gunzip g base i -> current parse gunzip g' base i.
  Proof. intros E (z & t & f & Z & R). exists z, t, f. split; [rewrite <- E; exact Z|exact R]. Qed.
  Lemma named_ext (g g' : string -> result blob) base i gi go m z sh : (forall u, g u = g' u) -> named_by g base i gi go m z sh -> named_by g' base i gi go m z sh.
  Proof. intros E (pre & n & e & post & p & b & EI & Y & N & M & B & R). exists pre, n, e, post, p, b. rewrite <- E. exact (conj EI (conj Y (conj N (conj M (conj B R))))). Qed.
  Lemma seen_steady h base i : steady_off h -> seen_in h base i -> current parse gunzip G base i.
  Proof. intros ST (x & v & d1 & d2 & m & I & C). exact (current_ext _ G base i (ST _ _ _ _ _ _ I) C). Qed.
  Lemma now_ext (g g' : string -> result blob) base gi go m z sh : (forall u, g u = g' u) -> weights_now g base gi go m z sh -> weights_now g' base gi go m z sh.
  Proof. intros E (i & pre & n & e & post & p & b & C & EI & Y & N & M & B & R). exists i, pre, n, e, post, p, b. rewrite <- E. exact (conj (current_ext g g' base i E C) (conj EI (conj Y (conj N (conj M (conj B R)))))). Qed.
  Lemma healthy_ext (g g' : string -> result blob) base : (forall u, g u = g' u) -> healthy (rest := rest) parse gunzip digest g base -> healthy (rest := rest) parse gunzip digest g' base.
  Proof. intros E ((i & C) & D). split; [exists i; exact (current_ext g g' base i E C)|]. intros z t. rewrite <- E. apply D. Qed.

  (** A call is answered with the weights that the server has. *)
  Theorem C133_answered c h0 h1 h2 x base values di do m gi go z sh n :
    fixed_length sha -> float_texts float_text ->
    forall HP, HP = h1 ++ h2 ++ [OCall x base values di do m] -> drawn_once sha (h0 ++ HP) -> new_process h0 -> one_process HP -> forgotten_off h1 ->
    proper_served load_npz HP -> Forall (sound_off HP) HP -> accepted_off c (h0 ++ h1 ++ h2) -> steady_off HP -> healthy (rest := rest) parse gunzip digest G base ->
    IndexSpec.request di do gi go -> asked_only_off base h2 gi go m ->
    weights_now G base gi go m z sh -> is_shape sh n -> prod (shape values) = n_cols z -> prod n = n_rows z ->
    (exists r, snd (regrid_call x base values di do m (oafter c (h0 ++ h1 ++ h2))) = Ok (r, do) /\ applies zero add mul z n values r) \/
    (snd (regrid_call x base values di do m (oafter c (h0 ++ h1 ++ h2))) = Raise WeightsTooLarge /\ too_large_seen HP base gi go m (u_mem (oafter c (h0 ++ h1 ++ h2)))) \/
    collides_off h2 gi go m.
  Proof.
    intros FL FT HP EH D NP OP FG PF SO AC ST HL RQ AO WN SH E1 E2. pose proof (process_call c h0 h1 h2 _ HP EH NP OP FG SO) as [DI SC].
    pose proof (call_in h1 h2 _ HP EH) as IN. pose proof (fun u => ST _ _ _ _ _ _ IN u) as SG. assert (GS : forall u, G u = sv_get (o_server x) u) by (intros u; symmetry; apply SG).
    assert (D' : drawn_once sha ((h0 ++ h1 ++ h2) ++ [OCall x base values di do m])) by (rewrite <- !app_assoc; rewrite <- EH; exact D).
    assert (NB : forall i, seen_in (h1 ++ h2) base i -> silent i gi go m \/ exists z' sh', named_by (sv_get (o_server x)) base i gi go m z' sh').
    { intros i S. right. exists z, sh. apply (named_ext G _ base i gi go m z sh GS). destruct WN as (i' & pre & nm & e & post & p & b & CU' & -> & R).
      assert (S' : seen_in HP base i) by (revert S; apply seen_more; intros q J; rewrite EH, app_assoc; apply in_or_app; left; exact J).
      pose proof (current_one parse gunzip G base _ _ (seen_steady HP base i ST S') CU') as ->. exists pre, nm, e, post, p, b. split; [reflexivity|exact R]. }
    pose proof (C134_found_partial c h0 h1 h2 x base values di do m gi go z sh FL HP EH D NP OP FG SO AC RQ (healthy_ext G _ base GS HL) (now_ext G _ base gi go m z sh GS WN) NB) as FO.
    assert (RE : snd (regrid_call x base values di do m (oafter c (h0 ++ h1 ++ h2))) = regrid_from zero add mul (snd (off_find x base di do m (oafter c (h0 ++ h1 ++ h2)))) values do).
    { unfold off_regrid. destruct (off_find x base di do m (oafter c (h0 ++ h1 ++ h2))). reflexivity. }
    rewrite RE. destruct FO as [([z' sh'] & FO)|[FO TL]]; rewrite FO in *; [|right; left; split; [reflexivity|exact TL]].
    rewrite (find_no_disk c _ x base values di do m FL D') in FO. destruct (direct_find (sv_get (o_server x)) base di do m (direct_after c (h0 ++ h1 ++ h2))) as [t' y] eqn:E. cbn [snd] in FO. subst y.
    destruct (direct_find_spec parse gunzip digest load_npz py_str key_order fuel memory_of sha float_text h1 h2 _ x base values di do m t' _ DI SC E) as (_ & K & _).
    destruct (K _ eq_refl) as (gi0 & go0 & RQ0 & pre & post & x' & base' & values' & di' & do' & m' & gi' & go' & i & EP & RQ' & KE & SE & NB'). cbn [fst snd] in NB'.
    assert (gi0 = gi /\ go0 = go) as [-> ->]. { destruct RQ as [R1 R2], RQ0 as [R3 R4]. rewrite R1 in R3. rewrite R2 in R4. injection R3 as <-. injection R4 as <-. auto. }
    assert (IN' : In (OCall x' base' values' di' do' m') HP). { rewrite EH. apply in_or_app. right. rewrite EP. apply in_or_app. right. left. reflexivity. }
    destruct (plain_of HP _ _ _ _ _ _ SO IN) as [P1 P2]. destruct (plain_of HP _ _ _ _ _ _ SO IN') as [P3 P4].
    destruct (key_collides h2 x base values di do gi go m pre post x' base' values' di' do' m' gi' go' FT P1 P2 P3 P4 RQ RQ' EP KE) as [(SI & SG' & ->)|C]; [left|right; right; exact C].
    assert (base' = base) as ->.
    { assert (I : In (OCall x' base' values' di' do' m) (h2 ++ [OCall x base values di do m])) by (rewrite EP; apply in_or_app; right; left; reflexivity).
      apply in_app_or in I. destruct I as [I|[I|[]]]; [exact (AO x' base' values' di' do' gi' go' I RQ' SI SG')|]. injection I as <- <- <- <- <-. reflexivity. }
    assert (SE' : seen_in HP base i). { revert SE. apply seen_more. intros q J. rewrite EH. rewrite EP. apply in_app_or in J. apply in_or_app. destruct J as [J|J]; [left; exact J|right]. apply in_app_or in J. apply in_or_app. destruct J as [J|[->|[]]]; [left; exact J|right; left; reflexivity]. }
    assert (WN' : weights_now G base gi go m z' sh').
    { apply (named_ext _ G base i gi' go' m z' sh' (ST _ _ _ _ _ _ IN')) in NB'. apply (named_same load_npz py_str key_order fuel G base i gi' go' gi go m z' sh' (same_result_sym (Ok gi) (Ok gi') SI) (same_result_sym (Ok go) (Ok go') SG')) in NB'.
      destruct NB' as (pr & nm & e & po & p & b & EI & R). exists i, pr, nm, e, po, p, b. split; [exact (seen_steady HP base i ST SE')|]. split; [exact EI|exact R]. }
    destruct (weights_now_one parse gunzip load_npz py_str key_order fuel G base gi go m z sh z' sh' WN WN') as [<- <-].
    assert (P : proper_csr z). { destruct WN as (i' & pr & nm & e & po & p & b & _ & _ & _ & _ & _ & EB & LZ & _). rewrite <- (SG (join_path base p)) in EB. exact (PF _ _ _ _ _ _ _ _ _ IN EB LZ). }
    destruct (C36_computed zero add mul z n values do P E1 E2) as (r & R & S & IT). exists r. split; [|exact (conj E1 (conj E2 (conj S IT)))].
    unfold regrid_from. unfold regrid in R. cbn [bind] in *. destruct (matmul zero add mul z (reshape_column zero values)); try discriminate R. cbn [bind] in *. apply shape_spec in SH. rewrite SH. exact R.
  Qed.
  (** A call for which the server has nothing is refused with ValueError. *)
  Theorem C133_refused c h0 h1 h2 x base values di do m gi go :
    fixed_length sha -> float_texts float_text ->
    forall HP, HP = h1 ++ h2 ++ [OCall x base values di do m] -> drawn_once sha (h0 ++ HP) -> new_process h0 -> one_process HP -> forgotten_off h1 ->
    Forall (sound_off HP) HP -> accepted_off c (h0 ++ h1 ++ h2) -> steady_off HP -> healthy (rest := rest) parse gunzip digest G base ->
    IndexSpec.request di do gi go -> asked_only_off base h2 gi go m -> nothing_now G base gi go m ->
    snd (regrid_call x base values di do m (oafter c (h0 ++ h1 ++ h2))) = Raise ValueError \/ collides_off h2 gi go m.
  Proof.
    intros FL FT HP EH D NP OP FG SO AC ST HL RQ AO (j & CJ & NN). pose proof (process_call c h0 h1 h2 _ HP EH NP OP FG SO) as [DI SC].
    pose proof (call_in h1 h2 _ HP EH) as IN. pose proof (fun u => ST _ _ _ _ _ _ IN u) as SG. assert (GS : forall u, G u = sv_get (o_server x) u) by (intros u; symmetry; apply SG).
    assert (D' : drawn_once sha ((h0 ++ h1 ++ h2) ++ [OCall x base values di do m])) by (rewrite <- !app_assoc; rewrite <- EH; exact D).
    rewrite (C133_no_disk c _ x base values di do m FL D'). pose proof (accepted_off_ginv c _ AC) as GV. rewrite (mem_no_disk c _ FL (drawn_once_less sha _ _ D')) in GV.
    destruct (direct_find (sv_get (o_server x)) base di do m (direct_after c (h0 ++ h1 ++ h2))) as [t' y] eqn:E. cbn [snd].
    assert (SIL : forall i, seen_in HP base i -> silent i gi go m) by (intros i S; pose proof (current_one parse gunzip G base _ _ (seen_steady HP base i ST S) CJ) as ->; exact NN).
    assert (KI : kept_index parse gunzip fuel HP base (t_index (direct_after c (h0 ++ h1 ++ h2)) base)).
    { destruct DI as (_ & HX & _). refine (kept_more parse gunzip fuel (h1 ++ h2) HP base _ _ (HX base)). intros q J. rewrite EH, app_assoc. apply in_or_app. left. exact J. }
    pose proof SC as (P1 & P2 & CO). rewrite <- EH in CO.
    destruct (direct_find_total parse gunzip digest load_npz py_str key_order fuel memory_of sha float_text HP x base values di do m _ t' y gi go IN KI GV P1 P2 RQ (CO gi go RQ) E (healthy_index _ base (healthy_ext G _ base GS HL)) (fun i S => or_introl (SIL i S))) as [(w & ->)|(_ & _ & i & n & e & lim & S & I & Y & _)].
    2:{ exfalso. specialize (SIL i S). unfold RemoteOffSpec.silent in SIL. rewrite Forall_forall in SIL. specialize (SIL _ I). cbn [snd] in SIL. apply (answers_or_not py_str key_order fuel e gi go _ Y SIL). }
    destruct w as [[z' sh']|]; [|left; reflexivity].
    destruct (direct_find_spec parse gunzip digest load_npz py_str key_order fuel memory_of sha float_text h1 h2 _ x base values di do m t' _ DI SC E) as (_ & K & _).
    destruct (K _ eq_refl) as (gi0 & go0 & RQ0 & pre & post & x' & base' & values' & di' & do' & m' & gi' & go' & i & EP & RQ' & KE & SE & NB'). cbn [fst snd] in NB'.
    assert (gi0 = gi /\ go0 = go) as [-> ->]. { destruct RQ as [R1 R2], RQ0 as [R3 R4]. rewrite R1 in R3. rewrite R2 in R4. injection R3 as <-. injection R4 as <-. auto. }
    assert (IN' : In (OCall x' base' values' di' do' m') HP). { rewrite EH. apply in_or_app. right. rewrite EP. apply in_or_app. right. left. reflexivity. }
    destruct (plain_of HP _ _ _ _ _ _ SO IN') as [P3 P4].
    destruct (key_collides h2 x base values di do gi go m pre post x' base' values' di' do' m' gi' go' FT P1 P2 P3 P4 RQ RQ' EP KE) as [(SI & SG' & ->)|C]; [exfalso|right; exact C].
    assert (base' = base) as ->.
    { assert (I : In (OCall x' base' values' di' do' m) (h2 ++ [OCall x base values di do m])) by (rewrite EP; apply in_or_app; right; left; reflexivity).
      apply in_app_or in I. destruct I as [I|[I|[]]]; [exact (AO x' base' values' di' do' gi' go' I RQ' SI SG')|]. injection I as <- <- <- <- <-. reflexivity. }
    assert (SE' : seen_in HP base i). { revert SE. apply seen_more. intros q J. rewrite EH. rewrite EP. apply in_app_or in J. apply in_or_app. destruct J as [J|J]; [left; exact J|right]. apply in_app_or in J. apply in_or_app. destruct J as [J|[->|[]]]; [left; exact J|right; left; reflexivity]. }
    apply (named_same load_npz py_str key_order fuel _ base i gi' go' gi go m z' sh' (same_result_sym (Ok gi) (Ok gi') SI) (same_result_sym (Ok go) (Ok go') SG')) in NB'. apply named_first in NB'. destruct NB' as (e & p & b & F & _).
    pose proof (proj1 (silent_first py_str key_order fuel i gi go m) (SIL i SE')) as F'. rewrite F in F'. discriminate F'.
  Qed.
End Any.

(** ** A small server *)
(** The last four characters. *)
Fixpoint last4 (a b c d : ascii) (s : string) : string :=
  match s with EmptyString => String a (String b (String c (String d ""))) | String x r => last4 b c d x r end.
Definition tail_sha : string -> string := last4 "0" "0" "0" "0".
Lemma tail_length : fixed_length tail_sha.
Proof.
  assert (X : forall s a b c d, String.length (last4 a b c d s) = 4%nat) by (induction s as [|x s IH]; intros a b c d; [reflexivity|apply IH]).
  intros a b. unfold tail_sha. rewrite !X. reflexivity.
Qed.
Fixpoint nodupb (l : list string) : bool := match l with [] => true | a :: r => negb (existsb (String.eqb a) r) && nodupb r end.
Lemma nodupb_ok l : nodupb l = true -> NoDup l.
Proof.
  induction l as [|a l IH]; cbn; intros E; constructor; apply andb_prop in E; destruct E as [E1 E2]; [|exact (IH E2)]. intros J. apply negb_true_iff in E1.
  assert (X : existsb (String.eqb a) l = true) by (apply existsb_exists; exists a; split; [exact J|apply String.eqb_refl]). congruence.
Qed.
Lemma drawn_check {A blob} sha (h : list (@oop A blob)) : forallb (fun n => nodupb (names_drawn sha (firstn n h))) (seq 0 (S (List.length h))) = true -> drawn_once sha h.
Proof.
  intros E pre post EH. rewrite forallb_forall in E. specialize (E (List.length pre)). rewrite EH in E. rewrite firstn_app, Nat.sub_diag, firstn_O, app_nil_r, firstn_all in E.
  apply nodupb_ok, E, in_seq. rewrite app_length. lia.
Qed.
Definition noon : moment := mkMoment 2026 11 16 12 0 0 0.
Definition draws_of (k : Z) : draws := mkDraws (noon, k) (noon, k + 1) (noon, k + 2) (noon, k + 3) (noon, k + 4).
Definition off_meets (get : string -> result page) (k : Z) : @omeets page := mkOff (mkServer get (fun _ => None) (fun _ => Ok true) (fun _ => JNull)) (draws_of k).
Definition off_call (get : string -> result page) (k : Z) (m : string) : @oop Z page := OCall (off_meets get k) "s" demo_values demo_in demo_out m.
Notation off_toy := (oafter page_parse page_gunzip page_digest page_npz page_weigh tail_sha "/t" toy_ext demo_py COMPARE_KEYS 10 0 Z.add Z.mul (fun x : Z => x) demo_text).
Notation off_answer := (off_regrid page_parse page_gunzip page_digest page_npz page_weigh tail_sha "/t" toy_ext demo_py COMPARE_KEYS 10 0 Z.add Z.mul (fun x : Z => x) demo_text).
Notation off_found := (off_find page_parse page_gunzip page_digest page_npz page_weigh tail_sha "/t" toy_ext demo_py COMPARE_KEYS 10 (fun x : Z => x) demo_text).

(** Names that are drawn twice: a call is given the matrix that an earlier one downloaded, although
    the memory cache was emptied and the server has another. *)
Theorem C133_same_name_refuted : exists r,
  snd (off_answer (off_meets new_site 1000) "s" demo_values demo_in demo_out "linear" (off_toy roomy [off_call old_site 1000 "linear"; OClearMemory])) = Ok (r, demo_out) /\
  toy_now new_site "s" demo_gi demo_go "linear" matrix_b (VList [VInt 2]) /\
  applies 0 Z.add Z.mul matrix_a [2%nat] demo_values r /\ ~ applies 0 Z.add Z.mul matrix_b [2%nat] demo_values r.
Proof.
  eexists. split; [vm_compute; reflexivity|]. split; [apply toy_weights; [auto|vm_compute; reflexivity]|]. split.
  - split; [reflexivity|]. split; [reflexivity|]. split; [reflexivity|]. intros idx V. inversion V as [|? i ? r L V']; subst. inversion V'; subst. destruct i as [|[|i]]; [reflexivity|reflexivity|lia].
  - intros (_ & _ & _ & E). assert (V : valid [2%nat] [0%nat]) by (repeat constructor). specialize (E _ V). vm_compute in E. discriminate E.
Qed.
(** An index kept that has an answer is never looked at again: the matrix has another name on the
    server now, and calls of the process fail until one for something else misses. *)
Theorem C134_refuted :
  let h := [off_call old_site 1000 "linear"; OClearMemory] in
  snd (off_answer (off_meets moved_site 2000) "s" demo_values demo_in demo_out "linear" (off_toy roomy h)) = Raise (UserError 404) /\
  drawn_once tail_sha (h ++ [off_call moved_site 2000 "nn"; off_call moved_site 3000 "linear"]) /\
  toy_now moved_site "s" demo_gi demo_go "linear" matrix_a (VList [VInt 2]) /\ healthy page_parse page_gunzip page_digest moved_site "s" /\
  exists r, snd (off_answer (off_meets moved_site 3000) "s" demo_values demo_in demo_out "linear" (off_toy roomy (h ++ [off_call moved_site 2000 "nn"]))) = Ok (r, demo_out).
Proof.
  assert (CU : current page_parse page_gunzip moved_site "s" [("v", moved_entry)]).
  { exists (PackedIndex "3" moved_index), (TextIndex "3" moved_index), moved_index; split; [reflexivity|]; split; [reflexivity|]; split; [reflexivity|]; vm_compute; reflexivity. }
  split; [vm_compute; reflexivity|]. split.
  { apply drawn_check. vm_compute. reflexivity. }
  split; [|split; [|eexists; vm_compute; reflexivity]].
  - exists [("v", moved_entry)], [], "v", moved_entry, [], "mir_16_linear/v.npz", (Npz matrix_a). split; [exact CU|].
    split; [reflexivity|]. split; [split; [|split]; vm_compute; reflexivity|]. split; [constructor|]. split; [vm_compute; reflexivity|]. split; [reflexivity|]. split; [reflexivity|vm_compute; reflexivity].
  - split; [eauto|]. intros z t E GZ. cbn in E. injection E as <-. cbn in GZ. injection GZ as <-. exists "3". reflexivity.
Qed.
(** A request missed, then the server got an index with an entry for it: the same process answers. *)
Example C133_looks_again :
  snd (off_found (off_meets old_site 1000) "s" demo_in demo_out "nn" (off_toy roomy [])) = Ok None /\
  exists r, snd (off_answer (off_meets wide_site 2000) "s" demo_values demo_in demo_out "nn" (off_toy roomy [off_call old_site 1000 "nn"])) = Ok (r, demo_out).
Proof. split; [vm_compute; reflexivity|]. eexists. vm_compute. reflexivity. Qed.

(** The hypotheses of the theorems are met. *)
Definition off_past : list (@oop Z page) := [off_call newer_site 1000 "linear"; ORestart roomy].
Definition off_before : list (@oop Z page) := [off_call old_site 1000 "linear"; OClearMemory].
Definition off_since : list (@oop Z page) := [off_call old_site 2000 "linear"; ODelete "/t/url-2000.bin"; off_call old_site 3000 "nn"].
Definition off_all (m : string) : list (@oop Z page) := off_before ++ off_since ++ [off_call old_site 4000 m].
Lemma off_current (h : list (@oop Z page)) i : (forall o, In o h -> match o with OCall x base _ _ _ _ => sv_get (o_server x) = old_site /\ base = "s" | _ => True end) ->
  seen_in page_parse page_gunzip h "s" i -> i = [("w", toy_entry demo_index)].
Proof. intros H (x & v & d1 & d2 & m & I & C). specialize (H _ I). cbn in H. destruct H as [E _]. rewrite E in C. exact (steady_current i C). Qed.
Example C133_met m : m = "linear" \/ m = "nn" ->
  fixed_length tail_sha /\ float_texts demo_text /\ drawn_once tail_sha (off_past ++ off_all m) /\ new_process off_past /\ one_process (off_all m) /\ forgotten_off off_before /\
  proper_served page_npz (off_all m) /\ Forall (sound_off page_parse page_gunzip demo_py COMPARE_KEYS 10 (off_all m)) (off_all m) /\
  accepted_off 0 Z.add Z.mul page_parse page_gunzip page_digest page_npz page_weigh tail_sha "/t" toy_ext demo_py COMPARE_KEYS 10 (fun x : Z => x) demo_text roomy (off_past ++ off_before ++ off_since) /\
  steady_off old_site (off_all m) /\ healthy page_parse page_gunzip page_digest old_site "s" /\
  IndexSpec.request demo_in demo_out demo_gi demo_go /\ asked_only_off "s" off_since demo_gi demo_go m /\
  toy_now old_site "s" demo_gi demo_go "linear" matrix_a (VList [VInt 2]) /\ nothing_now page_parse page_gunzip demo_py COMPARE_KEYS 10 old_site "s" demo_gi demo_go "nn".
Proof.
  intros MM. destruct (toy_load demo_index (or_introl eq_refl)) as (L & AN & _).
  assert (CU : current page_parse page_gunzip old_site "s" [("w", toy_entry demo_index)]) by (exists (PackedIndex "1" demo_index), (TextIndex "1" demo_index), demo_index; auto).
  assert (AL : forall o, In o (off_all m) -> match o with OCall x base _ _ _ _ => sv_get (o_server x) = old_site /\ base = "s" | _ => True end).
  { intros o I. cbn in I. repeat (destruct I as [<-|I]; [cbn; auto|]). contradiction. }
  split; [exact tail_length|]. split; [exact demo_texts|]. split.
  { apply drawn_check. vm_compute. reflexivity. }
  split; [right; exists [off_call newer_site 1000 "linear"], roomy; reflexivity|].
  split. { intros c I. cbn in I. repeat (destruct I as [I|I]; [discriminate I|]). contradiction. }
  split; [right; exists [off_call old_site 1000 "linear"]; reflexivity|].
  split. { intros x base values di do m' u b z I E LZ. specialize (AL _ I). cbn in AL. destruct AL as [ES _]. rewrite ES in E. unfold old_site, site in E.
    repeat (destruct (String.eqb _ _) in E; [injection E as <-; try discriminate LZ; injection LZ as <-; exact matrix_a_proper|]). discriminate E. }
  split. { assert (S : forall k m', m' = "linear" \/ m' = "nn" -> sound_off page_parse page_gunzip demo_py COMPARE_KEYS 10 (off_all m) (off_call old_site k m')).
    { intros k m' MM'. destruct demo_plain as [P1 P2]. split; [exact P1|]. split; [exact P2|]. intros gi go [E1 E2]. destruct demo_request as [R1 R2]. rewrite R1 in E1. rewrite R2 in E2. injection E1 as <-. injection E2 as <-.
      intros i n e SE I. pose proof (off_current _ i AL SE) as ->. destruct I as [I|[]]. apply pair_equal_spec in I. destruct I as [_ <-]. destruct MM' as [->| ->]; [left; exact AN|right; exact (toy_not demo_index (or_introl eq_refl))]. }
    repeat (apply Forall_cons; [first [exact I|apply S; auto]|]). apply Forall_nil. }
  split. { split; [reflexivity|]. split; [|intros c' I; cbn in I; repeat (destruct I as [I|I]; [try discriminate I; injection I as <-; reflexivity|]); contradiction].
    intros pre c' post E. exfalso. assert (I : In (OConfigure c') (off_past ++ off_before ++ off_since)) by (rewrite E; apply in_or_app; right; left; reflexivity). cbn in I. repeat (destruct I as [I|I]; [discriminate I|]). contradiction. }
  split. { intros x base values di do m' I u. specialize (AL _ I). cbn in AL. destruct AL as [-> _]. reflexivity. }
  split. { split; [eauto|]. intros z t E GZ. cbn in E. injection E as <-. cbn in GZ. injection GZ as <-. exists "1". reflexivity. }
  split; [exact demo_request|]. split. { intros x base' values di do gi go I _ _ _. cbn in I. repeat (destruct I as [I|I]; [try discriminate I; injection I as _ <- _ _ _; reflexivity|]). contradiction. }
  split; [apply toy_weights; [auto|vm_compute; reflexivity]|]. exists [("w", toy_entry demo_index)]. split; [exact CU|]. constructor; [exact (toy_not demo_index (or_introl eq_refl))|constructor].
Qed.
Example C133_answers_met :
  (exists r, snd (off_answer (off_meets old_site 4000) "s" demo_values demo_in demo_out "linear" (off_toy roomy (off_past ++ off_before ++ off_since))) = Ok (r, demo_out)) /\
  snd (off_answer (off_meets old_site 4000) "s" demo_values demo_in demo_out "nn" (off_toy roomy (off_past ++ off_before ++ off_since))) = Raise ValueError.
Proof. split; [eexists|]; vm_compute; reflexivity. Qed.

Print Assumptions C133_no_disk.
Print Assumptions C133_origin.
Print Assumptions C133_nothing.
Print Assumptions C133_answered.
Print Assumptions C133_refused.
Print Assumptions C133_same_name_refuted.
Print Assumptions C134_found_partial.
Print Assumptions C134_refuted.
