(** C30-C35, C71: weights indexes and inventories (backends/db.py). *)
From Verif Require Import PyBase ListLemmas PyStr Float64 GridSpec GridVocab GridProofs GridProofs2 Index IndexSpec IndexProofs IndexProofs2 Db DbProofs.
Local Open Scope string_scope.
Local Open Scope list_scope.
Local Open Scope Z_scope.

Section T.
  Context {rest : Type}.
  Variables (py_str : val -> string) (key_order : list string) (fuel : nat).
  Notation answers := (@answers rest py_str key_order fuel).
  Notation no_answer := (@does_not_answer rest py_str key_order fuel).
  Notation find := (@find rest py_str key_order fuel).

  (** ** C30.  [i0] is the index as it was loaded; [i] the same object after any lookups that
      did not raise (they only fill memos). *)
  Theorem C30_history i0 qs : Forall (fun x => is_ok x = true) (snd (run py_str key_order fuel i0 qs)) ->
    used_index fuel i0 (fst (@run rest py_str key_order fuel i0 qs)).
  Proof. exact (run_used py_str key_order fuel qs i0 i0 (used_index_refl fuel i0)). Qed.
  Theorem C30_found i0 i di do m gi go e : used_index fuel i0 i -> request di do gi go ->
    snd (find i di do m) = Ok (Some e) ->
    exists pre n e0 post, i0 = pre ++ (n, e0) :: post /\ used_entry fuel e0 e /\ answers e0 gi go m /\
      Forall (fun p => no_answer (snd p) gi go m) pre.
  Proof.
    intros U [R1 R2] H. destruct (find_used py_str key_order fuel i0 i di do m U) as [F _]. rewrite R1, R2 in F. cbn [bind] in F. rewrite H in F.
    destruct (first py_str key_order fuel i0 gi go m) as [[e0|]|x|] eqn:E; cbn in F; try discriminate F.
    apply first_some in E. destruct E as (pre & n & post & A & B & C). exists pre, n, e0, post. auto.
  Qed.
  Theorem C30_nothing i0 i di do m gi go : used_index fuel i0 i -> request di do gi go ->
    (snd (find i di do m) = Ok None <-> Forall (fun p => no_answer (snd p) gi go m) i0).
  Proof.
    intros U [R1 R2]. destruct (find_used py_str key_order fuel i0 i di do m U) as [F _]. rewrite R1, R2 in F. cbn [bind] in F.
    rewrite <- first_none. destruct (first py_str key_order fuel i0 gi go m) as [[e0|]|x|], (snd (find i di do m)) as [[e|]|y|]; cbn in F; split; intros H; try discriminate; try congruence; try contradiction.
  Qed.
  Theorem C30_complete i0 i di do m gi go pre n e0 post : used_index fuel i0 i -> request di do gi go ->
    i0 = pre ++ (n, e0) :: post -> answers e0 gi go m -> Forall (fun p => no_answer (snd p) gi go m) pre ->
    exists e, snd (find i di do m) = Ok (Some e) /\ used_entry fuel e0 e.
  Proof.
    intros U [R1 R2] S A B. destruct (find_used py_str key_order fuel i0 i di do m U) as [F _]. rewrite R1, R2 in F. cbn [bind] in F.
    rewrite (proj2 (first_some py_str key_order fuel i0 gi go m e0)) in F by (exists pre, n, post; auto).
    destruct (snd (find i di do m)) as [[e|]|y|]; cbn in F; try discriminate F. exists e. auto.
  Qed.

  (** The method of an entry is its name, or the name inside the method's object. *)
  Theorem C30_method (e : entry rest) gi go m : answers e gi go m ->
    exists i, r_inter (e_raw e) = Some i /\ (i_method i = Some (MName m) \/ i_method i = Some (MObject (Some m))).
  Proof.
    intros (M & _). unfold interpolation_method_name in M. destruct (r_inter (e_raw e)) as [i|]; [|discriminate M]. exists i. split; [reflexivity|].
    destruct (i_method i) as [[s|[s|]|]|]; inversion M; auto.
  Qed.
  Theorem C30_method_object (r : raw rest) i s : r_inter r = Some i -> i_method i = Some (MName s) \/ i_method i = Some (MObject (Some s)) ->
    interpolation_method_name r = Ok s.
  Proof. intros I [M|M]; unfold interpolation_method_name; rewrite I, M; reflexivity. Qed.

  (** ** C31 *)
  Theorem C31_version (f : file rest) i : load [] f = Ok i -> f_version f = Some 1.
  Proof. intros H. apply (load_version [] f i H). Qed.
  Theorem C31_other_version (f : file rest) : f_version f <> Some 1 -> load [] f = Raise ValueError.
  Proof.
    intros H. unfold load. destruct (f_version f) as [v|]; [|reflexivity]. destruct (Z.eqb_spec v VERSION); [|reflexivity].
    subst v. exfalso. apply H. reflexivity.
  Qed.
  Theorem C31_no_matrix (f : file rest) : f_version f = Some 1 -> f_matrix f = None -> load [] f = Raise KeyError.
  Proof. intros V M. unfold load. rewrite V, M. reflexivity. Qed.
  (** Every entry with loadable grids, and no other, in order, under its own name. *)
  Theorem C31_entries (f : file rest) m : f_version f = Some 1 -> f_matrix f = Some m -> NoDup (akeys m) ->
    exists i, load [] f = Ok i /\
      Forall2 (fun p q => fst q = fst p /\ reads (fst p) (snd p) (snd q)) (filter (fun p => loadable (snd p)) m) i.
  Proof. intros V M N. exists (loaded m). split; [exact (load_loaded f m V M N)|exact (loaded_reads m)]. Qed.
  (** Grids of a supported type are loadable. *)
  Theorem C31_supported (r : raw rest) i o vi vo ci co : r_input r = Some i -> r_output r = Some o ->
    NoDup (akeys i) -> NoDup (akeys o) -> untyped i -> untyped o ->
    alookup "grid" i = Some vi -> alookup "grid" o = Some vo -> describes vi ci -> describes vo co ->
    (forall x y v, v = vi \/ v = vo -> v = VList [x; y] \/ v = VTup [x; y] -> hashable x = true /\ hashable y = true) ->
    (forall a d, d = i \/ d = o -> alookup "area" d = Some a -> numbers_ok a) ->
    loadable r = true.
  Proof.
    intros Ri Ro Ni No Ui Uo Gi Go Di Do Hx Ha. unfold loadable. rewrite Ri, Ro.
    destruct (untyped_built i vi ci Ni Ui Gi (or_introl Di) (fun x y => Hx x y vi (or_introl eq_refl)) (fun a => Ha a i (or_introl eq_refl))) as (g & -> & _).
    destruct (untyped_built o vo co No Uo Go (or_introl Do) (fun x y => Hx x y vo (or_intror eq_refl)) (fun a => Ha a o (or_intror eq_refl))) as (h & -> & _).
    reflexivity.
  Qed.

  (** ** C32 *)
  Theorem C32_round_trip (f : file rest) m i0 i : f_version f = Some 1 -> f_matrix f = Some m -> NoDup (akeys m) ->
    load [] f = Ok i0 -> used_index fuel i0 i -> load [] (to_raw i) = Ok i0.
  Proof.
    intros V M N L U. rewrite (used_raw fuel i0 i U). rewrite (load_loaded f m V M N) in L. inversion L.
    exact (load_to_raw (loaded m) (loaded_proper m N)).
  Qed.
  (** What is written is the JSON that was read, without the unsupported entries. *)
  Theorem C32_written (f : file rest) m i : f_version f = Some 1 -> f_matrix f = Some m -> NoDup (akeys m) ->
    load [] f = Ok i -> to_raw i = mkFile (Some 1) (Some (filter (fun p => loadable (snd p)) m)).
  Proof.
    intros V M N L. rewrite (load_loaded f m V M N) in L. inversion L as [E]. clear L i E.
    pose proof (to_raw_matrix (loaded m) (loaded_proper m N)) as T. unfold to_raw in *. cbn [f_matrix] in T. inversion T as [T1]. rewrite T1. do 2 f_equal.
    clear. induction m as [|[k r] m IH]; [reflexivity|]. cbn [loaded flat_map filter fst snd]. rewrite (load_entry_loadable k r).
    destruct (load_entry k r) as [e|x|] eqn:E; cbn [is_ok]; [|exact IH..]. apply load_entry_reads in E. destruct E as (_ & E & _).
    cbn [app map fst snd]. rewrite E. f_equal. exact IH.
  Qed.
  (** A subset holds entries of the index, at least one for each filter, and nothing else. *)
  Theorem C32_subset (f : file rest) m i0 i fs fom i' res : f_version f = Some 1 -> f_matrix f = Some m -> NoDup (akeys m) ->
    load [] f = Ok i0 -> used_index fuel i0 i -> subset py_str key_order fuel i fs fom = (i', Ok res) ->
    NoDup (akeys res) /\
    (forall n e, In (n, e) res -> exists e0, In (n, e0) i0 /\ used_entry fuel e0 e) /\
    (forall fl gi go, In fl fs -> request (fl_input fl) (fl_output fl) gi go ->
       (exists e0, answers e0 gi go (filter_method fl) /\ In (e_name e0, e0) i0 /\ In (e_name e0) (akeys res)) \/
       (fom = false /\ Forall (fun p => no_answer (snd p) gi go (filter_method fl)) i0)) /\
    (forall n, In n (akeys res) -> exists fl gi go e0, In fl fs /\ request (fl_input fl) (fl_output fl) gi go /\
       answers e0 gi go (filter_method fl) /\ e_name e0 = n).
  Proof.
    intros V M N L U S. rewrite (load_loaded f m V M N) in L. inversion L; subst i0. clear L. pose proof (loaded_proper m N) as P.
    destruct (subset_spec py_str key_order fuel fs (loaded m) i [] i' res P U (conj (NoDup_nil _) (Forall_nil _)) fom S) as (G1 & [G2 G2'] & _ & G4 & G5).
    split; [exact G2|]. split; [intros n e I; rewrite Forall_forall in G2'; exact (G2' _ I)|]. split.
    - intros fl gi go I R. destruct (G4 fl gi go I R) as [(e0 & F & J)|X]; [left|right; exact X]. exists e0.
      apply first_some in F. destruct F as (pre & n & post & E & A & _).
      assert (I0 : In (n, e0) (loaded m)) by (rewrite E; apply in_or_app; right; left; reflexivity).
      split; [exact A|]. split; [|exact J]. destruct P as [_ P]. rewrite Forall_forall in P. destruct (P _ I0) as (Q & _). cbn in Q. rewrite Q. exact I0.
    - intros n I. destruct (G5 n I) as [[]|(fl & gi & go & e0 & A & B & C & D)]. exists fl, gi, go, e0.
      apply first_some in C. destruct C as (_ & _ & _ & _ & C & _). auto.
  Qed.
  (** A request that a single entry of the index answers has the same answer from the subset. *)
  Theorem C32_subset_answers_partial (f : file rest) m i0 i fs fom i' res fl gi go e0 : f_version f = Some 1 -> f_matrix f = Some m -> NoDup (akeys m) ->
    load [] f = Ok i0 -> used_index fuel i0 i ->
    subset py_str key_order fuel i fs fom = (i', Ok res) -> In fl fs -> request (fl_input fl) (fl_output fl) gi go ->
    In (e_name e0, e0) i0 -> answers e0 gi go (filter_method fl) ->
    (forall n e, In (n, e) i0 -> n <> e_name e0 -> no_answer e gi go (filter_method fl)) ->
    exists e, snd (find res (fl_input fl) (fl_output fl) (filter_method fl)) = Ok (Some e) /\ used_entry fuel e0 e.
  Proof.
    intros V M N L U S. rewrite (load_loaded f m V M N) in L. inversion L; subst i0.
    exact (subset_same py_str key_order fuel (loaded m) i fs fom i' res fl gi go e0 (loaded_proper m N) U S).
  Qed.
End T.

(** ** Examples and refutations on small indexes *)
Definition linear : interpolation := mkInter (Some "mir") (Some "16") (Some (MName "linear")).
Definition lat_lon (n : val) : dict := [("grid", VList [VInt 1; VInt 1]); ("area", VList [n; VInt 0; VInt 0; VInt 10])].
Definition target : dict := [("grid", VStr "O32")].
Definition item (n : val) : raw unit := mkRaw (Some (lat_lon n)) (Some target) (Some linear) tt.
Definition north_b : val := VFloat (lit 89999999991 1000000000).
Definition north_c : val := VFloat (lit 89999999982 1000000000).
Definition two_items : list (string * raw unit) := [("a", item (VInt 90)); ("b", item north_b)].
Definition two_file : file unit := mkFile (Some 1) (Some two_items).
Definition two_index : index unit := match load [] two_file with Ok i => i | _ => [] end.
Definition small_find (i : index unit) (n : val) : result (option string) :=
  match snd (find (fun _ => "") COMPARE_KEYS 10 i (lat_lon n) target "linear") with
  | Ok (Some e) => Ok (Some (e_name e))
  | Ok None => Ok None
  | Raise x => Raise x
  | OutOfFuel => OutOfFuel
  end.
Example C31_example : exists i, load [] two_file = Ok i /\ akeys i = ["a"; "b"].
Proof. eexists. split; [vm_compute; reflexivity|reflexivity]. Qed.
Example C30_example : small_find two_index (VInt 90) = Ok (Some "a") /\ small_find two_index north_c = Ok (Some "b") /\ small_find two_index (VInt 80) = Ok None.
Proof. vm_compute. auto. Qed.
(** The order of a subset is that of the filters: a request near two entries then finds the
    other one. *)
Theorem C32_subset_answers_refuted : exists res,
  snd (subset (fun _ => "") COMPARE_KEYS 10 two_index [mkFilter (lat_lon north_c) target None; mkFilter (lat_lon (VInt 90)) target None] true) = Ok res /\
  small_find two_index (VInt 90) = Ok (Some "a") /\ small_find res (VInt 90) = Ok (Some "b").
Proof. eexists. split; [vm_compute; reflexivity|]. vm_compute. auto. Qed.

(** ** C33, C34: inventories *)
Section D.
  Context {rest text : Type}.
  Variables (parse : text -> result (file rest)) (sha : text -> string) (py_str : val -> string) (key_order : list string) (fuel : nat).
  Notation run_db := (run_db rest text parse sha py_str key_order fuel).
  Notation find_entry := (find_entry rest text parse sha py_str key_order fuel).
  Notation find := (@Index.find rest py_str key_order fuel).
  Definition start (k : kind) (d : disk text) : st rest text := mkSt rest text d (fresh_db rest k) [].

  (** After any history of an inventory at a URL that started with an empty cache: a request that
      the locally known index does not answer gets the answer of the published index, if the
      remote has not been consulted before by this object.  Only the published text and the
      cached one must not share a checksum. *)
  Theorem C33_discovered l o s2 di do m t f i : let s := run_db (start Url None) l in
    (forall t' h, s_disk rest text s2 = Some (t', h) -> sha t' = sha t -> t' = t) ->
    unknown_locally parse sha py_str key_order fuel o s s2 di do (method_alias m) ->
    d_checked rest (s_db rest text s2) = false ->
    published sha o t -> parse t = Ok f -> load [] f = Ok i ->
    snd (find_entry o s di do m) = snd (find i di do (method_alias m)).
  Proof.
    intros s INJ U CH PU PT LD.
    destruct (run_disk_ok parse sha py_str key_order fuel l (start Url None) eq_refl) as [DK K]; [intros ? ? E; discriminate E|].
    fold s in DK, K. pose proof U as (s1 & E1 & E2).
    destruct (get_or_load_spec parse sha o s s1 _ K E1) as (K1 & _ & _ & D1).
    destruct (index_find_spec py_str key_order fuel s1 _ _ _ _ _ E2) as (D2 & _ & K2 & _).
    apply (discover parse sha py_str key_order fuel o s s2 di do m t f i INJ); try assumption.
    - intros t' h D. rewrite D2 in D. destruct D1 as [D1|(_ & t'' & _ & D1)]; rewrite D1 in D; [exact (DK _ _ D)|]. inversion D. reflexivity.
    - congruence.
  Qed.
  Theorem C33_local o s s2 di do m t f i : d_kind rest (s_db rest text s2) = Local ->
    unknown_locally parse sha py_str key_order fuel o s s2 di do (method_alias m) ->
    o_file text o = Ok t -> parse t = Ok f -> load [] f = Ok i ->
    snd (find_entry o s di do m) = snd (find i di do (method_alias m)).
  Proof. exact (discover_local parse sha py_str key_order fuel o s s2 di do m t f i). Qed.
  Theorem C33_once l : Forall (reachable_op (text := text)) l -> (asks (s_log rest text (run_db (start Url None) l)) <= 1)%nat.
  Proof. intros F. apply run_once; [reflexivity|exact F|reflexivity|cbn; lia]. Qed.

  (** reload(force=True) of the accessor replaces a cached index by the published one, whatever
      the checksums are, and counts as the consultation of the remote. *)
  Theorem C33_forced o s s1 : d_kind rest (s_db rest text s) = Url -> s_disk rest text s <> None ->
    reload rest text sha true o s = (s1, Ok tt) ->
    exists t, o_gz text o = Ok t /\ s_disk rest text s1 = Some (t, Some (sha t)) /\
      d_checked rest (s_db rest text s1) = true /\ s_log rest text s1 = AskIndex :: AskSha :: s_log rest text s.
  Proof.
    intros K D. unfold reload. rewrite K. unfold get_index. destruct (s_disk rest text s) as [[t0 h0]|] eqn:E; [|contradiction].
    unfold force_download, create_index. destruct (o_sha text o); try (intros H; discriminate H).
    destruct (o_gz text o) as [t| |]; try (intros H; discriminate H). intros H. inversion H; subst. exists t. cbn. auto.
  Qed.
  (** After that, a lookup that finds nothing makes no further request. *)
  Theorem C33_forced_once o s s1 di do m : d_checked rest (s_db rest text s) = true -> d_kind rest (s_db rest text s) = Url ->
    d_index rest (s_db rest text s) <> None ->
    find_entry o s di do m = (s1, Ok None) -> s_log rest text s1 = s_log rest text s.
  Proof.
    intros C K I. unfold Db.find_entry, get_or_load. destruct (d_index rest (s_db rest text s)) as [i|] eqn:E; [|contradiction].
    unfold index_find. rewrite E. destruct (Index.find py_str key_order fuel i di do (method_alias m)) as [i' x]. destruct x as [[e|]| |]; try (intros H; discriminate H).
    cbn. rewrite K, C. cbn. intros H; inversion H; reflexivity.
  Qed.

  (** C34.  Weights found once stay available while the published indexes are good: whatever
      part of the refreshes fails, whenever the cached file disappears. *)
  Theorem C34_stays_partial qi qo di0 do0 m0 reqs s l o :
    from_dict di0 = Ok qi -> from_dict do0 = Ok qo ->
    keeps parse py_str key_order fuel qi qo m0 reqs s -> Forall (good_op parse py_str key_order fuel qi qo m0 reqs) l ->
    exists e, snd (find_entry o (run_db s l) di0 do0 m0) = Ok (Some e).
  Proof.
    intros Q1 Q2 K F. apply (keeps_found parse sha py_str key_order fuel qi qo di0 do0 m0 reqs); [exact Q1|exact Q2|].
    exact (keeps_run parse sha py_str key_order fuel qi qo m0 reqs l s K F).
  Qed.
End D.

(** Texts are index files here, and the checksum is their version. *)
Definition small_sha (f : file unit) : string := match f_version f with Some v => show_Z v | None => "" end.
Definition small_entry (o : outside (file unit)) (s : st unit (file unit)) (n : val) : st unit (file unit) * result (option string) :=
  let '(s', x) := find_entry unit (file unit) (fun f => Ok f) small_sha (fun _ => "") COMPARE_KEYS 10 o s (lat_lon n) target "linear" in
  (s', match x with Ok (Some e) => Ok (Some (e_name e)) | Ok None => Ok None | Raise e => Raise e | OutOfFuel => OutOfFuel end).
Definition serves (f : file unit) : outside (file unit) := mkOut (file unit) (Ok (small_sha f)) (Ok f) (Raise FileNotFoundError).
Definition down : outside (file unit) := mkOut (file unit) (Raise (UserError 1)) (Raise (UserError 1)) (Raise FileNotFoundError).
Definition half_down (f : file unit) : outside (file unit) := mkOut (file unit) (Ok (small_sha f)) (Raise (UserError 1)) (Raise FileNotFoundError).
Definition newer : file unit := mkFile (Some 2) (Some two_items).
(** A published index of a later version empties the index of a running process for good. *)
Theorem C34_later_version_refuted :
  let s0 := start Url None in
  let '(s1, x1) := small_entry (serves two_file) s0 (VInt 90) in
  let '(s2, x2) := small_entry (serves newer) s1 (VInt 70) in
  let '(s3, x3) := small_entry (serves newer) s2 (VInt 90) in
  x1 = Ok (Some "a") /\ x2 = Raise ValueError /\ x3 = Ok None.
Proof. vm_compute. auto. Qed.
(** The cached index is deleted before the new one is downloaded: if that fails, the next
    process has no index any more, though it could have worked from the cache. *)
Theorem C34_cache_lost_refuted :
  let s0 := start Url None in
  let '(s1, x1) := small_entry (serves two_file) s0 (VInt 90) in
  let '(s2, x2) := small_entry (half_down newer) s1 (VInt 70) in
  let restart s := set_db unit (file unit) s (fresh_db unit Url) in
  snd (small_entry down (restart s1) (VInt 90)) = Ok (Some "a") /\
  snd (small_entry down (restart s2) (VInt 90)) = Raise (UserError 1).
Proof. vm_compute. auto. Qed.
Definition three_items : file unit := mkFile (Some 1) (Some (two_items ++ [("c", item (VInt 80))])).
(** Hypotheses of C33: a running process that knows two entries, a third one is published. *)
Example C33_example :
  let sha f := match f_matrix f with Some m => show_Z (Z.of_nat (List.length m)) | None => "" end in
  let o := mkOut (file unit) (Ok "3") (Ok three_items) (Raise FileNotFoundError) in
  let fe := find_entry unit (file unit) (fun f => Ok f) sha (fun _ => "") COMPARE_KEYS 10 in
  let '(s1, _) := fe (mkOut (file unit) (Ok "2") (Ok two_file) (Raise FileNotFoundError)) (start Url None) (lat_lon (VInt 90)) target "linear" in
  match snd (fe o s1 (lat_lon (VInt 80)) target "linear") with Ok (Some e) => e_name e = "c" | _ => False end.
Proof. vm_compute. reflexivity. Qed.
(** The forced reload is not part of a lookup (only tests call it): it marks the remote as consulted without loading the new
    index, and so keeps the published entry from being found, which the lookup alone finds. *)
Theorem C33_forced_hides :
  let sha f := match f_matrix f with Some m => show_Z (Z.of_nat (List.length m)) | None => "" end in
  let o := mkOut (file unit) (Ok "3") (Ok three_items) (Raise FileNotFoundError) in
  let fe := find_entry unit (file unit) (fun f => Ok f) sha (fun _ => "") COMPARE_KEYS 10 in
  let '(s1, _) := fe (mkOut (file unit) (Ok "2") (Ok two_file) (Raise FileNotFoundError)) (start Url None) (lat_lon (VInt 90)) target "linear" in
  let '(s2, r) := reload unit (file unit) sha true o s1 in
  r = Ok tt /\ snd (fe o s2 (lat_lon (VInt 80)) target "linear") = Ok None /\
  match snd (fe o s1 (lat_lon (VInt 80)) target "linear") with Ok (Some e) => e_name e = "c" | _ => False end.
Proof. vm_compute. auto. Qed.
(** Hypotheses of C34_stays_partial, with requests for 90 and 70 degrees. *)
Example C34_example : exists s qi qo,
  from_dict (lat_lon (VInt 90)) = Ok qi /\ from_dict target = Ok qo /\
  keeps (rest := unit) (text := file unit) (fun f => Ok f) (fun _ => "") COMPARE_KEYS 10 qi qo "linear" [(lat_lon (VInt 90), target, "linear"); (lat_lon (VInt 70), target, "linear")] s.
Proof.
  eexists. eexists. eexists. split; [vm_compute; reflexivity|]. split; [vm_compute; reflexivity|].
  assert (G : good (rest := unit) (text := file unit) (fun f => Ok f) (fun _ => "") COMPARE_KEYS 10 (match from_dict (lat_lon (VInt 90)) with Ok g => g | _ => mkG LL [] None None end)
     (match from_dict target with Ok g => g | _ => mkG LL [] None None end) "linear"
     [(lat_lon (VInt 90), target, "linear"); (lat_lon (VInt 70), target, "linear")] two_file).
  { exists two_file, two_index. split; [reflexivity|]. split; [vm_compute; reflexivity|]. split; [eexists; vm_compute; reflexivity|].
    intros di do m gi go [E|[E|[]]] A B; inversion E; subst; vm_compute in A, B; inversion A; inversion B; subst; eexists; vm_compute; reflexivity. }
  split; [|split].
  - instantiate (1 := mkSt unit (file unit) (Some (two_file, Some "1")) (mkDb unit Url (Some two_index) true false) []). reflexivity.
  - intros t h E. inversion E; subst. exact G.
  - exists two_index. split; [reflexivity|]. exists two_file, two_file, two_index. split; [exact G|]. split; [reflexivity|]. split; [vm_compute; reflexivity|]. apply used_index_refl.
Qed.

(** ** C35 *)
Theorem C35_directories_partial {rest} (r r' : raw rest) i i' e v e' v' d :
  r_inter r = Some i -> r_inter r' = Some i' -> i_engine i = Some e -> i_version i = Some v -> i_engine i' = Some e' -> i_version i' = Some v' ->
  free_of "_" e -> free_of "_" v -> free_of "_" e' -> free_of "_" v' ->
  matrix_dir_name r = Ok d -> matrix_dir_name r' = Ok d ->
  e = e' /\ v = v' /\ interpolation_method_name r = interpolation_method_name r'.
Proof.
  intros I I' E V E' V' F1 F2 F3 F4 H H'. unfold matrix_dir_name in *. rewrite I, E, V in H. rewrite I', E', V' in H'.
  destruct (interpolation_method_name r) as [m|x|]; cbn [bind] in H; try discriminate H.
  destruct (interpolation_method_name r') as [m'|x|]; cbn [bind] in H'; try discriminate H'.
  assert (Q : (e ++ "_" ++ v ++ "_" ++ m)%string = (e' ++ "_" ++ v' ++ "_" ++ m')%string) by congruence.
  destruct (dir_inj _ _ _ _ _ _ F1 F2 F3 F4 Q) as (-> & -> & ->). auto.
Qed.
(** Directories without slash and names that do not start with one: the path determines both. *)
Lemma join_inj d n d' n' : d <> "" -> d' <> "" -> free_of "/" d -> free_of "/" d' -> starts_with_slash n = false -> starts_with_slash n' = false ->
  join_path d n = join_path d' n' -> d = d' /\ n = n'.
Proof.
  intros D D' F F' S S' H. unfold join_path in H. rewrite S, S' in H.
  assert (E : forall d, d <> "" -> free_of "/" d -> (String.eqb d "" || ends_with_slash d) = false).
  { clear. intros d D F. destruct (String.eqb_spec d ""); [contradiction|]. cbn. unfold ends_with_slash.
    destruct (rev (chars d)) as [|c l] eqn:R; [reflexivity|]. destruct (Ascii.eqb_spec c "/"); [|reflexivity]. subst c. exfalso. apply F.
    apply in_rev. rewrite R. left. reflexivity. }
  rewrite (E d D F), (E d' D' F') in H. apply (f_equal chars) in H. rewrite !chars_app in H. cbn [chars app] in H.
  destruct (app_sep _ _ _ _ _ F F' H) as [A B]. apply chars_inj' in A, B. auto.
Qed.
Theorem C35_paths_partial {rest} (a b : entry rest) p d d' :
  matrix_dir_name (e_raw a) = Ok d -> matrix_dir_name (e_raw b) = Ok d' -> free_of "/" d -> free_of "/" d' ->
  starts_with_slash (e_name a) = false -> starts_with_slash (e_name b) = false ->
  matrix_path a = Ok p -> matrix_path b = Ok p -> d = d' /\ e_name a = e_name b.
Proof.
  intros D D' F F' S S' H H'. unfold matrix_path in *. rewrite D in H. rewrite D' in H'. cbn [bind] in *.
  assert (Q : join_path d (e_name a ++ ".npz")%string = join_path d' (e_name b ++ ".npz")%string) by congruence.
  assert (NE : forall r d, @matrix_dir_name rest r = Ok d -> d <> "").
  { clear. intros r d H ->. unfold matrix_dir_name in H. destruct (r_inter r) as [i|]; [|discriminate H]. destruct (i_engine i) as [[|? ?]|]; destruct (i_version i); try discriminate H;
      (destruct (interpolation_method_name r); cbn in H; discriminate H). }
  assert (ST : forall s, starts_with_slash s = false -> starts_with_slash (s ++ ".npz")%string = false) by (intros [|c s]; [reflexivity|cbn; auto]).
  destruct (join_inj _ _ _ _ (NE _ _ D) (NE _ _ D') F F' (ST _ S) (ST _ S') Q) as [-> E]. split; [reflexivity|].
  apply (f_equal chars) in E. rewrite !chars_app in E. apply app_inv_tail in E. apply chars_inj'. exact E.
Qed.
(** How the interpolation method of an entry is named: by a string, or by an object with a name. *)
Inductive method_named {rest} (r : raw rest) (m : string) : Prop :=
| by_string i : r_inter r = Some i -> i_method i = Some (MName m) -> method_named r m
| by_object i : r_inter r = Some i -> i_method i = Some (MObject (Some m)) -> method_named r m.
(** The file of an entry is engine_version_method/name.npz, and [matrix_filename] is its last
    component. *)
Theorem C35_path {rest} (e : entry rest) i en ve m :
  r_inter (e_raw e) = Some i -> i_engine i = Some en -> i_version i = Some ve -> method_named (e_raw e) m ->
  starts_with_slash (e_name e) = false -> (forall s, m <> (s ++ "/")%string) ->
  matrix_path e = Ok (en ++ "_" ++ ve ++ "_" ++ m ++ "/" ++ e_name e ++ ".npz")%string /\
  matrix_filename e = (e_name e ++ ".npz")%string.
Proof.
  intros I E V M S NS. split; [|reflexivity].
  assert (MN : interpolation_method_name (e_raw e) = Ok m).
  { unfold interpolation_method_name. destruct M as [j J JM|j J JM]; rewrite J, JM; reflexivity. }
  unfold matrix_path, matrix_dir_name. rewrite I, E, V, MN. cbn [bind].
  unfold join_path. assert (ST : starts_with_slash (e_name e ++ ".npz")%string = false) by (destruct (e_name e) as [|c s]; [reflexivity|exact S]).
  rewrite ST.
  assert (EN : ends_with_slash (en ++ "_" ++ ve ++ "_" ++ m)%string = false).
  { unfold ends_with_slash. rewrite !chars_app, !rev_app_distr, <- !app_assoc.
    destruct (rev (chars m)) as [|c l] eqn:R; [reflexivity|]. cbn [app].
    destruct (Ascii.eqb_spec c "/") as [->|N]; [|reflexivity]. exfalso.
    apply (NS (of_chars (rev l))). apply chars_inj'. rewrite chars_app, chars_of_chars.
    rewrite <- (rev_involutive (chars m)), R. reflexivity. }
  rewrite EN, Bool.orb_false_r.
  destruct (String.eqb_spec (en ++ "_" ++ ve ++ "_" ++ m)%string "") as [Z|Z]; [destruct en; discriminate Z|].
  f_equal. apply chars_inj'. rewrite !chars_app. rewrite <- !app_assoc. reflexivity.
Qed.
(** An underscore in the engine or the version makes two combinations share a directory, and a
    name that is an absolute path escapes from the inventory. *)
Definition engine (e v m : string) : raw unit := mkRaw None None (Some (mkInter (Some e) (Some v) (Some (MName m)))) tt.
Theorem C35_directories_refuted : matrix_dir_name (engine "mir_16" "1" "linear") = matrix_dir_name (engine "mir" "16" "1_linear").
Proof. reflexivity. Qed.
Theorem C35_absolute_refuted : forall g h, matrix_path (mkEntry g h "/etc/passwd" (engine "mir" "16" "linear")) = Ok "/etc/passwd.npz".
Proof. reflexivity. Qed.
Example C35_example : matrix_dir_name (engine "mir" "1.2" "nearest_x") = Ok "mir_1.2_nearest_x" /\ free_of "_" "mir" /\ free_of "_" "1.2".
Proof. split; [reflexivity|]. split; unfold free_of; cbn; intuition discriminate. Qed.

(** ** C71: aliases of the nearest-neighbour method *)
Theorem C71_alias : method_alias "nn" = "nearest-neighbour" /\ method_alias "nearest-neighbor" = "nearest-neighbour" /\
  (forall m, m <> "nn" -> m <> "nearest-neighbor" -> method_alias m = m) /\ (forall m, method_alias (method_alias m) = method_alias m).
Proof.
  assert (O : forall m, m <> "nn" -> m <> "nearest-neighbor" -> method_alias m = m).
  { intros m A B. unfold method_alias. cbn [existsb]. destruct (String.eqb_spec m "nn"); [contradiction|]. destruct (String.eqb_spec m "nearest-neighbor"); [contradiction|]. reflexivity. }
  split; [reflexivity|]. split; [reflexivity|]. split; [exact O|]. intros m.
  destruct (String.eqb_spec m "nn") as [->|A]; [reflexivity|]. destruct (String.eqb_spec m "nearest-neighbor") as [->|B]; [reflexivity|].
  rewrite (O m A B). apply O; assumption.
Qed.
Theorem C71_same_answer {rest text} parse sha py_str key_order fuel o s di do m m' : method_alias m = method_alias m' ->
  find_entry rest text parse sha py_str key_order fuel o s di do m = find_entry rest text parse sha py_str key_order fuel o s di do m'.
Proof. intros E. unfold find_entry. rewrite E. reflexivity. Qed.

Print Assumptions C30_history.
Print Assumptions C30_found.
Print Assumptions C30_nothing.
Print Assumptions C30_complete.
Print Assumptions C30_method.
Print Assumptions C30_method_object.
Print Assumptions C31_version.
Print Assumptions C31_other_version.
Print Assumptions C31_entries.
Print Assumptions C31_supported.
Print Assumptions C32_round_trip.
Print Assumptions C32_written.
Print Assumptions C32_subset.
Print Assumptions C32_subset_answers_partial.
Print Assumptions C32_subset_answers_refuted.
Print Assumptions C33_discovered.
Print Assumptions C33_local.
Print Assumptions C33_once.
Print Assumptions C33_forced.
Print Assumptions C33_forced_once.
Print Assumptions C33_forced_hides.
Print Assumptions C34_stays_partial.
Print Assumptions C34_later_version_refuted.
Print Assumptions C34_cache_lost_refuted.
Print Assumptions C35_directories_partial.
Print Assumptions C35_paths_partial.
Print Assumptions C35_path.
Print Assumptions C35_directories_refuted.
Print Assumptions C35_absolute_refuted.
Print Assumptions C71_alias.
Print Assumptions C71_same_answer.
