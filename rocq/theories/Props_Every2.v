(** C106: a server and a directory whose matrix changes; what the same process applies. *)
From Verif Require Import PyBase ListLemmas PyStr Float64 GridSpec GridVocab GridProofs Index IndexSpec IndexProofs IndexProofs2
  Db MemCache MemCacheProofs MemCacheProofs2 Inventory Regrid RegridSpec RegridProofs Props_Regrid System SystemSpec SystemProofs Props_System
  Disk DiskSpec DiskProofs DiskProofs2 Props_Disk Key KeySpec KeyProofs Props_Key CacheFile Props_CacheFile Remote RemoteSpec RemoteProofs RemoteProofs2 RemoteProofs3 RemoteProofs4 Props_Remote
  Dispatch Props_Dispatch Api ApiSpec ApiProofs Props_Api ApiTrace ApiRemote Props_ApiLocal Props_ApiRemote Props_ApiRemote2 Every EverySpec EveryProofs Props_Every.
Set Default Proof Using "Type".
Local Open Scope string_scope.
Local Open Scope list_scope.
Local Open Scope Z_scope.

Definition mx_files (z : csr Z) : fs Z (csr Z) := [("d/index.json", IndexFile net_index); ("d/mir_16_linear/w.npz", Weights z)].
Definition mx_meets (z : csr Z) : @emeets Z Z page := mkEMeets (mx_files z) (visit net_site).
Notation mx_S := (@esys Z Z page).
Notation mx_find := (any_find page_parse page_gunzip page_digest page_sha page_npz page_weigh toy_sha "/c" None None true false toy_ext demo_py COMPARE_KEYS 10 (fun x : Z => x) demo_text).
Notation mx_step := (estep page_parse page_gunzip page_digest page_sha page_npz page_weigh toy_sha "/c" None None true false toy_ext demo_py COMPARE_KEYS 10 (fun x : Z => x) demo_text).
Notation mx_call := (@pop_call Z mx_S (@emeets Z Z page) ll_field).
Notation mx_after := (pafter 0 Z.add Z.mul mx_find ll_mir ll_grib ll_values ll_grid ll_with ll_message ll_of_message (einit roomy)).
Notation mx_regrid := (regrid_call 0 Z.add Z.mul mx_find ll_mir ll_grib ll_values ll_grid ll_with ll_message ll_of_message).
Notation mx_array := (array_regrid 0 Z.add Z.mul mx_find ll_mir).
Definition mx_fields (z : csr Z) (u m : string) : mx_call := PRegrid (mx_meets z) (DFields [ll_one; ll_two]) (Some ll_out) (VStr m) (VStr "precomputed") [("inventory", VStr u)].
Definition mx_given (v : array Z) (z : csr Z) (u m : string) : mx_call := PArray (mx_meets z) v (Some demo_out) (Some ll_out) (VStr m) (VStr "precomputed") [("inventory", VStr u)].
Definition mx_values (z : csr Z) (u m : string) : mx_call := mx_given demo_values z u m.
Definition mx_restart : mx_S -> mx_S := fun y => mx_step y (ERestart roomy).
Definition mx_matrix (z : csr Z) : Prop := z = matrix_a \/ z = matrix_b.
Inductive mx_inventory : string -> database -> place -> Prop :=
| mi_s : mx_inventory "http://s" (FromUrl "http://s") (There "http://s")
| mi_t : mx_inventory "http://tt" (FromUrl "http://tt") (There "http://tt")
| mi_d : mx_inventory "d" (FromPath "d") (Here "d").
Definition mx_kind (d : mx_call) : Prop :=
  (exists z u db q m, mx_matrix z /\ mx_inventory u db q /\ net_method m /\ (d = mx_fields z u m \/ exists v, d = mx_given v z u m)) \/ d = PElse mx_restart.
Lemma mx_names u db q : mx_inventory u db q -> names_db (VStr u) db /\ placed db q.
Proof. intros []; (split; [|constructor]). - apply net_names. left. reflexivity. - apply net_names. right. reflexivity. - constructor; [discriminate|discriminate|intros r; split; discriminate]. Qed.
Lemma mx_picks u db q db' : mx_inventory u db q -> picks "inventory" [("inventory", VStr u)] db' -> db' = db.
Proof. intros M P. unfold picks in P. cbn [alookup] in P. rewrite String.eqb_refl in P. apply names_get in P. destruct (mx_names u db q M) as [N _]. apply names_get in N. rewrite N in P. injection P as <-. reflexivity. Qed.
Lemma placed_one db q q' : placed db q -> placed db q' -> q' = q.
Proof. intros [] L; inversion L; reflexivity. Qed.
Lemma mx_requested H x q v di do m : Forall mx_kind H -> requested ll_values ll_grid H x q v di do m ->
  exists z u db, mx_matrix z /\ x = mx_meets z /\ mx_inventory u db q /\ di = demo_out /\ net_out do /\ net_method m.
Proof.
  intros T (d & I & db & L & D). rewrite Forall_forall in T. destruct (T d I) as [(z & u & db0 & q0 & n & MZ & MI & M & [->|(v0 & ->)])| ->]; [| |inversion D].
  - unfold mx_fields in D. inversion D as [|? ? f ? ? ? gs ? ? ? IF [_ G] GS P| | |]; subst. apply (mx_picks u db0 q0 db MI) in P. subst db0. destruct (mx_names u db q0 MI) as [_ L0]. rewrite (placed_one db q0 q L0 L).
    assert (X : from_dict ll_out = Ok ll_gs) by (vm_compute; reflexivity). rewrite X in GS. apply ok_inj in GS. subst gs.
    exists z, u, db. split; [exact MZ|]. split; [reflexivity|]. split; [exact MI|]. split; [|split; [right; reflexivity|exact M]]. destruct IF as [<-|[<-|[]]]; injection G as <-; reflexivity.
  - unfold mx_given in D. inversion D as [? ? ? ? ? ? ? P| | | |]; subst. apply (mx_picks u db0 q0 db MI) in P. subst db0. destruct (mx_names u db q0 MI) as [_ L0]. rewrite (placed_one db q0 q L0 L).
    exists z, u, db. split; [exact MZ|]. split; [reflexivity|]. split; [exact MI|]. split; [reflexivity|]. split; [left; reflexivity|exact M].
Qed.
Lemma mx_called H x q : Forall mx_kind H -> called ll_values ll_grid H x q -> exists z, mx_matrix z /\ x = mx_meets z.
Proof. intros T (v & di & do & m & R). destruct (mx_requested H x q v di do m T R) as (z & u & db & M & E & _). eauto. Qed.
Lemma mx_served H u p : Forall mx_kind H -> served_in (called ll_values ll_grid H) u p -> net_site u = Ok p.
Proof. intros T (x & base & C & Q). destruct (mx_called H x _ T C) as (z & _ & ->). exact Q. Qed.
Lemma mx_seen H p i : Forall mx_kind H -> seen_in (called ll_values ll_grid H) p i -> i = [("w", toy_entry net_index)].
Proof.
  intros T (x & (v & di & do & m & R) & LI). destruct (mx_requested H x _ v di do m T R) as (z & u & db & _ & -> & MI & _). inversion MI; subst.
  unfold local_index, read_index in LI. change (alookup (join_path "d" "index.json") (em_files (mx_meets z))) with (Some (@IndexFile Z (csr Z) net_index)) in LI. cbn [bind] in LI. rewrite net_load in LI. apply ok_inj in LI. auto.
Qed.
Lemma mx_answer do m : net_out do -> net_method m -> forall gi go, IndexSpec.request demo_out do gi go ->
  answers demo_py COMPARE_KEYS 10 (toy_entry net_index) gi go (method_alias m) \/ does_not_answer demo_py COMPARE_KEYS 10 (toy_entry net_index) gi go (method_alias m).
Proof.
  intros O M gi go [E1 E2]. destruct (net_out_request do O) as (go' & [R1 R2] & Y). rewrite R1 in E1. rewrite R2 in E2. apply ok_inj in E1, E2. subst gi go.
  destruct M as [->| ->]; [left; exact Y|right]. destruct Y as (Y & _). exists "linear". split; [exact Y|]. left. discriminate.
Qed.
Lemma mx_sound H : Forall mx_kind H -> sound_calls page_parse page_gunzip toy_sha toy_ext demo_py COMPARE_KEYS 10 ll_values ll_grid H H.
Proof.
  intros T x q v di do m K. destruct (mx_requested H x q v di do m T K) as (z & u & db & _ & -> & MI & -> & O & M). split; [exact (proj2 demo_plain)|]. split; [exact (net_plain do O)|].
  intros gi go RQ. destruct q as [p|base]; cbn [comparable_with].
  - intros i n e SE J. apply (mx_seen H p i T) in SE. subst i. destruct J as [J|[]]. apply pair_equal_spec in J. destruct J as [<- <-]. exact (mx_answer do m O M gi go RQ).
  - intros i n e (base' & zz & t & f & _ & FA & GZ & PA & LD) J.
    destruct FA as (w & _ & SV). apply (mx_served H w zz T) in SV. destruct (net_served w zz SV) as (_ & [(v' & ->)|[(v' & ->)|(z' & -> & _)]]); cbn in GZ; try discriminate GZ. injection GZ as <-. cbn in PA. injection PA as <-.
    rewrite net_load in LD. apply ok_inj in LD. subst i. destruct J as [J|[]]. apply pair_equal_spec in J. destruct J as [<- <-]. exact (mx_answer do m O M gi go RQ).
Qed.
Lemma mx_proper H : Forall mx_kind H -> proper_all page_npz (called ll_values ll_grid H).
Proof.
  intros T. split.
  - intros x path p z C AL. destruct (mx_called H x _ T C) as (z' & M & ->). cbn [em_files mx_meets mx_files alookup] in AL. destruct (String.eqb p "d/index.json"); [discriminate AL|]. destruct (String.eqb p "d/mir_16_linear/w.npz"); [|discriminate AL].
    injection AL as <-. destruct M as [->| ->]; [exact matrix_a_proper|exact matrix_b_proper].
  - intros u b z SV LZ. apply (mx_served H u b T) in SV. destruct (net_served u b SV) as (_ & [(v' & ->)|[(v' & ->)|(z' & -> & P)]]); cbn in LZ; try discriminate LZ. injection LZ as <-. exact P.
Qed.
(** The directory is asked, a new process starts, a server is asked for something else, the directory
    is asked, and its matrix changes. *)
Definition mx_start : list mx_call := [mx_fields matrix_a "d" "linear"; PElse mx_restart].
Definition mx_rest : list mx_call := [mx_values matrix_b "http://s" "nn"; mx_fields matrix_b "d" "linear"].
Definition mx_all (d : mx_call) : list mx_call := mx_start ++ mx_rest ++ [d].
Lemma mx_kind_fields z u db q m : mx_matrix z -> mx_inventory u db q -> net_method m -> mx_kind (mx_fields z u m) /\ forall v, mx_kind (mx_given v z u m).
Proof. intros M I N. split; [|intros v]; left; exists z, u, db, q, m; eauto 6. Qed.
Lemma mx_all_kind d : mx_kind d -> Forall mx_kind (mx_all d).
Proof.
  intros K.
  repeat apply Forall_cons; [apply (mx_kind_fields matrix_a "d" _ _ "linear" (or_introl eq_refl) mi_d (or_introl eq_refl))|right; reflexivity|apply (mx_kind_fields matrix_b "http://s" _ _ "nn" (or_intror eq_refl) mi_s (or_intror eq_refl))|
    apply (mx_kind_fields matrix_b "d" _ _ "linear" (or_intror eq_refl) mi_d (or_introl eq_refl))|exact K|apply Forall_nil].
Qed.
Notation mx_cleared := (cleared page_parse page_gunzip page_digest page_sha page_npz page_weigh toy_sha "/c" None None true false toy_ext demo_py COMPARE_KEYS 10 (fun x : Z => x) demo_text).
Notation mx_between := (known_between page_parse page_gunzip page_digest page_sha page_npz page_weigh toy_sha "/c" None None true false toy_ext demo_py COMPARE_KEYS 10 (fun x : Z => x) demo_text).
Example C106_met : forall d, mx_kind d ->
  (forall b, 0 <= n_size (page_weigh b)) /\ fixed_length toy_sha /\ float_texts demo_text /\
  names page_parse page_gunzip toy_sha toy_ext (served_in (called ll_values ll_grid (mx_all d))) (asked_in (called ll_values ll_grid (mx_all d))) /\
  proper_all page_npz (called ll_values ll_grid (mx_all d)) /\ mx_cleared mx_start /\ mx_between (mx_start ++ mx_rest) /\
  sound_calls page_parse page_gunzip toy_sha toy_ext demo_py COMPARE_KEYS 10 ll_values ll_grid (mx_all d) (mx_all d).
Proof.
  intros d K. pose proof (mx_all_kind d K) as T.
  split; [intros b; cbn; lia|]. split; [exact toy_length|]. split; [exact demo_texts|]. split; [apply toy_names|]. split; [exact (mx_proper _ T)|].
  split; [right; exists [mx_fields matrix_a "d" "linear"], mx_restart; split; [reflexivity|right; exists roomy; reflexivity]|].
  split. { intros f I. cbn in I. destruct I as [I|[I|[I|[I|[]]]]]; try discriminate I. injection I as <-. exists (ERestart roomy). split; [exact Logic.I|reflexivity]. }
  exact (mx_sound _ T).
Qed.
Lemma mx_only z v0 : mx_matrix z -> forall gi go, only_to ll_values ll_grid (Here "d") (mx_rest ++ [mx_given v0 z "d" "linear"]) gi go "linear".
Proof.
  intros MZ gi go x q' v di do gi' go' (d' & I & db & L & A) _ _ _.
  assert (X : forall z' u db0 q0, mx_inventory u db0 q0 -> d' = mx_fields z' u "linear" \/ d' = mx_given v0 z' u "linear" -> q' = q0).
  { intros z' u db0 q0 MI E. destruct E as [-> | ->]; inversion A; subst; match goal with P : picks _ _ _ |- _ => apply (mx_picks u db0 q0 db MI) in P; subst db end; exact (placed_one _ q0 q' (proj2 (mx_names _ _ _ MI)) L). }
  cbn in I. destruct I as [<-|[<-|[<-|[]]]]; [inversion A|eapply X; [exact mi_d|left; reflexivity]|eapply X; [exact mi_d|right; reflexivity]].
Qed.
(** The call after the matrix of the directory changed back: the weights that the directory had during
    the call before are applied. *)
Example C106_array_met : mx_kind (mx_values matrix_a "d" "linear") /\ only_inventory "inventory" [("inventory", VStr "d")] (FromPath "d") /\ placed (FromPath "d") (Here "d") /\
  IndexSpec.request demo_out ll_out ll_gi ll_gs /\
  had page_parse page_gunzip page_npz toy_sha toy_ext demo_py COMPARE_KEYS 10 (called ll_values ll_grid (mx_all (mx_values matrix_a "d" "linear"))) (mx_meets matrix_b) (Here "d") ll_gi ll_gs "linear" matrix_b (VList [VInt 2]) /\
  exists r, snd (mx_array (mx_meets matrix_a) demo_values (Some demo_out) (Some ll_out) (VStr "linear") (VStr "precomputed") [("inventory", VStr "d")] (mx_after (mx_start ++ mx_rest))) = Ok (r, ll_out) /\
    map (Regrid.item r) [[0%nat]; [1%nat]] = [21; 69].
Proof.
  split; [apply (mx_kind_fields matrix_a "d" _ _ "linear" (or_introl eq_refl) mi_d (or_introl eq_refl))|]. split; [apply oi_some, (mx_names _ _ _ mi_d)|]. split; [constructor|]. split; [split; vm_compute; reflexivity|].
  split; [|eexists; split; vm_compute; reflexivity].
  exists [("w", toy_entry net_index)], [], "w", (toy_entry net_index), [], "mir_16_linear/w.npz".
  split. { exists (mx_meets matrix_a). split; [|vm_compute; reflexivity]. exists demo_values, demo_out, ll_out, "linear", (mx_values matrix_a "d" "linear").
    split; [cbn; auto 6|]. exists (FromPath "d"). split; [constructor|]. constructor. unfold picks. cbn [alookup]. rewrite String.eqb_refl. apply (mx_names _ _ _ mi_d). }
  split; [reflexivity|]. split; [split; [|split]; vm_compute; reflexivity|]. split; [constructor|]. split; [vm_compute; reflexivity|]. split; [vm_compute; reflexivity|vm_compute; reflexivity].
Qed.
(** The theorem applied to this history. *)
Example C106_array_used : exists r, map (Regrid.item r) [[0%nat]; [1%nat]] = [21; 69] /\
  answered 0 Z.add Z.mul page_parse page_gunzip page_npz toy_sha toy_ext demo_py COMPARE_KEYS 10 demo_text ll_values ll_grid
    (mx_all (mx_values matrix_a "d" "linear")) (mx_rest ++ [mx_values matrix_a "d" "linear"]) (Here "d") demo_values demo_out ll_out "linear" r.
Proof.
  destruct C106_array_met as (K & OI & LO & _ & _ & r & Q & E). exists r. split; [exact E|].
  destruct (C106_met _ K) as (WP & FL & FT & NM & PF & CL & KB & SC).
  refine (proj2 (C106_array_partial 0 Z.add Z.mul page_parse page_gunzip page_digest page_sha page_npz page_weigh toy_sha "/c" None None true false toy_ext demo_py COMPARE_KEYS 10 (fun x : Z => x) demo_text
    ll_mir ll_grib ll_values ll_grid ll_with ll_message ll_of_message roomy mx_start mx_rest (mx_meets matrix_a) (FromPath "d") (Here "d") _ demo_values demo_out ll_out "linear" r ll_out _ eq_refl WP FL FT NM PF CL KB SC OI LO _ Q)).
  intros gi go _. apply mx_only. left. reflexivity.
Qed.
Example C106_unchanged_met : forall x, called ll_values ll_grid [mx_values matrix_a "d" "linear"] x (Here "d") -> forall f, alookup (join_path "d" f) (em_files x) = alookup (join_path "d" f) (mx_files matrix_a).
Proof. intros x (v & di & do & m & d & [<-|[]] & db & _ & D) f. inversion D; subst. reflexivity. Qed.
Example C106_nothing_met : called ll_values ll_grid (mx_all (mx_values matrix_a "d" "nn")) (mx_meets matrix_a) (Here "d") /\
  snd (mx_find (mx_meets matrix_a) (FromPath "d") demo_out ll_out (VStr "nn") (p_sys (mx_after (mx_start ++ mx_rest)))) = Ok None.
Proof.
  split; [|vm_compute; reflexivity]. exists demo_values, demo_out, ll_out, "nn", (mx_values matrix_a "d" "nn"). split; [cbn; auto 6|]. exists (FromPath "d"). split; [constructor|].
  constructor. unfold picks. cbn [alookup]. rewrite String.eqb_refl. apply (mx_names _ _ _ mi_d).
Qed.
Example C106_fields_met : from_dict ll_out = Ok ll_gs /\ exists r r',
  snd (mx_regrid (mx_meets matrix_a) (DFields [ll_one; ll_two]) (Some ll_out) (VStr "linear") (VStr "precomputed") [("inventory", VStr "d")] (mx_after (mx_start ++ mx_rest))) = Ok (DFields [r; r']) /\
    map (Regrid.item (fst r)) [[0%nat]; [1%nat]] = [21; 69] /\ snd r = gd ll_gs.
Proof. split; [vm_compute; reflexivity|]. do 2 eexists. split; [vm_compute; reflexivity|]. split; vm_compute; reflexivity. Qed.

Lemma mx_applies_b r : shape r = [2%nat] -> Regrid.item r [0%nat] = 21 -> Regrid.item r [1%nat] = 69 -> applies 0 Z.add Z.mul matrix_b [2%nat] demo_values r /\ ~ applies 0 Z.add Z.mul matrix_a [2%nat] demo_values r.
Proof.
  intros S0 R0 R1. split.
  - split; [reflexivity|]. split; [reflexivity|]. split; [exact S0|]. intros idx V. inversion V as [|? i ? t L V']; subst. inversion V'; subst. destruct i as [|[|i]]; [rewrite R0; reflexivity|rewrite R1; reflexivity|lia].
  - intros (_ & _ & _ & I). assert (V : valid [2%nat] [0%nat]) by (repeat constructor). specialize (I _ V). rewrite R0 in I. vm_compute in I. discriminate I.
Qed.
(** Without a new process: the weights of the server are applied to a request to the directory. *)
Theorem C106_refuted : exists r,
  snd (mx_array (mx_meets matrix_a) demo_values (Some demo_out) (Some ll_out) (VStr "linear") (VStr "precomputed") [("inventory", VStr "d")] (mx_after [mx_values matrix_a "http://tt" "linear"])) = Ok (r, ll_out) /\
  weights_for demo_py COMPARE_KEYS 10 (mx_files matrix_a) "d" ll_gi ll_gs "linear" matrix_a (VList [VInt 2]) /\
  ~ applies 0 Z.add Z.mul matrix_a [2%nat] demo_values r /\ applies 0 Z.add Z.mul matrix_b [2%nat] demo_values r.
Proof.
  eexists. split; [vm_compute; reflexivity|]. split.
  - exists [("w", toy_entry net_index)], [], "w", (toy_entry net_index), [], "mir_16_linear/w.npz". split; [vm_compute; reflexivity|]. split; [reflexivity|]. split; [split; [|split]; vm_compute; reflexivity|]. split; [constructor|]. split; [vm_compute; reflexivity|]. split; vm_compute; reflexivity.
  - apply and_comm. apply mx_applies_b; vm_compute; reflexivity.
Qed.
(** The matrix in the directory was replaced: the old one is applied as long as it is in the memory
    cache. *)
Theorem C106_replaced_refuted : exists r,
  snd (mx_array (mx_meets matrix_a) demo_values (Some demo_out) (Some ll_out) (VStr "linear") (VStr "precomputed") [("inventory", VStr "d")] (mx_after [mx_values matrix_b "d" "linear"])) = Ok (r, ll_out) /\
  ~ applies 0 Z.add Z.mul matrix_a [2%nat] demo_values r /\ applies 0 Z.add Z.mul matrix_b [2%nat] demo_values r.
Proof. eexists. split; [vm_compute; reflexivity|]. apply and_comm. apply mx_applies_b; vm_compute; reflexivity. Qed.

Print Assumptions C106_trace.
Print Assumptions C106_array_origin.
Print Assumptions C106_array_partial.
Print Assumptions C106_unchanged_partial.
Print Assumptions C106_nothing.
Print Assumptions C106_fields_partial.
Print Assumptions C106_refuted.
Print Assumptions C106_replaced_refuted.
