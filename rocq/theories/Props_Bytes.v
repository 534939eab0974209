(** C105: the bytes of the weights kept in memory by whole calls. *)
From Verif Require Import PyBase ListLemmas PyStr Float64 GridSpec Index IndexSpec Inventory MemCache MemCacheSpec MemCacheProofs MemCacheProofs2 MemCacheProofs5 Regrid RegridSpec RegridProofs
  System SystemSpec SystemProofs Props_System Disk CacheFile Remote RemoteSpec RemoteProofs RemoteProofs2 RemoteProofs3 Props_Remote
  Dispatch Api ApiSpec ApiProofs Props_Api ApiTrace ApiRemote ApiRemoteSpec Props_ApiLocal Props_ApiRemote Props_ApiRemote2.
Set Default Proof Using "Type".
Local Open Scope string_scope.
Local Open Scope list_scope.
Local Open Scope Z_scope.

(** Eight bytes for each number of a matrix, four for each index and each start of a row. *)
Definition bytes {A} (z : csr A) : Z := 8 * Z.of_nat (List.length (Regrid.data z)) + 4 * Z.of_nat (List.length (col z)) + 4 * Z.of_nat (List.length (indptr z)).
(** The bytes of all matrices kept. *)
Fixpoint all_bytes {A} (l : list (string * MemCache.item (weights A))) : Z := match l with [] => 0 | (_, it) :: l => bytes (fst (it_data it)) + all_bytes l end.
(** What must hold of the memory cache at any time: the size it reports is that of the matrices it
    keeps, each under a key of its own, *)
Definition exact {A} (s : MemCache.state (weights A)) : Prop := f_currsize (info s) = all_bytes (items s) /\ NoDup (map fst (items s)).
(** which with a limit stays below it. *)
Definition within {A} (s : MemCache.state (weights A)) : Prop :=
  f_policy (info s) = "lru" \/ f_policy (info s) = "largest" -> forall m, f_maxsize (info s) = Some m -> all_bytes (items s) < m \/ items s = [].
Lemma bytes_proper {A} (z : csr A) : proper_csr z -> bytes z = 12 * Z.of_nat (List.length (Regrid.data z)) + 4 * (Z.of_nat (n_rows z) + 1).
Proof. intros P. unfold bytes. rewrite (p_len z P), (p_data z P). lia. Qed.

Section Any.
  Context {A : Type}.
  Notation W := (weights A).
  Lemma bytes_size (w : W) : System.size_of w = bytes (fst w).
  Proof. unfold System.size_of, matrix_memory_size, bytes. lia. Qed.
  Lemma all_bytes_sum l : zsum (map (fun p : string * MemCache.item W => System.size_of (it_data (snd p))) l) = all_bytes l.
  Proof. induction l as [|[k it] l IH]; cbn; [reflexivity|]. rewrite IH, bytes_size. reflexivity. Qed.
  Lemma exact_of (s : MemCache.state W) : Inv W s -> sized System.size_of s -> exact s.
  Proof. intros (E & ND & _) S. split; [|rewrite <- akeys_map; exact ND]. cbn [info f_currsize]. rewrite E, (total_sized System.size_of s S). apply all_bytes_sum. Qed.
  Lemma within_of (s : MemCache.state W) : GInv W s -> sized System.size_of s -> within s.
  Proof.
    intros (I & _ & B) S L m M. destruct (exact_of s I S) as [E _]. rewrite <- E. unfold bounded in B. cbn in *. destruct (pol s); cbn in L; try (exact (B m M)); destruct L as [L|L]; discriminate L.
  Qed.
  (** A state that both invariants hold of. *)
  Definition good (s : MemCache.state W) : Prop := Inv W s /\ sized System.size_of s.
  Lemma good_exact s : good s -> exact s. Proof. intros [I S]. exact (exact_of s I S). Qed.
  Lemma good_init c : good (fst (@MemCache.init W c)).
  Proof. split; [apply init_inv|apply init_sized]. Qed.
  Lemma good_update c s : good s -> good (fst (MemCache.update c s)).
  Proof. intros [I S]. split; [apply update_pre_inv, I|apply update_sized, S]. Qed.
  Lemma good_clear s : good (MemCache.clear s).
  Proof. split; [unfold Inv; cbn; repeat split; constructor|intros k it []]. Qed.
  Lemma good_get {Req Ent} (key_of : Req -> string) (est : Ent -> Z) i r s s' cl d : good s -> MemCache.get key_of est System.size_of i r s = (s', cl, d) -> good s'.
  Proof.
    intros [I S] Q. split; [exact (proj1 (get_inv Req Ent W key_of est System.size_of i r s s' cl d size_nonneg I Q))|].
    pose proof (get_sized key_of est System.size_of i r s S) as X. rewrite Q in X. exact X.
  Qed.
End Any.

(** ** Local inventories *)
Section Local.
  Context {A rest : Type}.
  Variables (zero : A) (add mul : A -> A -> A).
  Variable memory_of : rest -> Z.
  Variable sha : string -> string.
  Variable float_text : f64 -> string.
  Variables (py_str : val -> string) (key_order : list string) (fuel : nat).
  Variable files : fs rest (csr A).
  Notation sys_after := (sys_after zero add mul memory_of sha float_text py_str key_order fuel files).
  Lemma local_good c h : good (y_mem (sys_after c h)).
  Proof.
    induction h as [|o h IH] using rev_ind; [apply good_init|]. unfold System.sys_after in *. rewrite fold_left_app. cbn [fold_left]. set (s := fold_left _ h _) in *. clearbody s.
    destruct o as [p v di do m|c'|]; cbn [sys_step y_mem].
    - unfold sys_regrid, System.db_find. destruct (from_dict di) as [gi|e|]; [|exact IH..]. cbn [bind]. destruct (from_dict do) as [go|e|]; [|exact IH..]. cbn [bind].
      match goal with |- context [MemCache.get ?a ?b ?d ?e ?f ?g] => destruct (MemCache.get a b d e f g) as [[mem calls] r] eqn:GE end.
      pose proof (good_get _ _ _ _ _ _ _ _ IH GE) as R. destruct calls; exact R.
    - apply good_update, IH.
    - apply good_clear.
  Qed.
  Theorem C105_local c h : exact (y_mem (sys_after c h)) /\ (configured py_str key_order fuel files zero add mul memory_of sha float_text c h -> within (y_mem (sys_after c h))).
  Proof. split; [apply good_exact, local_good|]. intros C. exact (within_of _ (configured_ginv zero add mul memory_of sha float_text py_str key_order fuel files c h C) (proj2 (local_good c h))). Qed.
End Local.

(** ** Remote inventories, asked through the public functions *)
Section Remote.
  Context {A rest blob field : Type}.
  Variables (zero : A) (add mul : A -> A -> A).
  Variable parse : blob -> result (file rest).
  Variable gunzip : blob -> result blob.
  Variable digest : blob -> result string.
  Variable read_sha : blob -> result string.
  Variable load_npz : blob -> result (csr A).
  Variable weigh : blob -> node.
  Variable sha : string -> string.
  Variable dir : string.
  Variables check fetch : bool.
  Variable ext_of : string -> string.
  Variables (py_str : val -> string) (key_order : list string) (fuel : nat).
  Variable memory_of : rest -> Z.
  Variable float_text : f64 -> string.
  Variable mir_array : array A -> option dict -> option dict -> dict -> result (array A * dict).
  Variable mir_grib : string -> option dict -> dict -> result string.
  Variable field_values : field -> result (array A).
  Variable field_grid : field -> result (option dict).
  Variable field_with : field -> array A -> dict -> result field.
  Variable field_message : field -> result string.
  Variable message_field : string -> result field.
  Notation S := (@rsys A rest blob).
  Notation meets := (@meets blob).
  Notation rop := (@rop A blob).
  Notation rfind := (remote_find parse gunzip digest read_sha load_npz weigh sha dir None None check fetch ext_of py_str key_order fuel memory_of float_text).
  Notation db_find := (Remote.db_find parse gunzip digest read_sha load_npz weigh sha dir None None check fetch ext_of py_str key_order fuel memory_of float_text).
  Notation rstep := (Remote.rstep parse gunzip digest read_sha load_npz weigh sha dir None None check fetch ext_of py_str key_order fuel zero add mul memory_of float_text).
  Notation rafter := (Remote.rafter parse gunzip digest read_sha load_npz weigh sha dir None None check fetch ext_of py_str key_order fuel zero add mul memory_of float_text).
  Notation array_regrid := (array_regrid zero add mul rfind mir_array).
  Notation backend_regrid := (backend_regrid zero add mul rfind mir_array).
  Notation array_fields := (array_fields zero add mul rfind mir_array field_values field_grid field_with).
  Notation regrid_call := (regrid_call zero add mul rfind mir_array mir_grib field_values field_grid field_with field_message message_field).
  Notation pafter := (pafter zero add mul rfind mir_array mir_grib field_values field_grid field_with field_message message_field).
  Notation pcall := (@pop_call A S meets field).
  Notation asked_at := (@asked_at A rest blob field field_values field_grid).
  Notation served_to := (@served_to A rest blob field field_values field_grid).
  Notation asked_from := (@asked_from A rest blob field field_values field_grid).
  Notation collides_at := (@collides_at A rest blob field field_values field_grid sha float_text).
  Notation only_at := (@only_at A rest blob field field_values field_grid).
  Notation weights_from H := (weights_from parse gunzip load_npz sha ext_of py_str key_order fuel (served_to H) (asked_from H)).
  Notation comparable_at H := (comparable_at (rest := rest) parse gunzip sha ext_of py_str key_order fuel (served_to H) (asked_from H)).
  Notation mstep := (mstep rfind).
  Notation move := (@move A S meets).
  

  Lemma remote_good c h : good (z_mem (rafter c h)).
  Proof.
    induction h as [|o h IH] using rev_ind; [apply good_init|]. unfold Remote.rafter in *. rewrite fold_left_app. cbn [fold_left]. set (s := fold_left _ h _) in *. clearbody s.
    destruct o as [x base v di do m|c'| |c'|e la|p]; cbn [Remote.rstep z_mem]; try exact IH.
    - unfold rsys_regrid, Remote.db_find. destruct (from_dict di) as [gi|e|]; [|exact IH..]. cbn [bind]. destruct (from_dict do) as [go|e|]; [|exact IH..]. cbn [bind].
      match goal with |- context [MemCache.get ?a ?b ?d ?e ?f ?g] => destruct (MemCache.get a b d e f g) as [[mem calls] r] eqn:GE end.
      pose proof (good_get _ _ _ _ _ _ _ _ IH GE) as R. destruct calls; exact R.
    - apply good_update, IH.
    - apply good_clear.
    - apply good_init.
  Qed.
  Theorem C105_public c H :
    known_between zero add mul parse gunzip digest read_sha load_npz weigh sha dir None None check fetch ext_of py_str key_order fuel memory_of float_text H ->
    exact (z_mem (p_sys (pafter (rinit c) H))) /\
    (settings_accepted zero add mul parse gunzip digest read_sha load_npz weigh sha dir check fetch ext_of py_str key_order fuel memory_of float_text
       mir_array mir_grib field_values field_grid field_with field_message message_field c H -> within (z_mem (p_sys (pafter (rinit c) H)))).
  Proof.
    intros KB. destruct (C103_trace zero add mul parse gunzip digest read_sha load_npz weigh sha dir None None check fetch ext_of py_str key_order fuel memory_of float_text
      mir_array mir_grib field_values field_grid field_with field_message message_field c H KB) as (h & Q & _).
    split; [rewrite Q; apply good_exact, remote_good|]. intros AC. apply within_of; [exact (public_ginv zero add mul parse gunzip digest read_sha load_npz weigh sha dir check fetch ext_of py_str key_order fuel memory_of float_text
      mir_array mir_grib field_values field_grid field_with field_message message_field c H AC)|]. rewrite Q. exact (proj2 (remote_good c h)).
  Qed.
End Remote.

(** With two inventories on a server: a matrix of two rows with two numbers is kept. *)
Example C105_met : exists it, items (z_mem (p_sys (net_after (net_start ++ net_rest)))) = [it] /\ fst (it_data (snd it)) = matrix_a /\
  f_currsize (info (z_mem (p_sys (net_after (net_start ++ net_rest))))) = bytes matrix_a /\ f_policy (info (z_mem (p_sys (net_after (net_start ++ net_rest))))) = "largest".
Proof. eexists. split; [vm_compute; reflexivity|]. split; [reflexivity|]. split; vm_compute; reflexivity. Qed.

Print Assumptions C105_local.
Print Assumptions C105_public.
