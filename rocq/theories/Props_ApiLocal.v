(** C101: the public functions with local inventories, from the arguments to the weights. *)
From Verif Require Import PyBase ListLemmas PyStr Float64 GridSpec GridVocab Index IndexSpec Inventory MemCache Regrid RegridSpec System SystemSpec SystemProofs Props_System Dispatch Props_Dispatch
  Api ApiSpec ApiProofs Props_Api.
Set Default Proof Using "Type".
Local Open Scope string_scope.
Local Open Scope list_scope.
Local Open Scope Z_scope.

Section Local.
  Context {A rest field : Type}.
  Variables (zero : A) (add mul : A -> A -> A).
  Variable memory_of : rest -> Z.
  Variable sha : string -> string.
  Variable float_text : f64 -> string.
  Variables (py_str : val -> string) (key_order : list string) (fuel : nat).
  Variable files : fs rest (csr A).
  Variable mir_array : array A -> option dict -> option dict -> dict -> result (array A * dict).
  Variable mir_grib : string -> option dict -> dict -> result string.
  Variable field_values : field -> result (array A).
  Variable field_grid : field -> result (option dict).
  Variable field_with : field -> array A -> dict -> result field.
  Variable field_message : field -> result string.
  Variable message_field : string -> result field.
  Notation S := (sys A rest).
  Notation lfind := (local_find memory_of sha float_text py_str key_order fuel files).
  Notation finding := (finding (A := A) (S := S) lfind).
  Notation array_regrid := (array_regrid zero add mul lfind mir_array).
  Notation backend_regrid := (backend_regrid zero add mul lfind mir_array).
  Notation array_fields := (array_fields zero add mul lfind mir_array field_values field_grid field_with).
  Notation fields_regrid := (fields_regrid zero add mul lfind mir_array mir_grib field_values field_grid field_with field_message message_field).
  Notation regrid_call := (regrid_call zero add mul lfind mir_array mir_grib field_values field_grid field_with field_message message_field).
  Notation interpolated_fields := (interpolated_fields zero add mul lfind field_values field_grid field_with).
  Notation interpolate_call := (interpolate_call zero add mul lfind field_values field_grid field_with).
  Notation pafter := (pafter zero add mul lfind mir_array mir_grib field_values field_grid field_with field_message message_field).
  Notation pstep := (pstep zero add mul lfind mir_array mir_grib field_values field_grid field_with field_message message_field).
  Notation sys_regrid := (sys_regrid zero add mul memory_of sha float_text py_str key_order fuel files).
  Notation sys_step := (sys_step zero add mul memory_of sha float_text py_str key_order fuel files).
  Notation sys_after := (sys_after zero add mul memory_of sha float_text py_str key_order fuel files).
  Notation weights_for := (weights_for py_str key_order fuel files).
  Notation sound := (sound py_str key_order fuel files).
  Notation proper_files := (@proper_files A rest files).
  Notation pcall := (@pop_call A S unit field).
  Notation asks := (asks (S := S) (E := unit) field_values field_grid).
  Implicit Types (H : list pcall) (o : obj) (h : list (sop A)) (x : unit) (y : S).

  (** Everything that happens between calls is a change of the configuration or clearing the memory
      cache. *)
  Definition known_else H : Prop := forall f, In (PElse f) H -> (forall y, f y = sys_step y ClearMemory) \/ exists c, forall y, f y = sys_step y (Configure c).

  Local Ltac parts := split; [|split; [|split]]; try (intros ? Q0; discriminate Q0); auto.

  (** An action makes requests that satisfy [P], and its result satisfies [R]. *)
  Definition emits {X} (P : sop A -> Prop) (R : X -> Prop) (a : act (api S) X) : Prop := forall y mk, fine mk ->
    exists h, p_sys (fst (a (mkApi y mk))) = fold_left sys_step h y /\ Forall P h /\ fine (p_maker (fst (a (mkApi y mk)))) /\ forall r, snd (a (mkApi y mk)) = Ok r -> R r.
  Lemma emits_lift {X} P (R : X -> Prop) r : (forall v, r = Ok v -> R v) -> emits P R (lift r).
  Proof. intros Q y mk F. exists []. cbn. auto. Qed.
  Lemma emits_bind {X Y} P (R : X -> Prop) (Q : Y -> Prop) a k : emits P R a -> (forall r, R r -> emits P Q (k r)) -> emits P Q (seq_act a k).
  Proof.
    intros HA K y mk F. destruct (HA y mk F) as (h & PS & PH & F1 & RR). unfold seq_act. destruct (a (mkApi y mk)) as [[y1 mk1] r]. cbn [fst snd p_sys p_maker] in *.
    destruct r as [r|e|]; [|exists h; cbn; parts..]. subst y1. destruct (K r (RR r eq_refl) (fold_left sys_step h y) mk1 F1) as (h' & PS' & PH' & F' & RR').
    exists (h ++ h'). rewrite fold_left_app. split; [exact PS'|]. split; [apply Forall_app; auto|]. auto.
  Qed.
  Lemma emits_sim {X} P (R : X -> Prop) a : sim Logic.eq a a -> (forall s, p_sys (fst (a s)) = p_sys s) -> (forall y mk, fine mk -> forall r, snd (a (mkApi y mk)) = Ok r -> R r) -> emits P R a.
  Proof using. clear. intros SA N RR y mk F. exists []. rewrite N. split; [reflexivity|]. split; [constructor|]. split; [exact (proj1 (proj2 (SA y mk mk F F)))|]. intros r Q. exact (RR y mk F r Q). Qed.

  Definition request_of (o : obj) (v : array A) (i g : option dict) (m : val) (c : sop A) : Prop :=
    exists p di do t, db_of_obj o = Ok (FromPath p) /\ i = Some di /\ g = Some do /\ m = VStr t /\ c = Call p v di do t.
  Lemma finding_emits x o v i g m : emits (request_of o v i g m) (fun _ => True) (finding x o i g m).
  Proof.
    intros y mk F. unfold Api.finding. destruct (db_of_obj o) as [db|e|] eqn:D; [|exists []; cbn; auto..].
    destruct i as [di|]; [|exists []; cbn; auto]. destruct g as [do|]; [|exists []; cbn; auto]. cbn [p_sys p_maker].
    unfold local_find. destruct db as [|u|p]; [exists []; cbn; auto..|]. destruct m as [| | | |t| |]; try (exists []; cbn; auto; fail).
    exists [Call p v di do t]. cbn [fold_left System.sys_step]. unfold System.sys_regrid. destruct (System.db_find _ _ _ _ _ _ _ p di do t y) as [y' r]. cbn [fst snd p_sys p_maker].
    split; [reflexivity|]. split; [|auto]. constructor; [|constructor]. exists p, di, do, t. auto 6.
  Qed.
  Lemma backend_emits x o v i g kw m : alookup "interpolation" kw = Some m ->
    emits (fun c => is_mir o = false /\ request_of o v i g m c) (fun p => is_mir o = false -> g = Some (snd p)) (backend_regrid x o v i g kw).
  Proof.
    intros M. unfold Api.backend_regrid. destruct (is_mir o) eqn:IM; [apply emits_lift; intros ? _ Q0; discriminate Q0|]. unfold precomputed_regrid. destruct (forallb _ kw); [|intros y mk F; exists []; cbn; parts]. rewrite M.
    eapply emits_bind with (R := fun t => t = m); [apply emits_lift; congruence|]. intros ? ->. intros y mk F.
    destruct (finding_emits x o v i g m y mk F) as (h & PS & PH & F1 & _). unfold seq_act, lift. destruct (finding x o i g m (mkApi y mk)) as [s1 r]. cbn [fst snd] in *. exists h.
    assert (FH : Forall (fun c => false = false /\ request_of o v i g m c) h) by (eapply Forall_impl; [|exact PH]; auto).
    destruct r as [zs|e|]; cbn [fst snd]; parts. intros [u d] Q _. destruct zs as [[z w]|]; [|discriminate Q]. destruct (matmul _ _ _ _ _); [|discriminate Q..]. cbn [bind] in Q. destruct (as_shape w); [|discriminate Q..]. cbn [bind] in Q.
    destruct (reshape _ _ _); [|discriminate Q..]. cbn [bind] in Q. destruct g; [|discriminate Q]. injection Q as <- <-. reflexivity.
  Qed.
  Definition prepared (kw0 : dict) (p : obj * dict) : Prop :=
    is_mir (fst p) = false -> alookup "backend" kw0 = Some (VStr "precomputed") /\ forall db, db_of_obj (fst p) = Ok db -> db <> SysDb -> gives "inventory" kw0 db.
  Lemma backend_of_emits P kw0 m : alookup "interpolation" kw0 = Some m -> emits P (fun p => prepared kw0 p /\ alookup "interpolation" (snd p) = Some m) (backend_of kw0).
  Proof.
    intros M y mk F. exists []. rewrite backend_of_sys. split; [reflexivity|]. split; [constructor|]. split; [exact (proj1 (proj2 (backend_of_sim kw0 y mk mk F F)))|].
    intros [o k] Q. destruct (backend_of kw0 (mkApi y mk)) as [s1 r] eqn:B. cbn [snd] in Q. subst r. destruct (backend_of_ok kw0 (mkApi y mk) s1 o k F B) as (_ & _ & b_kw & BK & N & K & _). cbn [fst snd].
    assert (X : alookup "backend" kw0 = Some (VStr (o_name o)) /\ b_kw = (match alookup "inventory" kw0 with Some v => [("inventory", v)] | None => [] end) /\ alookup "interpolation" k = Some m).
    { clear - BK M. unfold backend_from_kwargs, pop in BK.
      assert (G : exists b, alookup "backend" kw0 = Some b /\ (let '(bk, k') := fold_left (fun p k => let '(bk, kw) := p in
        match alookup k kw with Some v => (bk ++ [(k, v)], aremove k kw) | None => p end) OPTIONAL_BACKENDS_KWARGS ([], aremove "backend" kw0) in Ok (b, bk, k')) = Ok (VStr (o_name o), b_kw, k)).
      { destruct (alookup "backend" kw0) as [[| | | | | |]|]; try discriminate BK; (eexists; split; [reflexivity|exact BK]). }
      destruct G as (b & -> & G). cbn [OPTIONAL_BACKENDS_KWARGS fold_left] in G. rewrite alookup_aremove_neq in G by discriminate.
      destruct (alookup "inventory" kw0) as [v|]; injection G as <- <- <-; (split; [reflexivity|]); (split; [reflexivity|]); rewrite !alookup_aremove_neq by discriminate; exact M. }
    destruct X as (X1 & X2 & X3). split; [|exact X3]. intros IM. cbn [fst] in IM. specialize (K IM).
    assert (NM : o_name o = "precomputed"). { destruct (backends_cases _ N) as [NM|NM]; [|exact NM]. unfold is_mir in IM. rewrite NM in IM. discriminate IM. }
    split; [rewrite X1, NM; reflexivity|]. intros db D NS. unfold db_of_obj in D. cbn [fst] in D. rewrite K, X2 in D. destruct (alookup "inventory" kw0) as [v|] eqn:L; cbn in D.
    - exists v. split; [exact L|]. apply names_get. exact D.
    - injection D as <-. congruence.
  Qed.
  (** Every request to an inventory comes from a call that asks it. *)
  Lemma emits_weaken {X} (P Q : sop A -> Prop) (R R' : X -> Prop) a : emits P R a -> (forall c, P c -> Q c) -> (forall r, R r -> R' r) -> emits Q R' a.
  Proof. intros HA PQ RR y mk F. destruct (HA y mk F) as (h & PS & PH & F1 & RH). exists h. split; [exact PS|]. split; [eapply Forall_impl; [|exact PH]; exact PQ|]. split; [exact F1|]. intros r E. apply RR, RH, E. Qed.
  Lemma gives_cons k m b kw db : k <> "interpolation" -> k <> "backend" -> gives k (("interpolation", m) :: ("backend", b) :: kw) db -> gives k kw db.
  Proof using. clear. intros N1 N2 (v & L & N). cbn [alookup] in L. destruct (String.eqb_spec k "interpolation"); [contradiction|]. destruct (String.eqb_spec k "backend"); [contradiction|]. exists v. auto. Qed.
  Lemma array_emits x v i g m b kw : emits (asks (PArray x v i g m b kw)) (fun _ => True) (array_regrid x v i g m b kw).
  Proof.
    unfold Api.array_regrid. set (all := ("interpolation", m) :: ("backend", b) :: kw).
    eapply emits_bind; [apply backend_of_emits with (m := m); reflexivity|]. intros [o k] [PR M]. cbn [fst snd] in *.
    eapply emits_weaken; [apply backend_emits, M| |auto]. intros c [IM (p & di & do & t & D & -> & -> & -> & ->)]. destruct (PR IM) as [B G]. cbn in B. injection B as ->. constructor.
    exact (gives_cons "inventory" _ _ kw _ ltac:(discriminate) ltac:(discriminate) (G _ D ltac:(discriminate))).
  Qed.
  Lemma array_fields_emits (P : sop A -> Prop) x o kw m : alookup "interpolation" kw = Some m -> is_mir o = false -> forall fs g done,
    (forall f v di c, In f fs -> of_field field_values field_grid f None v di -> request_of o v (Some di) (Some g) m c -> P c) ->
    emits P (fun _ => True) (array_fields x o kw fs g done).
  Proof.
    intros M IM. induction fs as [|f fs IH]; intros g done HP; cbn [Api.array_fields]; [apply emits_lift; auto|].
    eapply emits_bind with (R := fun v => field_values f = Ok v); [apply emits_lift; auto|]. intros vv V.
    eapply emits_bind with (R := fun d => field_grid f = Ok (Some d)); [apply emits_lift; intros d Q; unfold input_gridspec in Q; destruct (field_grid f) as [[d'|]|e|]; try discriminate Q; cbn in Q; congruence|]. intros di G.
    eapply emits_bind.
    - eapply emits_weaken; [apply backend_emits with (v := vv), M| |intros r X; exact (X IM)]. intros c [_ C]. apply (HP f vv di c); [left; reflexivity|split; assumption|exact C].
    - intros [u g'] E. cbn in E. injection E as <-. cbn [fst snd]. eapply emits_bind with (R := fun _ => True); [apply emits_lift; auto|]. intros r _. apply IH. intros f' v' d' c I. apply HP. right. exact I.
  Qed.
  Lemma fields_emits (P : sop A -> Prop) x fs g m b kw :
    (forall g' gs f v di p t, g = Some g' -> b = VStr "precomputed" -> m = VStr t -> In f fs -> of_field field_values field_grid f None v di -> from_dict g' = Ok gs -> gives "inventory" kw (FromPath p) -> P (Call p v di (gd gs) t)) ->
    emits P (fun _ => True) (fields_regrid x fs g (("interpolation", m) :: ("backend", b) :: kw)).
  Proof.
    intros HP. unfold Api.fields_regrid. eapply emits_bind; [apply backend_of_emits with (m := m); reflexivity|]. intros [o k] [PR M]. cbn [fst snd] in *.
    destruct g as [g|]; [|apply emits_lift; auto]. destruct (is_mir o) eqn:IM; [apply emits_lift; auto|].
    eapply emits_bind with (R := fun gs => from_dict g = Ok gs); [apply emits_lift; auto|]. intros gs G. destruct (is_regular_ll gs); [|apply emits_lift; auto].
    apply array_fields_emits with (m := m); [exact M|exact IM|]. intros f v di c I OF (p & di' & do & t & D & E1 & E2 & -> & ->). injection E1 as <-. injection E2 as <-.
    destruct (PR IM) as [B GV]. cbn in B. injection B as ->. apply (HP g gs f v di p t); auto. exact (gives_cons "inventory" _ _ kw _ ltac:(discriminate) ltac:(discriminate) (GV _ D ltac:(discriminate))).
  Qed.
  Lemma regrid_emits x d g m b kw : emits (asks (PRegrid x d g m b kw)) (fun _ => True) (regrid_call x d g m b kw).
  Proof.
    unfold Api.regrid_call. destruct d as [v|fs|f|t|]; try (apply emits_lift; auto; fail).
    - eapply emits_bind with (R := fun _ => True); [|intros r _; apply emits_lift; auto]. apply fields_emits. intros g' gs f v di p t -> -> -> I OF G GV. eapply a_fields; eassumption.
    - eapply emits_bind with (R := fun _ => True); [|intros r _; apply emits_lift; auto]. apply fields_emits. intros g' gs f' v di p t -> -> -> [<-|[]] OF G GV. eapply a_field; eassumption.
    - eapply emits_bind; [apply backend_of_emits with (m := m); reflexivity|]. intros [o k] _. cbn [fst snd]. destruct (is_mir o); apply emits_lift; auto.
  Qed.
  Lemma precomputed_of_emits P m kw : emits P (fun p => alookup "method" (snd p) = Some m /\ forall db, db_of_obj (fst p) = Ok db -> db <> SysDb -> gives "matrix_source" kw db) (precomputed_of (("method", m) :: kw)).
  Proof.
    intros y mk F. pose proof (precomputed_of_sim (("method", m) :: kw) y mk mk F F) as (_ & G & _ & _). exists []. unfold precomputed_of in *. destruct (amem "backend" (("method", m) :: kw)); [cbn; parts|].
    unfold pop in *. cbv iota beta in *. set (b := match alookup "matrix_source" (("method", m) :: kw) with Some _ => _ | None => _ end) in *.
    assert (OA : one_arg b). { subst b. destruct (alookup "matrix_source" (("method", m) :: kw)) as [[| | | | | |]|]; solve [left; reflexivity|right; eexists; reflexivity]. }
    pose proof (named_sys (VStr "precomputed") b (mkApi y mk)) as PS. destruct (named_sim (S := S) (VStr "precomputed") b OA y mk mk F F) as (_ & _ & _ & R). unfold seq_act, lift in *.
    destruct (named_backend (VStr "precomputed") b (mkApi y mk)) as [s1 r]. cbn [fst snd] in *. destruct r as [o|e|]; cbn [fst snd] in *; [|parts..].
    split; [exact PS|]. split; [constructor|]. split; [exact G|]. intros q Q. injection Q as <-. cbn [fst snd]. split; [change (aremove "matrix_source" (("method", m) :: kw)) with (("method", m) :: aremove "matrix_source" kw); reflexivity|].
    cbn in R. destruct R as (_ & N & _ & _ & K). injection N as N. assert (IM : is_mir o = false) by (unfold is_mir; rewrite <- N; reflexivity). intros db D ND. unfold db_of_obj in D. rewrite (K IM) in D. unfold b in D.
    change (alookup "matrix_source" (("method", m) :: kw)) with (alookup "matrix_source" kw) in D. destruct (alookup "matrix_source" kw) as [v|] eqn:L; [|cbn in D; congruence].
    exists v. split; [exact L|]. apply names_get. destruct v; cbn in D; cbn; congruence.
  Qed.
  Lemma interpolate_one_emits x o v i g kw m : alookup "method" kw = Some m ->
    emits (request_of o v i g m) (fun _ => True) (precomputed_interpolate zero add mul lfind x o v i g kw).
  Proof.
    intros M. unfold precomputed_interpolate. rewrite M. eapply emits_bind with (R := fun t => t = m); [apply emits_lift; congruence|]. intros ? ->. cbv zeta.
    eapply emits_bind with (R := fun _ => True); [|intros zs _; apply emits_lift; auto]. destruct (existsb _ _); [apply emits_lift; auto|]. destruct (aremove "method" kw); [apply finding_emits|apply emits_lift; auto].
  Qed.
  Lemma interpolated_fields_emits (P : sop A -> Prop) x o kw m d g : alookup "method" kw = Some m -> forall fs done,
    (forall f v di c, In f fs -> of_field field_values field_grid f d v di -> request_of o v (Some di) (Some g) m c -> P c) ->
    emits P (fun _ => True) (interpolated_fields x o kw d g fs done).
  Proof.
    intros M. induction fs as [|f fs IH]; intros done HP; cbn [Api.interpolated_fields]; [apply emits_lift; auto|].
    eapply emits_bind with (R := fun v => field_values f = Ok v); [apply emits_lift; auto|]. intros vv V.
    eapply emits_bind with (R := fun di => of_field field_values field_grid f d vv di).
    { apply emits_lift. intros di Q. split; [exact V|]. unfold given_gridspec in Q. destruct d as [d|]; [congruence|]. destruct (field_grid f) as [[d'|]|e|]; try discriminate Q; cbn in Q; congruence. }
    intros di OF. eapply emits_bind with (R := fun _ => True).
    - eapply emits_weaken; [apply interpolate_one_emits with (v := vv), M| |auto]. intros c C. exact (HP f vv di c (or_introl eq_refl) OF C).
    - intros u _. eapply emits_bind with (R := fun _ => True); [apply emits_lift; auto|]. intros r _. apply IH. intros f' v' d' c I. apply HP. right. exact I.
  Qed.
  Lemma interpolate_emits x d i g m kw : emits (asks (PInterpolate x d i g m kw)) (fun _ => True) (interpolate_call x d i g m kw).
  Proof.
    unfold Api.interpolate_call. destruct d as [v|fs|f|t|]; try (apply emits_lift; auto; fail).
    - eapply emits_bind; [apply precomputed_of_emits|]. intros [o k] [M GV]. cbn [fst snd] in *. eapply emits_bind with (R := fun _ => True); [|intros r _; apply emits_lift; auto].
      eapply emits_weaken; [apply interpolate_one_emits with (v := v), M| |auto]. intros c (p & di & do & t & D & -> & -> & -> & ->). constructor. exact (GV _ D ltac:(discriminate)).
    - eapply emits_bind; [apply precomputed_of_emits|]. intros [o k] [M GV]. cbn [fst snd] in *. destruct g as [g|]; [|apply emits_lift; auto].
      eapply emits_bind with (R := fun gs => from_dict g = Ok gs); [apply emits_lift; auto|]. intros gs G. destruct (is_regular_ll gs); [|apply emits_lift; auto].
      eapply emits_bind with (R := fun _ => True); [|intros r _; apply emits_lift; auto]. apply interpolated_fields_emits with (m := m); [exact M|].
      intros f v di c I OF (p & di' & do & t & D & E1 & E2 & -> & ->). injection E1 as <-. injection E2 as <-. eapply a_old_fields; try eassumption. exact (GV _ D ltac:(discriminate)).
  Qed.
  Definition asked H (k : sop A) : Prop := match k with Call _ _ _ _ _ => exists d, In d H /\ asks d k | _ => True end.
  Lemma asked_more H H' k : asked H k -> (forall d, In d H -> In d H') -> asked H' k.
  Proof. destruct k; cbn; auto. intros (d & I & AS) Q. eauto. Qed.
  Lemma trace y mk H : fine mk -> known_else H -> exists h, p_sys (fold_left pstep H (mkApi y mk)) = fold_left sys_step h y /\ Forall (asked H) h /\ fine (p_maker (fold_left pstep H (mkApi y mk))).
  Proof.
    intros F0. induction H as [|d H IH] using rev_ind; intros KE; [exists []; cbn; auto|].
    destruct IH as (h & PS & FH & F). { intros f I. apply KE, in_or_app. left. exact I. }
    rewrite fold_left_app. cbn [fold_left]. set (s := fold_left _ H _) in *. clearbody s. destruct s as [y1 mk1]. cbn [p_sys p_maker] in *.
    assert (OLD : Forall (asked (H ++ [d])) h) by (eapply Forall_impl; [|exact FH]; intros k K; apply (asked_more _ _ _ K); intros d' I; apply in_or_app; left; exact I).
    assert (G : forall (X : Type) (a : act (api S) X), emits (asks d) (fun _ => True) a -> exists h, p_sys (fst (a (mkApi y1 mk1))) = fold_left sys_step h y /\ Forall (asked (H ++ [d])) h /\ fine (p_maker (fst (a (mkApi y1 mk1))))).
    { intros X a EM. destruct (EM y1 mk1 F) as (h' & PS' & FH' & F' & _). exists (h ++ h'). split; [rewrite fold_left_app, <- PS; exact PS'|]. split; [|exact F']. apply Forall_app. split; [exact OLD|].
      eapply Forall_impl; [|exact FH']. intros [p v di do m|c'|] AS; cbn; auto. exists d. split; [apply in_or_app; right; left; reflexivity|exact AS]. }
    destruct d as [x v i g m b kw|x d g m b kw|x d i g m kw|f]; cbn [Api.pstep].
    - apply G, array_emits.
    - apply G, regrid_emits.
    - apply G, interpolate_emits.
    - assert (KF : exists k : sop A, (forall y, f y = sys_step y k) /\ match k with Call _ _ _ _ _ => False | _ => True end).
      { destruct (KE f) as [Q|[c' Q]]; [apply in_or_app; right; left; reflexivity|exists ClearMemory; auto|exists (Configure c'); auto]. }
      destruct KF as (k & Q & NC). exists (h ++ [k]). cbn [p_sys p_maker]. split; [rewrite fold_left_app, <- PS; apply Q|]. split; [|exact F]. apply Forall_app. split; [exact OLD|].
      constructor; [|constructor]. destruct k; [contradiction|exact Logic.I..].
  Qed.

  (** ** C101 *)
  (** Whatever public functions were called, the databases and the memory cache are as after calls
      that ask the inventories for what the public calls ask. *)
  Theorem C101_trace c H : known_else H -> exists h, p_sys (pafter (sys_init c) H) = sys_after c h /\
    forall p v di do m, In (Call p v di do m) h -> exists d, In d H /\ asks d (Call p v di do m).
  Proof.
    intros KE. destruct (trace (sys_init c) (mkMaker [] 0) H fine_none KE) as (h & PS & FH & _). exists h. split; [exact PS|]. intros p v di do m I. rewrite Forall_forall in FH. exact (FH _ I).
  Qed.
  (** Nothing was called before, or the memory cache was cleared last. *)
  Definition cleared H : Prop := H = [] \/ exists H' f, H = H' ++ [PElse f] /\ forall y, f y = sys_step y ClearMemory.
  Lemma trace2 c H0 H : cleared H0 -> known_else (H0 ++ H) -> exists h0 h, p_sys (pafter (sys_init c) (H0 ++ H)) = sys_after c (h0 ++ h) /\ forgotten h0 /\
    Forall (asked H0) h0 /\ Forall (asked H) h /\ fine (p_maker (pafter (sys_init c) (H0 ++ H))).
  Proof.
    intros CL KE. assert (K0 : known_else H0) by (intros f I; apply KE, in_or_app; left; exact I). assert (K1 : known_else H) by (intros f I; apply KE, in_or_app; right; exact I).
    assert (X : exists h0, p_sys (pafter (sys_init c) H0) = sys_after c h0 /\ forgotten h0 /\ Forall (asked H0) h0).
    { destruct CL as [->|(H' & f & -> & Q)]; [exists []; repeat split; [left; reflexivity|constructor]|].
      destruct (trace (sys_init c) (mkMaker [] 0) H' fine_none) as (h & PS & FH & _). { intros f' I. apply K0, in_or_app. left. exact I. }
      exists (h ++ [ClearMemory]). unfold Api.pafter, System.sys_after. rewrite !fold_left_app. cbn [fold_left Api.pstep p_sys]. rewrite PS. split; [apply Q|]. split; [right; eauto|].
      apply Forall_app. split; [|repeat constructor]. eapply Forall_impl; [|exact FH]. intros k K. apply (asked_more _ _ _ K). intros d I. apply in_or_app. left. exact I. }
    destruct X as (h0 & PS & FG & A0). pose proof (after_fine zero add mul lfind mir_array mir_grib field_values field_grid field_with field_message message_field (sys_init c) H0) as F.
    unfold Api.pafter in *. rewrite fold_left_app. set (s := fold_left _ H0 _) in *. clearbody s. destruct s as [y mk]. cbn [p_sys p_maker] in *.
    destruct (trace y mk H F K1) as (h & PS' & FH & F'). exists h0, h. split; [|auto]. unfold System.sys_after. rewrite fold_left_app. rewrite PS' . rewrite PS. reflexivity.
  Qed.

  Definition all_sound H : Prop := forall d k, In d H -> asks d k -> sound k.
  Lemma asked_sound H h : all_sound H -> Forall (asked H) h -> Forall sound h.
  Proof. intros AS. apply Forall_impl. intros [p v di do m|c'|] K; [|exact Logic.I..]. destruct K as (d & I & K). exact (AS d _ I K). Qed.
  Lemma asked_collides H h gi go m : Forall (asked H) h -> collides sha float_text h gi go m -> call_collides (S := S) (E := unit) field_values field_grid sha float_text H gi go m.
  Proof. intros FH (p & v & di & do & m' & gi' & go' & I & Q). rewrite Forall_forall in FH. destruct (FH _ I) as (d & ID & K). exists d, p, v, di, do, m', gi', go'. auto. Qed.
  Lemma asked_asked_only H h p gi go m : Forall (asked H) h -> call_asked_only (S := S) (E := unit) field_values field_grid p H gi go m -> asked_only p h gi go m.
  Proof. intros FH AO p' v di do gi' go' I. rewrite Forall_forall in FH. destruct (FH _ I) as (d & ID & K). exact (AO d p' v di do gi' go' ID K). Qed.

  (** What an answered request comes to: the weights of the inventory for the grids and the method,
      applied to the values. *)
  Definition answered H (p : string) (v : array A) (di do : dict) (m : string) (u : array A) : Prop :=
    exists gi go, IndexSpec.request di do gi go /\
      (call_collides (S := S) (E := unit) field_values field_grid sha float_text H gi go m \/
       exists z sh n, weights_for p gi go m z sh /\ is_shape sh n /\ applies zero add mul z n v u).
  Notation only_here H p di do m := (forall gi go, IndexSpec.request di do gi go -> call_asked_only (S := S) (E := unit) field_values field_grid p H gi go m).

  Theorem C101_array_partial c H0 H x p values di do m r g :
    let call := PArray x values (Some di) (Some do) (VStr m) (VStr "precomputed") [("inventory", VStr p)] in
    float_texts float_text -> proper_files -> cleared H0 -> known_else (H0 ++ H) -> all_sound (H0 ++ H ++ [call]) -> only_here H p di do m ->
    names_db (VStr p) (FromPath p) ->
    snd (array_regrid x values (Some di) (Some do) (VStr m) (VStr "precomputed") [("inventory", VStr p)] (pafter (sys_init c) (H0 ++ H))) = Ok (r, g) ->
    g = do /\ answered H p values di do m r.
  Proof.
    intros call FT PF CL KE AS AO ND Q. destruct (trace2 c H0 H CL KE) as (h0 & h & PS & FG & A0 & A1 & F).
    destruct (pafter (sys_init c) (H0 ++ H)) as [y mk] eqn:PA. cbn [p_sys p_maker] in *.
    destruct (array_direct zero add mul lfind mir_array x (FromPath p) values di do (VStr m) [("inventory", VStr p)] (oi_some _ _ _ ND) y mk mk F F) as (_ & _ & _ & R).
    rewrite Q in R. unfold direct in R. cbn [p_sys local_find] in R. cbn [related] in R.
    assert (SR : snd (sys_regrid p values di do m (sys_after c (h0 ++ h))) = Ok (r, g)).
    { rewrite <- PS. unfold System.sys_regrid. destruct (System.db_find _ _ _ _ _ _ _ p di do m y) as [y' found]. cbn [snd related] in *. destruct (regrid_from zero add mul found values do); [congruence|contradiction..]. }
    assert (SO : Forall sound (h0 ++ h ++ [Call p values di do m])).
    { rewrite !Forall_app. split; [|split].
      - apply (asked_sound H0); [|exact A0]. intros d k I. apply AS, in_or_app. left. exact I.
      - apply (asked_sound H); [|exact A1]. intros d k I. apply AS. rewrite !in_app_iff. auto.
      - constructor; [|constructor]. apply (AS call); [rewrite !in_app_iff; cbn; auto|]. constructor. exists (VStr p). split; [reflexivity|exact ND]. }
    destruct (C92_end_to_end_partial zero add mul memory_of sha float_text py_str key_order fuel files c h0 h p values di do m r g FT PF FG SO) as (-> & gi & go & RQ & O).
    - intros gi go RQ. exact (asked_asked_only H h p gi go m A1 (AO gi go RQ)).
    - exact SR.
    - split; [reflexivity|]. exists gi, go. split; [exact RQ|]. destruct O as [CO|O]; [left; exact (asked_collides H h gi go m A1 CO)|right; exact O].
  Qed.

  (** If no entry of the inventory answers, the call is refused. *)
  Theorem C101_refused_partial c H0 H x p values di do m gi go :
    let call := PArray x values (Some di) (Some do) (VStr m) (VStr "precomputed") [("inventory", VStr p)] in
    float_texts float_text -> cleared H0 -> known_else (H0 ++ H) -> all_sound (H0 ++ H ++ [call]) ->
    IndexSpec.request di do gi go -> call_asked_only (S := S) (E := unit) field_values field_grid p H gi go m ->
    names_db (VStr p) (FromPath p) -> no_weights_for py_str key_order fuel files p gi go m ->
    snd (array_regrid x values (Some di) (Some do) (VStr m) (VStr "precomputed") [("inventory", VStr p)] (pafter (sys_init c) (H0 ++ H))) = Raise ValueError \/
    call_collides (S := S) (E := unit) field_values field_grid sha float_text H gi go m.
  Proof.
    intros call FT CL KE AS RQ AO ND NW. destruct (trace2 c H0 H CL KE) as (h0 & h & PS & FG & A0 & A1 & F).
    destruct (pafter (sys_init c) (H0 ++ H)) as [y mk] eqn:PA. cbn [p_sys p_maker] in *.
    destruct (array_direct zero add mul lfind mir_array x (FromPath p) values di do (VStr m) [("inventory", VStr p)] (oi_some _ _ _ ND) y mk mk F F) as (_ & _ & _ & R).
    assert (SO : Forall sound (h0 ++ h ++ [Call p values di do m])).
    { rewrite !Forall_app. split; [|split].
      - apply (asked_sound H0); [|exact A0]. intros d k I. apply AS, in_or_app. left. exact I.
      - apply (asked_sound H); [|exact A1]. intros d k I. apply AS. rewrite !in_app_iff. auto.
      - constructor; [|constructor]. apply (AS call); [rewrite !in_app_iff; cbn; auto|]. constructor. exists (VStr p). split; [reflexivity|exact ND]. }
    destruct (C92_refused_partial zero add mul memory_of sha float_text py_str key_order fuel files c h0 h p values di do m gi go FT FG SO RQ (asked_asked_only H h p gi go m A1 AO) NW) as [V|CO].
    - left. rewrite <- PS in V. unfold direct in R. cbn [p_sys local_find] in R. unfold System.sys_regrid in V. destruct (System.db_find _ _ _ _ _ _ _ p di do m y) as [y' found]. cbn [snd fst] in *. rewrite V in R.
      destruct (snd _) in *; cbn in R; congruence || contradiction.
    - right. exact (asked_collides H h gi go m A1 CO).
  Qed.

  (** Lists of fields: each field is regridded on its own, with the weights from its grid. *)
  Definition field_done H (p : string) (do : dict) (m : string) (f f' : field) : Prop :=
    exists v di u, of_field field_values field_grid f None v di /\ field_with f u do = Ok f' /\ answered H p v di do m u.
  Lemma fields_answered c HH x o p do m : float_texts float_text -> proper_files -> is_mir o = false -> db_of_obj o = Ok (FromPath p) -> forall h0, forgotten h0 -> Forall sound h0 -> all_sound HH ->
    forall fs done mk h, Forall (asked HH) h ->
    (forall f v di, In f fs -> of_field field_values field_grid f None v di -> asked HH (Call p v di do m) /\ only_here HH p di do m) -> forall rs,
    snd (array_fields x o [("interpolation", VStr m)] fs do done (mkApi (sys_after c (h0 ++ h)) mk)) = Ok rs ->
    exists rs', rs = done ++ rs' /\ Forall2 (field_done HH p do m) fs rs'.
  Proof.
    intros FT PF IM DB h0 FG S0 AS. induction fs as [|f fs IH]; intros done mk h FH EV rs Q.
    { cbn in Q. injection Q as <-. exists []. rewrite app_nil_r. auto. }
    cbn [Api.array_fields] in Q. unfold seq_act at 1 in Q. unfold lift at 1 in Q. destruct (field_values f) as [v|e|] eqn:V; [|discriminate Q..].
    unfold seq_act at 1 in Q. unfold lift at 1 in Q. destruct (input_gridspec field_grid f) as [di|e|] eqn:G; [|discriminate Q..].
    assert (OF : of_field field_values field_grid f None v di). { split; [exact V|]. unfold input_gridspec in G. destruct (field_grid f) as [[d|]|e|]; try discriminate G. cbn in G. congruence. }
    destruct (EV f v di (or_introl eq_refl) OF) as [AK AO]. unfold seq_act at 1, Api.backend_regrid in Q. rewrite IM, (tail_eq zero add mul lfind o x (FromPath p) v di do (VStr m) DB) in Q. unfold direct in Q. cbn [p_sys p_maker local_find] in Q.
    pose proof (C92_end_to_end_partial zero add mul memory_of sha float_text py_str key_order fuel files c h0 h p v di do m) as E2E. unfold System.sys_regrid in E2E.
    assert (NX : fst (System.db_find memory_of sha float_text py_str key_order fuel files p di do m (sys_after c (h0 ++ h))) = sys_after c (h0 ++ (h ++ [Call p v di do m]))).
    { unfold System.sys_after. rewrite app_assoc, (fold_left_app _ (h0 ++ h)). cbn [fold_left System.sys_step]. unfold System.sys_regrid. destruct (System.db_find _ _ _ _ _ _ _ p di do m _). reflexivity. }
    destruct (System.db_find memory_of sha float_text py_str key_order fuel files p di do m (sys_after c (h0 ++ h))) as [y' found]. cbn [fst snd] in *. destruct (regrid_from zero add mul found v do) as [[u g]|e|] eqn:R; [|discriminate Q..].
    assert (SO : Forall sound (h0 ++ h ++ [Call p v di do m])).
    { rewrite !Forall_app. split; [exact S0|]. split; [exact (asked_sound HH h AS FH)|]. apply (asked_sound HH); [exact AS|]. repeat constructor. exact AK. }
    destruct (E2E u g FT PF FG SO) as (-> & gi & go & RQ & O); [intros gi go RQ; exact (asked_asked_only HH h p gi go m FH (AO gi go RQ))|reflexivity|].
    cbn [fst snd] in Q. unfold seq_act at 1 in Q. unfold lift at 1 in Q. destruct (field_with f u do) as [f'|e|] eqn:W; [|discriminate Q..]. rewrite NX in Q.
    destruct (IH (done ++ [f']) mk (h ++ [Call p v di do m])) with (rs := rs) as (rs' & -> & F2); [apply Forall_app; split; [exact FH|repeat constructor; exact AK]|intros f1 v1 di1 I1; apply EV; right; exact I1|exact Q|].
    exists (f' :: rs'). rewrite <- app_assoc. split; [reflexivity|]. constructor; [|exact F2]. exists v, di, u. split; [exact OF|]. split; [exact W|]. exists gi, go. split; [exact RQ|].
    destruct O as [CO|O]; [left; exact (asked_collides HH h gi go m FH CO)|right; exact O].
  Qed.
  Theorem C101_fields_partial c H0 H x p fs g gs m d :
    let call := PRegrid x (DFields fs) (Some g) (VStr m) (VStr "precomputed") [("inventory", VStr p)] in
    float_texts float_text -> proper_files -> cleared H0 -> known_else (H0 ++ H) -> all_sound (H0 ++ H ++ [call]) ->
    names_db (VStr p) (FromPath p) -> from_dict g = Ok gs ->
    (forall f v di, In f fs -> of_field field_values field_grid f None v di -> only_here H p di (gd gs) m) ->
    snd (regrid_call x (DFields fs) (Some g) (VStr m) (VStr "precomputed") [("inventory", VStr p)] (pafter (sys_init c) (H0 ++ H))) = Ok d ->
    is_regular_ll gs = true /\ exists rs, d = DFields rs /\ Forall2 (field_done (H ++ [call]) p (gd gs) m) fs rs.
  Proof.
    intros call FT PF CL KE AS ND GS AO Q. destruct (trace2 c H0 H CL KE) as (h0 & h & PS & FG & A0 & A1 & F).
    destruct (pafter (sys_init c) (H0 ++ H)) as [y mk] eqn:PA. cbn [p_sys p_maker] in *.
    unfold Api.regrid_call, Api.fields_regrid in Q. unfold seq_act at 1 2 in Q.
    destruct (backend_of (("interpolation", VStr m) :: ("backend", VStr "precomputed") :: [("inventory", VStr p)]) (mkApi y mk)) as [s1 [[o k]|e|]] eqn:B; [|discriminate Q..].
    destruct (backend_of_ok _ (mkApi y mk) s1 o k F B) as (PY & F1 & b_kw & BK & _ & KO & _). cbn in BK. injection BK as ON <- <-. cbn [fst snd] in Q.
    assert (IM : is_mir o = false) by (unfold is_mir; rewrite <- ON; reflexivity). rewrite IM in Q. specialize (KO IM). rewrite GS in Q. unfold seq_act at 1, lift at 1 in Q.
    destruct (is_regular_ll gs) eqn:LL; [|discriminate Q]. split; [reflexivity|]. destruct s1 as [y1 mk1]. cbn [p_sys] in PY. subst y1.
    assert (DB : db_of_obj o = Ok (FromPath p)). { unfold db_of_obj. rewrite KO. cbn [alookup fst]. rewrite String.eqb_refl. apply names_get. exact ND. }
    destruct (array_fields x o [("interpolation", VStr m)] fs (gd gs) [] (mkApi y mk1)) as [s2 [rs|e|]] eqn:L; [|discriminate Q..]. cbn in Q. injection Q as <-. exists rs. split; [reflexivity|].
    assert (INV : forall kw', gives "inventory" [("inventory", VStr p)] (FromPath kw') -> kw' = p). { intros p' (v & LV & NV). cbn [alookup] in LV. rewrite String.eqb_refl in LV. injection LV as <-. apply names_get in NV. apply names_get in ND. congruence. }
    destruct (fields_answered c (H ++ [call]) x o p (gd gs) m FT PF IM DB h0 FG) with (fs := fs) (done := @nil field) (mk := mk1) (h := h) (rs := rs) as (rs' & -> & F2).
    - apply (asked_sound H0); [|exact A0]. intros d k I. apply AS, in_or_app. left. exact I.
    - intros d k I. apply AS. rewrite in_app_iff. right. exact I.
    - eapply Forall_impl; [|exact A1]. intros k K. apply (asked_more _ _ _ K). intros d I. apply in_or_app. left. exact I.
    - intros f v di I OF. split.
      + exists call. split; [apply in_or_app; right; left; reflexivity|]. eapply a_fields; try eassumption. exists (VStr p). split; [reflexivity|exact ND].
      + intros gi go RQ d p' v' di' do' gi' go' ID K. apply in_app_or in ID. destruct ID as [ID|[<-|[]]]; [exact (AO f v di I OF gi go RQ d p' v' di' do' gi' go' ID K)|].
        intros _ _ _. unfold call in K. inversion K; subst. apply INV. assumption.
    - rewrite <- PS, L. reflexivity.
    - exact F2.
  Qed.
End Local.

(** ** The hypotheses are met *)
Definition ll_out : dict := [("grid", VList [VInt 10; VInt 10])].
Definition ll_raw : raw Z := mkRaw (Some demo_out) (Some [("grid", VList [VInt 10; VInt 10]); ("shape", VList [VInt 2])]) (Some demo_inter) 48.
Definition ll_files : fs Z (csr Z) :=
  [("a/index.json", IndexFile (mkFile (Some 1) (Some [("w", ll_raw)]))); ("a/mir_16_linear/w.npz", Weights matrix_a);
   ("b/index.json", IndexFile (mkFile (Some 1) (Some [("w", ll_raw)]))); ("b/mir_16_linear/w.npz", Weights matrix_b)].
(** A field is an array with a grid. *)
Definition ll_field : Type := array Z * dict.
Definition ll_values (f : ll_field) : result (array Z) := Ok (fst f).
Definition ll_grid (f : ll_field) : result (option dict) := Ok (Some (snd f)).
Definition ll_with (f : ll_field) (u : array Z) (g : dict) : result ll_field := Ok (u, g).
Notation ll_S := (sys Z Z).
Notation ll_find := (local_find (fun x : Z => x) (fun s => s) demo_text demo_py COMPARE_KEYS 10 ll_files).
Notation ll_call := (@pop_call Z ll_S unit ll_field).
Notation ll_mir := (fun (_ : array Z) (_ _ : option dict) (_ : dict) => @Raise (array Z * dict) NotImplementedError).
Notation ll_grib := (fun (_ : string) (_ : option dict) (_ : dict) => @Raise string NotImplementedError).
Notation ll_message := (fun _ : ll_field => @Raise string NotImplementedError).
Notation ll_of_message := (fun _ : string => @Raise ll_field NotImplementedError).
Notation ll_after := (pafter 0 Z.add Z.mul ll_find ll_mir ll_grib ll_values ll_grid ll_with ll_message ll_of_message (sys_init (mkConf (Some 1000000) false "largest"))).
Notation ll_regrid := (regrid_call 0 Z.add Z.mul ll_find ll_mir ll_grib ll_values ll_grid ll_with ll_message ll_of_message).
Notation ll_array := (array_regrid 0 Z.add Z.mul ll_find ll_mir).
Definition ll_one : ll_field := (demo_values, demo_out).
Definition ll_two : ll_field := (mkArr [2%nat] (fun i => match i with [O] => 3 | _ => 4 end), demo_out).
Definition ll_clear : ll_S -> ll_S := fun y => sys_step 0 Z.add Z.mul (fun x : Z => x) (fun s => s) demo_text demo_py COMPARE_KEYS 10 ll_files y ClearMemory.
Definition ll_asking (p : string) : ll_call := PRegrid tt (DFields [ll_one; ll_two]) (Some ll_out) (VStr "linear") (VStr "precomputed") [("inventory", VStr p)].
Definition ll_history : list ll_call := [ll_asking "b"; PElse ll_clear].
Definition ll_gi : gspec := match from_dict demo_out with Ok g => g | _ => mkG LL [] None None end.
Definition ll_gs : gspec := match from_dict ll_out with Ok g => g | _ => mkG LL [] None None end.
Definition ll_go : gspec := match from_dict (gd ll_gs) with Ok g => g | _ => mkG LL [] None None end.
Lemma ll_request : IndexSpec.request demo_out (gd ll_gs) ll_gi ll_go.
Proof. split; vm_compute; reflexivity. Qed.
Lemma ll_path p : p = "a" \/ p = "b" -> names_db (VStr p) (FromPath p).
Proof. intros [->| ->]; apply names_get; reflexivity. Qed.
Lemma ll_asks p k : p = "a" \/ p = "b" -> asks ll_values ll_grid (ll_asking p) k -> exists v, k = Call p v demo_out (gd ll_gs) "linear".
Proof.
  intros P K. unfold ll_asking in K. inversion K as [|? ? f v di g gs m kw p' I [V G] D (w & L & N)| | |]; subst. cbn [alookup] in L. rewrite String.eqb_refl in L. injection L as <-.
  apply names_get in N. pose proof (ll_path p P) as N'. apply names_get in N'. rewrite N' in N. injection N as <-. assert (gs = ll_gs) as ->. { assert (X : from_dict ll_out = Ok ll_gs) by (vm_compute; reflexivity). rewrite X in D. injection D as <-. reflexivity. }
  exists v. destruct I as [<-|[<-|[]]]; injection G as <-; reflexivity.
Qed.
Lemma ll_sound p v : p = "a" \/ p = "b" -> sound demo_py COMPARE_KEYS 10 ll_files (Call p v demo_out (gd ll_gs) "linear").
Proof.
  intros P. split; [exact (proj2 demo_plain)|]. split.
  - split; [vm_compute; repeat (apply NoDup_cons; [cbn; intuition discriminate|]); apply NoDup_nil|]. intros k w. let d := eval vm_compute in (gd ll_gs) in change (gd ll_gs) with d. cbn [alookup].
    repeat (destruct (String.eqb _ _); [intros Q; injection Q as <-; reflexivity|]). discriminate.
  - intros gi go [E1 E2]. destruct ll_request as [R1 R2]. rewrite R1 in E1. rewrite R2 in E2. apply ok_inj in E1, E2. subst gi go. intros i n e L I.
    assert (X : exists e, local_index p ll_files = Ok [("w", e)] /\ answers demo_py COMPARE_KEYS 10 e ll_gi ll_go "linear") by (destruct P as [->| ->]; (eexists; split; [vm_compute; reflexivity|]; split; [|split]; vm_compute; reflexivity)).
    destruct X as (e' & L' & Y). rewrite L' in L. injection L as <-. destruct I as [I|[]]. injection I as <- <-. left. exact Y.
Qed.
Lemma ll_all_sound : all_sound demo_py COMPARE_KEYS 10 ll_files ll_values ll_grid (ll_history ++ [ll_asking "a"] ++ [ll_asking "a"]).
Proof.
  assert (X : forall p k, p = "a" \/ p = "b" -> asks ll_values ll_grid (ll_asking p) k -> sound demo_py COMPARE_KEYS 10 ll_files k) by (intros p k P K; destruct (ll_asks p k P K) as [v ->]; apply ll_sound, P).
  intros d k I K. cbn in I. destruct I as [<-|[<-|[<-|[<-|[]]]]]; [apply (X "b" k); auto|inversion K|apply (X "a" k); auto..].
Qed.
Lemma ll_proper : proper_files ll_files.
Proof.
  intros p z. unfold ll_files. cbn [alookup]. repeat (destruct (String.eqb _ _); [intros H; try discriminate H; injection H as <-|]); [| |discriminate];
    (split; cbn; [reflexivity|reflexivity| |reflexivity|reflexivity|repeat constructor]); intros [|[|i]] L; cbn; lia.
Qed.
(** The inventory "b" is asked, the memory cache is cleared, the inventory "a" is asked twice. *)
Example C101_met :
  float_texts demo_text /\ proper_files ll_files /\
  cleared 0 Z.add Z.mul (fun x : Z => x) (fun s => s) demo_text demo_py COMPARE_KEYS 10 ll_files ll_history /\
  known_else 0 Z.add Z.mul (fun x : Z => x) (fun s => s) demo_text demo_py COMPARE_KEYS 10 ll_files (ll_history ++ [ll_asking "a"]) /\
  all_sound demo_py COMPARE_KEYS 10 ll_files ll_values ll_grid (ll_history ++ [ll_asking "a"] ++ [ll_asking "a"]) /\
  names_db (VStr "a") (FromPath "a") /\ from_dict ll_out = Ok ll_gs /\
  (forall f v di, In f [ll_one; ll_two] -> of_field ll_values ll_grid f None v di -> forall gi go, IndexSpec.request di (gd ll_gs) gi go -> call_asked_only (S := ll_S) (E := unit) ll_values ll_grid "a" [ll_asking "a"] gi go "linear") /\
  exists r r', snd (ll_regrid tt (DFields [ll_one; ll_two]) (Some ll_out) (VStr "linear") (VStr "precomputed") [("inventory", VStr "a")] (ll_after (ll_history ++ [ll_asking "a"]))) = Ok (DFields [r; r']) /\
    map (item (fst r)) [[0%nat]; [1%nat]] = [7; 11] /\ map (item (fst r')) [[0%nat]; [1%nat]] = [3; 4] /\ snd r = gd ll_gs.
Proof.
  split; [exact demo_texts|]. split; [exact ll_proper|]. split; [right; exists [ll_asking "b"], ll_clear; split; reflexivity|].
  split. { intros f I. cbn in I. destruct I as [I|[I|[I|[]]]]; try discriminate I. injection I as <-. left. reflexivity. }
  split; [exact ll_all_sound|]. split; [apply ll_path; auto|]. split; [vm_compute; reflexivity|]. split.
  - intros f v di _ _ gi go _ d p' v' di' do' gi' go' [<-|[]] K _ _ _. destruct (ll_asks "a" _ (or_introl eq_refl) K) as [w E]. congruence.
  - do 2 eexists. split; [vm_compute; reflexivity|]. split; [vm_compute; reflexivity|]. split; vm_compute; reflexivity.
Qed.
(** Without clearing the memory cache the weights of the other inventory are applied. *)
Theorem C101_refuted : exists r r',
  snd (ll_regrid tt (DFields [ll_one; ll_two]) (Some ll_out) (VStr "linear") (VStr "precomputed") [("inventory", VStr "a")] (ll_after [ll_asking "b"])) = Ok (DFields [r; r']) /\
  ~ applies 0 Z.add Z.mul matrix_a [2%nat] demo_values (fst r) /\ applies 0 Z.add Z.mul matrix_b [2%nat] demo_values (fst r).
Proof.
  do 2 eexists. split; [vm_compute; reflexivity|]. split.
  - intros (_ & _ & _ & I). assert (V : valid [2%nat] [0%nat]) by (repeat constructor). specialize (I _ V). vm_compute in I. discriminate I.
  - split; [reflexivity|]. split; [reflexivity|]. split; [reflexivity|]. intros idx V. inversion V as [|? i ? r L V']; subst. inversion V'; subst. destruct i as [|[|i]]; [reflexivity|reflexivity|lia].
Qed.
Example C101_array_met : exists r, snd (ll_array tt demo_values (Some demo_out) (Some ll_out) (VStr "linear") (VStr "precomputed") [("inventory", VStr "a")] (ll_after ll_history)) = Ok (r, ll_out) /\ map (item r) [[0%nat]; [1%nat]] = [7; 11].
Proof. eexists. split; vm_compute; reflexivity. Qed.
Example C101_refused_met : no_weights_for demo_py COMPARE_KEYS 10 ll_files "a" ll_gi ll_go "nn" /\
  snd (ll_array tt demo_values (Some demo_out) (Some ll_out) (VStr "nn") (VStr "precomputed") [("inventory", VStr "a")] (ll_after ll_history)) = Raise ValueError.
Proof.
  split; [|vm_compute; reflexivity].
  assert (X : exists e, local_index "a" ll_files = Ok [("w", e)] /\ answers demo_py COMPARE_KEYS 10 e ll_gi ll_go "linear") by (eexists; split; [vm_compute; reflexivity|]; split; [|split]; vm_compute; reflexivity).
  destruct X as (e & L & (Y & _)). exists [("w", e)]. split; [exact L|]. constructor; [|constructor]. exists "linear". split; [exact Y|]. left. discriminate.
Qed.

Print Assumptions C101_trace.
Print Assumptions C101_array_partial.
Print Assumptions C101_refused_partial.
Print Assumptions C101_fields_partial.
Print Assumptions C101_refuted.
