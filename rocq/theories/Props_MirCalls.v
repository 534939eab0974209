(** C132: public calls with the backend MIR. *)
From Verif Require Import PyBase ListLemmas PyStr Float64 GridSpec GridProofs Regrid System SystemSpec Dispatch Props_Dispatch Api ApiSpec ApiProofs Props_Api MirCalls.
Set Default Proof Using "Type".
Local Open Scope string_scope.
Local Open Scope list_scope.
Local Open Scope Z_scope.

(** ** What is asked of MIR *)
Section Asked.
  Variable py_str : val -> string.
  (** What the call says of an option: its arguments, and the default of the documentation. *)
  Definition said (m : val) (kw : dict) (k : string) : option val :=
    if String.eqb k "interpolation" then Some m else match alookup k kw with Some v => Some v | None => documented_default k end.
  (** The grid and the area of the target. *)
  Definition placed (g : dict) (j : job) : Prop :=
    match alookup "area" g with
    | None => alookup "grid" j = Some (JGrid g) /\ alookup "area" j = None
    | Some a => exists t, area_text py_str a t /\ alookup "grid" j = Some (JGrid (aremove "area" g)) /\ alookup "area" j = Some (JVal t)
    end.
  (** The job of a message: the grid, and every option as said. *)
  Definition message_job (g : dict) (m : val) (kw : dict) (j : job) : Prop :=
    NoDup (akeys j) /\ placed g j /\
    (forall k, In k options -> alookup k j = option_map JVal (said m kw k)) /\
    (forall k, In k (akeys j) -> k = "grid" \/ k = "area" \/ In k options).
  (** The job of an array: the grid, and the method only (C41_array_refuted). *)
  Definition values_job (g : dict) (m : val) (j : job) : Prop :=
    NoDup (akeys j) /\ placed g j /\ alookup "interpolation" j = Some (JVal m) /\
    (forall k, In k (akeys j) -> k = "grid" \/ k = "area" \/ k = "interpolation").
  (** Arguments of the call that can be answered. *)
  Definition known_options (kw : dict) : Prop := forall k, In k (akeys kw) -> k = "inventory" \/ (In k options /\ k <> "interpolation").
  Definition proper_area (g : dict) : Prop := forall a, alookup "area" g = Some a -> exists t, area_text py_str a t.
  Definition hashable_inventory (kw : dict) : Prop := forall v, alookup "inventory" kw = Some v -> hashable v = true.

  Definition leftover (m : val) (kw : dict) : dict := ("interpolation", m) :: aremove "inventory" (aremove "backend" kw).
  Lemma leftover_lookup m kw k : alookup k (leftover m kw) =
    if String.eqb k "interpolation" then Some m else if String.eqb k "inventory" || String.eqb k "backend" then None else alookup k kw.
  Proof using.
    clear. unfold leftover. cbn [alookup]. destruct (String.eqb k "interpolation"); [reflexivity|]. destruct (String.eqb_spec k "inventory") as [->|N1]; [apply alookup_aremove_eq|].
    rewrite alookup_aremove_neq by congruence. destruct (String.eqb_spec k "backend") as [->|N2]; [apply alookup_aremove_eq|]. rewrite alookup_aremove_neq by congruence. reflexivity.
  Qed.
  Lemma options_plain k : In k options -> k <> "grid" /\ k <> "area" /\ k <> "inventory" /\ k <> "backend".
  Proof using. clear. cbn. intros H. repeat split; intros ->; intuition discriminate. Qed.
  Lemma said_leftover m kw k : In k options -> option_value (leftover m kw) k = said m kw k.
  Proof using.
    clear. intros I. destruct (options_plain k I) as (_ & _ & N1 & N2). unfold option_value, said. rewrite leftover_lookup. destruct (String.eqb k "interpolation"); [reflexivity|].
    destruct (String.eqb_spec k "inventory"); [contradiction|]. destruct (String.eqb_spec k "backend"); [contradiction|]. reflexivity.
  Qed.
  Lemma said_some m kw k : In k options -> exists v, said m kw k = Some v.
  Proof using.
    clear. intros I. unfold said. destruct (String.eqb k "interpolation"); [eauto|]. destruct (alookup k kw); [eauto|]. cbn in I. repeat (destruct I as [<-|I]; [cbn; eauto|]). destruct I.
  Qed.
  Lemma bind_leftover m kw : python_kwargs kw -> known_options kw -> exists opts, bind_options (leftover m kw) = Ok opts.
  Proof using.
    clear. intros (N & _ & B) K. unfold bind_options. assert (F : forallb (fun p => amem (fst p) signature) (leftover m kw) = true); [|rewrite F; eauto].
    apply forallb_forall. intros [k v] I. cbn [fst]. destruct I as [I|I]; [injection I as <- _; reflexivity|]. apply In_akeys in I. rewrite !aremove_keys_in in I.
    destruct I as [[I _] NI]. destruct (K k I) as [->|[O _]]; [congruence|]. cbn in O. unfold signature, amem. cbn [alookup].
    repeat (destruct O as [<-|O]; [reflexivity|]). destruct O.
  Qed.
  Lemma job_keys d : forall (j : job) k, In k (akeys (set_all j d)) -> In k (akeys j) \/ In k (akeys d).
  Proof using.
    clear. induction d as [|[k' v] d IH]; intros j k H; [left; exact H|]. cbn [set_all fold_left fst snd] in H. destruct (IH _ _ H) as [I|I].
    - destruct (alookup k j) eqn:L; [left; apply alookup_In in L; apply In_akeys in L; exact L|].
      destruct (alookup k (aset k' (JVal v) j)) eqn:L2; [|apply alookup_None in L2; contradiction]. rewrite alookup_aset in L2. destruct (String.eqb_spec k' k) as [->|]; [|congruence]. right. left. reflexivity.
    - right. right. exact I.
  Qed.
  Lemma job_nodup d : forall (j : job), NoDup (akeys j) -> NoDup (akeys (set_all j d)).
  Proof using. clear. induction d as [|[k v] d IH]; intros j N; [exact N|]. cbn [set_all fold_left fst snd]. apply IH. apply NoDup_aset. exact N. Qed.

  Lemma grib_asked g m kw : python_kwargs kw -> known_options kw -> proper_area g -> exists j, grib_job py_str g (leftover m kw) = Ok j /\ message_job g m kw j.
  Proof.
    intros PK KO PA. destruct (bind_leftover m kw PK KO) as [opts B]. destruct (bound _ _ B) as (L & K & _).
    assert (NK : NoDup (akeys opts)) by (rewrite K; repeat constructor; cbn; intuition discriminate).
    assert (IN : forall k, In k options -> existsb (String.eqb k) options = true) by (intros k I; apply existsb_exists; exists k; split; [exact I|apply String.eqb_refl]).
    unfold grib_job. rewrite B. cbn [bind]. unfold adjust_options. destruct (alookup "area" g) as [a|] eqn:AR.
    - destruct (PA a AR) as [t AT]. rewrite (proj2 (area_spec py_str a t) AT). cbn [bind fst snd]. eexists. split; [reflexivity|].
      assert (NA : NoDup (akeys (aset "area" t opts))) by (apply NoDup_aset; exact NK).
      split; [apply job_nodup; repeat constructor; cbn; tauto|]. split; [|split].
      + unfold placed. rewrite AR. exists t. split; [exact AT|]. rewrite !lookup_set_all, !alookup_aset by exact NA. cbn [String.eqb Ascii.eqb Bool.eqb]. rewrite L. split; reflexivity.
      + intros k I. destruct (options_plain k I) as (N1 & N2 & _). rewrite lookup_set_all, alookup_aset by exact NA. destruct (String.eqb_spec "area" k); [congruence|]. rewrite L, (IN k I), (said_leftover m kw k I).
        destruct (said_some m kw k I) as [v ->]. reflexivity.
      + intros k I. destruct (job_keys _ _ _ I) as [J|J]; [cbn in J; destruct J as [<-|[]]; auto|]. destruct (alookup k (aset "area" t opts)) eqn:Q; [|apply alookup_None in Q; contradiction].
        rewrite alookup_aset in Q. destruct (String.eqb_spec "area" k) as [<-|]; [auto|]. apply alookup_In in Q. apply In_akeys in Q. rewrite K in Q. auto.
    - cbn [bind fst snd]. eexists. split; [reflexivity|]. split; [apply job_nodup; repeat constructor; cbn; tauto|]. split; [|split].
      + unfold placed. rewrite AR. rewrite !lookup_set_all by exact NK. rewrite !L. split; reflexivity.
      + intros k I. rewrite lookup_set_all by exact NK. rewrite L, (IN k I), (said_leftover m kw k I). destruct (said_some m kw k I) as [v ->]. reflexivity.
      + intros k I. destruct (job_keys _ _ _ I) as [J|J]; [cbn in J; destruct J as [<-|[]]; auto|]. rewrite K in J. auto.
  Qed.
  Lemma array_asked g m kw : python_kwargs kw -> known_options kw -> proper_area g -> exists j, array_job py_str g (leftover m kw) = Ok j /\ values_job g m j.
  Proof.
    intros PK KO PA. destruct (bind_leftover m kw PK KO) as [opts B]. destruct (bound _ _ B) as (L & K & _).
    unfold array_job. rewrite B. cbn [bind]. unfold adjust_options, dget. rewrite L. cbn [existsb options String.eqb Ascii.eqb Bool.eqb orb].
    rewrite (said_leftover m kw "interpolation") by (left; reflexivity). unfold said. cbn [String.eqb Ascii.eqb Bool.eqb].
    destruct (alookup "area" g) as [a|] eqn:AR.
    - destruct (PA a AR) as [t AT]. rewrite (proj2 (area_spec py_str a t) AT). cbn [bind fst snd]. eexists. split; [reflexivity|].
      split; [cbn; repeat constructor; cbn; intuition discriminate|]. split; [unfold placed; rewrite AR; exists t; split; [exact AT|split; reflexivity]|]. split; [reflexivity|].
      intros k I. cbn in I. intuition auto.
    - cbn [bind fst snd]. eexists. split; [reflexivity|].
      split; [cbn; repeat constructor; cbn; intuition discriminate|]. split; [unfold placed; rewrite AR; split; reflexivity|]. split; [reflexivity|].
      intros k I. cbn in I. intuition auto.
  Qed.
End Asked.

Section Calls.
  Context {A S E field : Type}.
  Variables (zero : A) (add mul : A -> A -> A).
  Variable find : E -> database -> dict -> dict -> val -> S -> S * result (option (weights A)).
  Variable py_str : val -> string.
  Variable run_grib : string -> job -> result string.
  Variable run_array : array A -> option dict -> job -> result (array A * dict).
  Variable field_values : field -> result (array A).
  Variable field_grid : field -> result (option dict).
  Variable field_with : field -> array A -> dict -> result field.
  Variable field_message : field -> result string.
  Variable message_field : string -> result field.
  Notation mir_grib := (mir_grib py_str run_grib).
  Notation mir_array := (mir_array py_str run_array).
  Notation array_regrid := (array_regrid zero add mul find mir_array).
  Notation regrid_call := (regrid_call zero add mul find mir_array mir_grib field_values field_grid field_with field_message message_field).
  Notation pafter := (pafter zero add mul find mir_array mir_grib field_values field_grid field_with field_message message_field).
  Notation grib_fields := (grib_fields mir_grib field_message message_field).
  Implicit Types (s : api S) (x : E).

  Lemma mir_object m kw s : fine (p_maker s) -> python_kwargs kw -> hashable_inventory kw ->
    exists s1 o, backend_of (("interpolation", m) :: ("backend", VStr "mir") :: kw) s = (s1, Ok (o, leftover m kw)) /\ p_sys s1 = p_sys s /\ is_mir o = true.
  Proof using.
    clear. intros F PK HI. set (all := ("interpolation", m) :: ("backend", VStr "mir") :: kw).
    assert (B : exists b_kw, backend_from_kwargs all = Ok (VStr "mir", b_kw, leftover m kw) /\ one_arg b_kw /\ forallb (fun p => hashable (snd p)) b_kw = true).
    { unfold backend_from_kwargs, pop, all. cbn [alookup aremove String.eqb Ascii.eqb Bool.eqb OPTIONAL_BACKENDS_KWARGS fold_left].
      destruct (alookup "inventory" (aremove "backend" kw)) as [v|] eqn:L.
      - exists [("inventory", v)]. split; [reflexivity|]. split; [right; eauto|]. cbn [forallb snd]. rewrite alookup_aremove_neq in L by discriminate. rewrite (HI v L). reflexivity.
      - exists []. split; [unfold leftover; rewrite (aremove_notin "inventory" (aremove "backend" kw) (proj1 (alookup_None _ _) L)); reflexivity|]. split; [left; reflexivity|reflexivity]. }
    destruct B as (b_kw & B & OA & HS). unfold backend_of, seq_act, lift. rewrite B. unfold named_backend.
    destruct (get_fine (p_maker s) "mir" b_kw F OA) as (_ & K & R). rewrite HS in R. cbn [negb] in R.
    change (existsb (String.eqb "mir") BACKENDS) with true in R. change (construct "mir" b_kw) with (Ok tt) in R. cbv iota in R.
    destruct (get_backend BACKENDS construct (p_maker s) "mir" b_kw) as [m1 [o|e|]]; cbn [fst snd related] in *; try contradiction.
    eexists _, o. split; [reflexivity|]. split; [reflexivity|]. unfold is_mir. rewrite (proj1 (K o eq_refl)). reflexivity.
  Qed.

  (** ** C132 *)
  (** A message is given to MIR as it is, with a job of the grid and every option of the call; what MIR
      writes is returned.  No inventory is looked at. *)
  Theorem C132_message g m kw : python_kwargs kw -> known_options kw -> hashable_inventory kw -> proper_area py_str g ->
    exists j, message_job py_str g m kw j /\ forall y0 h x b,
      let called := regrid_call x (DMessage b) (Some g) m (VStr "mir") kw (pafter y0 h) in
      p_sys (fst called) = p_sys (pafter y0 h) /\
      snd called = match run_grib b j with Ok r => Ok (DMessage r) | Raise e => Raise e | OutOfFuel => OutOfFuel end.
  Proof.
    intros PK KO HI PA. destruct (grib_asked py_str g m kw PK KO PA) as (j & J & MJ). exists j. split; [exact MJ|]. intros y0 h x b. cbv zeta.
    pose proof (after_fine zero add mul find mir_array mir_grib field_values field_grid field_with field_message message_field y0 h) as F.
    destruct (mir_object m kw _ F PK HI) as (s1 & o & B & PS & IM). unfold Api.regrid_call, seq_act. rewrite B. cbn [fst snd]. rewrite IM. unfold lift. cbn [fst snd].
    split; [exact PS|]. unfold MirCalls.mir_grib. rewrite J. cbn [bind]. destruct (run_grib b j); reflexivity.
  Qed.

  (** What becomes of one field, and how it may fail. *)
  Definition remade (j : job) (f r : field) : Prop :=
    exists b out, field_message f = Ok b /\ run_grib b j = Ok out /\ message_field out = Ok r.
  Definition stops {X} (r : result X) (e : result field) : Prop := (exists z, r = Raise z /\ e = Raise z) \/ (r = OutOfFuel /\ e = OutOfFuel).
  Inductive failing (j : job) (f : field) (e : result field) : Prop :=
  | f_message : stops (field_message f) e -> failing j f e
  | f_mir b : field_message f = Ok b -> stops (run_grib b j) e -> failing j f e
  | f_field b out : field_message f = Ok b -> run_grib b j = Ok out -> stops (message_field out) e -> failing j f e.
  Inductive fields_outcome (j : job) (fs : list field) : result (list field) -> Prop :=
  | fo_all rs : Forall2 (remade j) fs rs -> fields_outcome j fs (Ok rs)
  | fo_raise before f after rs z : fs = before ++ f :: after -> Forall2 (remade j) before rs -> failing j f (Raise z) -> fields_outcome j fs (Raise z)
  | fo_fuel before f after rs : fs = before ++ f :: after -> Forall2 (remade j) before rs -> failing j f OutOfFuel -> fields_outcome j fs OutOfFuel.

  Lemma stops_raise {X} z : stops (X := X) (Raise z) (Raise z). Proof using. clear. left. eauto. Qed.
  Lemma stops_fuel {X} : stops (X := X) OutOfFuel OutOfFuel. Proof using. clear. right. auto. Qed.
  Lemma fields_run j g kw : grib_job py_str g kw = Ok j -> forall fs before rs, Forall2 (remade j) before rs ->
    fields_outcome j (before ++ fs) (grib_fields kw g fs rs).
  Proof.
    intros J. induction fs as [|f fs IH]; intros before rs D; cbn [Api.grib_fields]; [rewrite app_nil_r; constructor; exact D|].
    destruct (field_message f) as [b|x|] eqn:FM; cbn [bind].
    2:{ eapply fo_raise; [reflexivity|exact D|]. apply f_message. rewrite FM. apply stops_raise. }
    2:{ eapply fo_fuel; [reflexivity|exact D|]. apply f_message. rewrite FM. apply stops_fuel. }
    unfold MirCalls.mir_grib. rewrite J. cbn [bind]. destruct (run_grib b j) as [out|x|] eqn:RG; cbn [bind].
    2:{ eapply fo_raise; [reflexivity|exact D|]. eapply f_mir; [exact FM|]. rewrite RG. apply stops_raise. }
    2:{ eapply fo_fuel; [reflexivity|exact D|]. eapply f_mir; [exact FM|]. rewrite RG. apply stops_fuel. }
    destruct (message_field out) as [r|x|] eqn:MF; cbn [bind].
    2:{ eapply fo_raise; [reflexivity|exact D|]. eapply f_field; [exact FM|exact RG|]. rewrite MF. apply stops_raise. }
    2:{ eapply fo_fuel; [reflexivity|exact D|]. eapply f_field; [exact FM|exact RG|]. rewrite MF. apply stops_fuel. }
    replace (before ++ f :: fs) with ((before ++ [f]) ++ fs) by (rewrite <- app_assoc; reflexivity). apply IH. apply Forall2_app; [exact D|]. constructor; [|constructor]. exists b, out. auto.
  Qed.
  (** Lists of fields: each field, in order, through its message, all with one job; the first that fails
      ends the call. *)
  Theorem C132_fields g m kw : python_kwargs kw -> known_options kw -> hashable_inventory kw -> proper_area py_str g ->
    exists j, message_job py_str g m kw j /\ forall y0 h x fs,
      let called := regrid_call x (DFields fs) (Some g) m (VStr "mir") kw (pafter y0 h) in
      p_sys (fst called) = p_sys (pafter y0 h) /\
      exists r, snd called = (l <- r ;; Ok (DFields l)) /\ fields_outcome j fs r.
  Proof.
    intros PK KO HI PA. destruct (grib_asked py_str g m kw PK KO PA) as (j & J & MJ). exists j. split; [exact MJ|]. intros y0 h x fs. cbv zeta.
    pose proof (after_fine zero add mul find mir_array mir_grib field_values field_grid field_with field_message message_field y0 h) as F.
    destruct (mir_object m kw _ F PK HI) as (s1 & o & B & PS & IM). unfold Api.regrid_call, Api.fields_regrid, seq_act. rewrite B. cbn [fst snd]. rewrite IM. unfold lift.
    pose proof (fields_run j g (leftover m kw) J fs [] [] (Forall2_nil _)) as O. cbn [app] in O. destruct (grib_fields (leftover m kw) g fs []) as [l|e|]; (split; [exact PS|]); eexists; (split; [|exact O]); reflexivity.
  Qed.
  (** One field is a list of one. *)
  Theorem C132_field g m kw : python_kwargs kw -> known_options kw -> hashable_inventory kw -> proper_area py_str g ->
    exists j, message_job py_str g m kw j /\ forall y0 h x f,
      let called := regrid_call x (DField f) (Some g) m (VStr "mir") kw (pafter y0 h) in
      p_sys (fst called) = p_sys (pafter y0 h) /\
      ((exists r, snd called = Ok (DField r) /\ remade j f r) \/ (exists e, snd called = Raise e /\ failing j f (Raise e)) \/ (snd called = OutOfFuel /\ failing j f OutOfFuel)).
  Proof.
    intros PK KO HI PA. destruct (grib_asked py_str g m kw PK KO PA) as (j & J & MJ). exists j. split; [exact MJ|]. intros y0 h x f. cbv zeta.
    pose proof (after_fine zero add mul find mir_array mir_grib field_values field_grid field_with field_message message_field y0 h) as F.
    destruct (mir_object m kw _ F PK HI) as (s1 & o & B & PS & IM). unfold Api.regrid_call, Api.fields_regrid, seq_act. rewrite B. cbn [fst snd]. rewrite IM. unfold lift.
    pose proof (fields_run j g (leftover m kw) J [f] [] [] (Forall2_nil _)) as O. cbn [app] in O.
    assert (ONE : forall before f0 after, [f] = before ++ f0 :: after -> f0 = f). { clear. intros [|a [|b c]] f1 after Q; [injection Q as -> _; reflexivity|discriminate Q..]. }
    destruct (grib_fields (leftover m kw) g [f] []) as [l|e|]; cbn [fst snd]; (split; [exact PS|]); inversion O; subst.
    - left. match goal with H : Forall2 _ _ _ |- _ => inversion H as [|? r ? l' R1 R2]; subst; inversion R2; subst end. exists r. split; [reflexivity|exact R1].
    - right. left. exists e. split; [reflexivity|]. match goal with H : [f] = _ |- _ => apply ONE in H; subst end. assumption.
    - right. right. split; [reflexivity|]. match goal with H : [f] = _ |- _ => apply ONE in H; subst end. assumption.
  Qed.
  (** Arrays: the values and their grid as they are, a job of the grid and the method; the values and the
      grid that MIR gives are returned. *)
  Theorem C132_array g m kw : python_kwargs kw -> known_options kw -> hashable_inventory kw -> proper_area py_str g ->
    exists j, values_job py_str g m j /\ forall y0 h x values in_grid,
      let called := array_regrid x values in_grid (Some g) m (VStr "mir") kw (pafter y0 h) in
      p_sys (fst called) = p_sys (pafter y0 h) /\ snd called = run_array values in_grid j.
  Proof.
    intros PK KO HI PA. destruct (array_asked py_str g m kw PK KO PA) as (j & J & MJ). exists j. split; [exact MJ|]. intros y0 h x values i. cbv zeta.
    pose proof (after_fine zero add mul find mir_array mir_grib field_values field_grid field_with field_message message_field y0 h) as F.
    destruct (mir_object m kw _ F PK HI) as (s1 & o & B & PS & IM). unfold Api.array_regrid, seq_act. rewrite B. cbn [fst snd]. unfold backend_regrid. rewrite IM. unfold lift. cbn [fst snd].
    split; [exact PS|]. unfold MirCalls.mir_array. rewrite J. reflexivity.
  Qed.

  (** What cannot be answered is refused, and MIR is not run: options that are unknown, areas that are no
      areas, a missing grid, an inventory that cannot be looked up.  An empty list of fields is returned
      whatever the options are. *)
  Lemma bind_refused m kw k : In k (akeys kw) -> k <> "inventory" -> k <> "backend" -> ~ In k options -> bind_options (leftover m kw) = Raise TypeError.
  Proof using.
    clear. intros I N1 N2 NO. unfold bind_options. destruct (forallb _ (leftover m kw)) eqn:F; [|reflexivity]. exfalso. rewrite forallb_forall in F.
    assert (J : In k (akeys (leftover m kw))). { right. apply aremove_keys_in. split; [apply aremove_keys_in; split; [exact I|exact N2]|exact N1]. }
    destruct (alookup k (leftover m kw)) as [v|] eqn:LK; [|apply alookup_None in LK; contradiction]. apply alookup_In in LK. specialize (F _ LK). cbn [fst] in F. apply NO. unfold amem, signature in F. cbn [alookup] in F. cbn.
    repeat match type of F with context [String.eqb k ?c] => destruct (String.eqb_spec k c) as [->|]; [tauto|] end. discriminate F.
  Qed.
  Inductive unanswerable (grid : option dict) (m : val) (kw : dict) : exn -> Prop :=
  | u_option k : In k (akeys kw) -> k <> "inventory" -> ~ In k options -> unanswerable grid m kw TypeError
  | u_area g a : known_options kw -> grid = Some g -> alookup "area" g = Some a -> (forall t, ~ area_text py_str a t) -> unanswerable grid m kw ValueError
  | u_grid : known_options kw -> grid = None -> unanswerable grid m kw TypeError.
  Lemma jobs_refused grid m kw e : python_kwargs kw -> unanswerable grid m kw e ->
    (forall b, mir_grib b grid (leftover m kw) = Raise e) /\ (forall v i, mir_array v i grid (leftover m kw) = Raise e).
  Proof.
    intros PK [k I N NO|g a KO -> AR NT|KO ->].
    - assert (NB : k <> "backend") by (intros ->; exact (proj2 (proj2 PK) I)). pose proof (bind_refused m kw k I N NB NO) as B.
      unfold MirCalls.mir_grib, MirCalls.mir_array, grib_job, array_job. rewrite B. destruct grid; split; reflexivity.
    - destruct (bind_leftover m kw PK KO) as [opts B]. unfold MirCalls.mir_grib, MirCalls.mir_array, grib_job, array_job. rewrite B. cbn [bind]. unfold adjust_options. rewrite AR.
      assert (X : normalise_area py_str a = Raise ValueError).
      { destruct (normalise_area py_str a) as [t|x|] eqn:T; [destruct (NT t); apply area_spec; exact T| |]; (destruct a; cbn in T; try discriminate T; try (destruct (_ =? _)%nat in T); try discriminate T; congruence). }
      rewrite X. split; reflexivity.
    - split; reflexivity.
  Qed.
  Theorem C132_refused y0 h x grid m kw e : python_kwargs kw -> hashable_inventory kw -> unanswerable grid m kw e ->
    (forall b, snd (regrid_call x (DMessage b) grid m (VStr "mir") kw (pafter y0 h)) = Raise e) /\
    (forall values i, snd (array_regrid x values i grid m (VStr "mir") kw (pafter y0 h)) = Raise e) /\
    (forall f fs, exists e', snd (regrid_call x (DFields (f :: fs)) grid m (VStr "mir") kw (pafter y0 h)) = e' /\
       (e' = Raise e \/ (grid = None /\ e' = Raise ValueError) \/ (exists z, field_message f = Raise z /\ e' = Raise z) \/ (field_message f = OutOfFuel /\ e' = OutOfFuel))).
  Proof.
    intros PK HI U. destruct (jobs_refused grid m kw e PK U) as [JG JA].
    pose proof (after_fine zero add mul find mir_array mir_grib field_values field_grid field_with field_message message_field y0 h) as F.
    destruct (mir_object m kw _ F PK HI) as (s1 & o & B & PS & IM). split; [|split].
    - intros b. unfold Api.regrid_call, seq_act. rewrite B. cbn [fst snd]. rewrite IM. unfold lift. cbn [snd]. rewrite JG. reflexivity.
    - intros v i. unfold Api.array_regrid, seq_act. rewrite B. cbn [fst snd]. unfold backend_regrid. rewrite IM. unfold lift. cbn [snd]. apply JA.
    - intros f fs. eexists. split; [reflexivity|]. unfold Api.regrid_call, Api.fields_regrid, seq_act. rewrite B. cbn [fst snd]. destruct grid as [g|]; [|right; left; split; reflexivity].
      rewrite IM. unfold lift. cbn [Api.grib_fields]. destruct (field_message f) as [b|z|] eqn:FM; cbn [bind snd]; [|right; right; left; exists z; split; reflexivity|right; right; right; split; reflexivity].
      rewrite JG. cbn [bind snd]. left. reflexivity.
  Qed.
  Theorem C132_inventory y0 h x grid m kw v : python_kwargs kw -> alookup "inventory" kw = Some v -> hashable v = false ->
    (forall b, snd (regrid_call x (DMessage b) grid m (VStr "mir") kw (pafter y0 h)) = Raise TypeError) /\
    (forall values i, snd (array_regrid x values i grid m (VStr "mir") kw (pafter y0 h)) = Raise TypeError) /\
    (forall fs, snd (regrid_call x (DFields fs) grid m (VStr "mir") kw (pafter y0 h)) = Raise TypeError).
  Proof.
    intros PK L HV.
    assert (B : snd (backend_of (("interpolation", m) :: ("backend", VStr "mir") :: kw) (pafter y0 h)) = Raise TypeError).
    { unfold backend_of, seq_act, lift, backend_from_kwargs, pop. cbn [alookup aremove String.eqb Ascii.eqb Bool.eqb OPTIONAL_BACKENDS_KWARGS fold_left].
      rewrite (alookup_aremove_neq) by discriminate. rewrite L. cbn [app]. unfold named_backend, get_backend. cbn [make_key key_hashable forallb snd]. rewrite HV. reflexivity. }
    unfold Api.regrid_call, Api.array_regrid, Api.fields_regrid, seq_act.
    destruct (backend_of (("interpolation", m) :: ("backend", VStr "mir") :: kw) (pafter y0 h)) as [s1 r]. cbn [snd] in B. subst r. repeat split.
  Qed.
End Calls.

(** ** The hypotheses are met *)
(** Messages say how often they were regridded, MIR refuses one of them. *)
Definition tally (b : string) (j : job) : result string :=
  if String.eqb b "bad" then Raise RuntimeError
  else Ok (b ++ match alookup "interpolation" j with Some (JVal (VStr t)) => t | _ => "?" end ++ match alookup "area" j with Some (JVal (VStr t)) => t | _ => "" end)%string.
Notation tally_after := (pafter (field := string) 0 Z.add Z.mul toy_find (MirCalls.mir_array (fun _ => "5") (fun v _ _ => Ok (v, []))) (MirCalls.mir_grib (fun _ => "5") tally)
  (fun _ => Raise ValueError) (fun _ => Raise ValueError) (fun _ _ _ => Raise ValueError) (fun f => Ok f) (fun b => Ok b) 0).
Notation tally_call := (regrid_call (field := string) 0 Z.add Z.mul toy_find (MirCalls.mir_array (fun _ => "5") (fun v _ _ => Ok (v, []))) (MirCalls.mir_grib (fun _ => "5") tally)
  (fun _ => Raise ValueError) (fun _ => Raise ValueError) (fun _ _ _ => Raise ValueError) (fun f => Ok f) (fun b => Ok b)).
Definition tally_grid : dict := [("grid", VStr "O32"); ("area", VList [VInt 9; VInt 0; VInt 0; VInt 9])].
Definition tally_options : dict := [("nclosest", VInt 7); ("inventory", VStr "a")].
Example C132_met :
  python_kwargs tally_options /\ known_options tally_options /\ hashable_inventory tally_options /\ proper_area (fun _ => "5") tally_grid /\
  snd (tally_call tt (DFields ["a"; "b"]) (Some tally_grid) (VStr "nn") (VStr "mir") tally_options (tally_after [PRegrid tt (DMessage "c") (Some tally_grid) (VStr "nn") (VStr "mir") []])) = Ok (DFields ["ann5/5/5/5"; "bnn5/5/5/5"]) /\
  snd (tally_call tt (DFields ["a"; "bad"; "b"]) (Some tally_grid) (VStr "nn") (VStr "mir") tally_options (tally_after [])) = Raise RuntimeError.
Proof.
  split. { split; [cbn; repeat (apply NoDup_cons; [cbn; intuition discriminate|]); apply NoDup_nil|]. cbn. intuition discriminate. }
  split. { intros k [<-|[<-|[]]]; [right; split; [cbn; tauto|discriminate]|left; reflexivity]. }
  split. { intros v H. cbn in H. injection H as <-. reflexivity. }
  split. { intros a H. cbn in H. injection H as <-. eexists. apply (a_list _ (VInt 9) (VInt 0) (VInt 0) (VInt 9)). }
  split; vm_compute; reflexivity.
Qed.
Example C132_refused_met :
  unanswerable (fun _ => "5") (Some tally_grid) (VStr "nn") [("nprocs", VInt 7)] TypeError /\
  unanswerable (fun _ => "5") (Some [("area", VList [VInt 9])]) (VStr "nn") [] ValueError /\
  snd (tally_call tt (DMessage "a") (Some tally_grid) (VStr "nn") (VStr "mir") [("nprocs", VInt 7)] (tally_after [])) = Raise TypeError /\
  snd (tally_call tt (DFields []) (Some tally_grid) (VStr "nn") (VStr "mir") [("nprocs", VInt 7)] (tally_after [])) = Ok (DFields []) /\
  hashable (VList [VStr "a"]) = false.
Proof.
  split; [apply (u_option _ _ _ _ "nprocs"); [left; reflexivity|discriminate|cbn; intuition discriminate]|].
  split; [apply (u_area _ _ _ _ [("area", VList [VInt 9])] (VList [VInt 9])); [intros k []|reflexivity|reflexivity|intros t H; inversion H]|].
  split; [vm_compute; reflexivity|]. split; vm_compute; reflexivity.
Qed.

Print Assumptions C132_message.
Print Assumptions C132_fields.
Print Assumptions C132_field.
Print Assumptions C132_array.
Print Assumptions C132_refused.
Print Assumptions C132_inventory.
