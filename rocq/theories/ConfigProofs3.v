(** Proofs about Config.v: several settings at once, environment, restart, observers. *)
From Verif Require Import PyBase ListLemmas PyStr Humanize HumanizeSpec HumanizeProofs Config ConfigSpec ConfigProofs ConfigProofs2.

Local Open Scope string_scope.
Local Open Scope list_scope.
Local Open Scope Z_scope.
Set Default Proof Using "Type".

Section ConfigProofs3.
  Variable Obj : Type.
  Variable obj_str : Obj -> string.
  Variable obj_bool : Obj -> bool.
  Variable obj_yaml : Obj -> bool.
  Variable home : string.
  Variable writable : string -> bool.
  Variable version : string.
  Variable ObsSt : Type.
  Variable obs : nat -> (string -> result (value Obj)) -> ObsSt -> ObsSt * result unit.

  Notation value := (value Obj).
  Notation st := (st Obj ObsSt).
  Notation conf := (conf Obj).
  Notation options := (options Obj home).
  Notation defaults := (defaults Obj home).
  Notation checked := (checked Obj obj_str obj_bool home).
  Notation set_many := (set_many Obj obj_str obj_bool home).
  Notation set_vals := (set_vals Obj obj_str obj_bool home).
  Notation get_in := (get_in Obj obj_str home).
  Notation means := (means obj_str obj_bool).
  Notation str := (str_of Obj obj_str).
  Notation changed := (changed Obj obj_str home writable version ObsSt obs).
  Notation do_set := (do_set Obj obj_str obj_bool home writable version ObsSt obs).
  Notation do_reset := (do_reset Obj obj_str home writable version ObsSt obs).
  Notation exec := (exec Obj obj_str obj_bool home writable version ObsSt obs).
  Notation notify := (notify Obj obj_str home ObsSt obs).
  Notation with_top := (with_top Obj ObsSt).
  Notation get := (get Obj obj_str home ObsSt).
  Notation same := (same Obj ObsSt).
  Notation dumped := (dumped Obj home version).
  Notation load := (load Obj obj_yaml home version).
  Notation start := (start Obj obj_yaml home writable version ObsSt).
  Notation read := (read Obj obj_str home).
  Notation WF := (WF Obj home).
  Notation savable := (savable Obj obj_yaml).
  Notation readable := (readable Obj obj_str home).
  Notation allP := (allP Obj ObsSt).

  Ltac by_option H := cbn in H; repeat (destruct H as [<-|H]); [..|contradiction].

  Lemma documented_opt n : In n documented -> exists o, alookup n options = Some o.
  Proof.
    intros H. apply (documented_options Obj home) in H. destruct (alookup n options) as [o|] eqn:E; [eauto|].
    apply alookup_None in E. contradiction.
  Qed.

  (** ** several settings at once *)
  Lemma set_many_get kvs : forall vs vs', set_many kvs vs = (vs', Ok tt) -> forall n,
    match last_value n kvs with
    | None => alookup n vs' = alookup n vs
    | Some v => exists w m, means n v m /\ alookup n vs' = Some w /\ read n w = Ok m
    end.
  Proof.
    induction kvs as [|[k v] kvs IH]; intros vs vs' H n.
    - cbn in H. inversion H; subst. reflexivity.
    - rewrite set_many_cons in H. destruct (checked k [v] 0) as [w|e|] eqn:EC; try discriminate.
      specialize (IH _ _ H n). cbn [last_value]. destruct (last_value n kvs) as [x|]; [exact IH|].
      destruct (String.eqb_spec n k) as [->|N].
      + rewrite alookup_aset_eq in IH.
        assert (HD : In k documented) by (apply checked_args in EC; destruct EC as (? & _ & _ & X); exact X).
        destruct (checked_spec Obj obj_str obj_bool home k v HD) as [(w' & m & A & B & C)|(A & _)]; [|congruence].
        exists w', m. split; [exact B|]. split; [congruence|exact C].
      + rewrite IH. apply alookup_aset_neq. congruence.
  Qed.

  Lemma after_set a s s' vs n r : set_vals a (vals (top s)) = (vs, n) ->
    do_set a s = (s', r) -> forall k, get s' k = get_in vs (environ s) k.
  Proof.
    unfold Config.do_set. intros -> H k.
    pose proof (with_top_fields _ _ s (mkConf vs (path (top s)))) as (_ & _ & _ & E & _).
    destruct n as [n|e|].
    - apply changed_same in H. destruct H as [H _].
      rewrite (same_get _ _ _ _ _ _ H). unfold Config.get. rewrite with_top_top, E. reflexivity.
    - inversion H; subst. unfold Config.get. rewrite with_top_top, E. reflexivity.
    - inversion H; subst. unfold Config.get. rewrite with_top_top, E. reflexivity.
  Qed.

  (** [get] after the settings [kvs] have been stored. *)
  Definition got (s s' : st) (kvs : list (string * value)) : Prop := forall n,
    match last_value n kvs with
    | None => get s' n = get s n
    | Some v => exists m, means n v m /\
        (alookup (env_var_name n) (environ s) = None -> get s' n = Ok m)
    end.

  Lemma set_many_got kvs s s' vs : set_many kvs (vals (top s)) = (vs, Ok tt) ->
    (forall k, get s' k = get_in vs (environ s) k) -> got s s' kvs.
  Proof. clear writable.
    intros H HG n. pose proof (set_many_get _ _ _ H n) as X.
    destruct (last_value n kvs) as [v|].
    - destruct X as (w & m & A & B & C). exists m. split; [exact A|]. intros HE.
      rewrite HG, get_in_read, HE, B, C.
      assert (HD : In n documented). { inversion A; subst; cbn in *; intuition (subst; auto 20). }
      destruct (documented_opt n HD) as (o & ->). reflexivity.
    - rewrite HG. unfold Config.get. rewrite !get_in_read, X. reflexivity.
  Qed.

  Lemma set_dict_cases kvs s s' r : do_set (SetDict kvs) s = (s', r) ->
    (Forall (fun kv => exists m, means (fst kv) (snd kv) m) kvs /\ got s s' kvs) \/
    (exists done k v rest e, kvs = done ++ (k, v) :: rest /\ r = Raise e /\
       Forall (fun kv => exists m, means (fst kv) (snd kv) m) done /\
       (e = KeyError /\ ~ In k documented \/ e = ValueError /\ In k documented /\ forall m, ~ means k v m) /\
       got s s' done).
  Proof.
    intros H.
    destruct (set_many_cases Obj obj_str obj_bool home kvs (vals (top s)))
      as [(vs & A & B)|(done & k & v & rest & vs & e & A & B & C & D & E)].
    - left. split; [exact B|]. eapply set_many_got; [exact A|].
      eapply (after_set (SetDict kvs)); [|exact H]. cbn [Config.set_vals]. rewrite A. reflexivity.
    - right. exists done, k, v, rest, e. split; [exact A|].
      assert (HV : set_vals (SetDict kvs) (vals (top s)) = (vs, Raise e)) by (cbn [Config.set_vals]; rewrite C; reflexivity).
      split; [unfold Config.do_set in H; rewrite HV in H; inversion H; reflexivity|].
      split; [exact D|]. split; [exact E|]. eapply set_many_got; [exact B|].
      eapply (after_set (SetDict kvs)); [exact HV|exact H].
  Qed.

  Lemma set_kw_cases kvs0 s s' r : kvs0 <> [] -> do_set (SetKw kvs0) s = (s', r) ->
    let kvs := map (fun p => (replace1 "_" "-" (fst p), snd p)) kvs0 in
    (Forall (fun kv => exists m, means (fst kv) (snd kv) m) kvs /\ got s s' kvs) \/
    (exists done k v rest e, kvs = done ++ (k, v) :: rest /\ r = Raise e /\
       Forall (fun kv => exists m, means (fst kv) (snd kv) m) done /\
       (e = KeyError /\ ~ In k documented \/ e = ValueError /\ In k documented /\ forall m, ~ means k v m) /\
       got s s' done).
  Proof.
    intros HNe H kvs.
    destruct (set_many_cases Obj obj_str obj_bool home kvs (vals (top s)))
      as [(vs & A & B)|(done & k & v & rest & vs & e & A & B & C & D & E)].
    - left. split; [exact B|]. eapply set_many_got; [exact A|].
      eapply (after_set (SetKw kvs0)); [|exact H]. cbn [Config.set_vals]. destruct kvs0; [contradiction|].
      fold kvs. rewrite A. reflexivity.
    - right. exists done, k, v, rest, e. split; [exact A|].
      assert (HV : set_vals (SetKw kvs0) (vals (top s)) = (vs, Raise e)).
      { cbn [Config.set_vals]. destruct kvs0; [contradiction|]. fold kvs. rewrite C. reflexivity. }
      split; [unfold Config.do_set in H; rewrite HV in H; inversion H; reflexivity|].
      split; [exact D|]. split; [exact E|]. eapply set_many_got; [exact B|].
      eapply (after_set (SetKw kvs0)); [exact HV|exact H].
  Qed.

  (** ** the meaning is unique *)
  Lemma quantity_unique n f t z z' : factor_of n = Some f -> quantity f t z -> quantity f t z' -> z = z'.
  Proof.
    unfold factor_of. intros HF A B.
    destruct (existsb _ _); [|destruct (String.eqb n _); [|destruct (String.eqb n _); [|discriminate]]];
      inversion HF; subst f.
    - apply (as_number_ok _ _ byte_table t _ true) in A. apply (as_number_ok _ _ byte_table t _ true) in B. congruence.
    - apply (as_number_ok _ _ percent_table t _ true) in A. apply (as_number_ok _ _ percent_table t _ true) in B. congruence.
    - apply (as_number_ok _ _ second_table t _ true) in A. apply (as_number_ok _ _ second_table t _ true) in B. congruence.
  Qed.
  Lemma means_inv n v m : means n v m ->
    match factor_of n with
    | Some f => v = VNone /\ m = VNone \/ v <> VNone /\ exists z, m = VInt z /\ quantity f (str v) z
    | None => if existsb (String.eqb n) flag_options then m = VBool (truth Obj obj_bool v)
              else if existsb (String.eqb n) root_options
                   then v = VNone /\ m = VNone \/ v <> VNone /\ m = VStr (str v)
                   else m = VStr (str v)
    end.
  Proof.
    destruct 1 as [v|n H|n v H HN|v H|v H|n H|n v z H HN HQ| |v z HN HQ|v z HN HQ|n v b H HB]; cbn;
      try (cbn in H; repeat (destruct H as [<-|H]; [|]); try contradiction; cbn); eauto 8; f_equal; apply flag_unique, HB.
  Qed.
  Lemma means_unique n v m m' : means n v m -> means n v m' -> m = m'.
  Proof.
    intros A B. apply means_inv in A, B. pose proof (quantity_unique n) as HU.
    destruct (factor_of n) as [f|].
    - destruct A as [[A1 A2]|(A1 & z & A2 & A3)], B as [[B1 B2]|(B1 & z' & B2 & B3)]; try congruence.
      subst. f_equal. eapply HU; [reflexivity|eassumption|eassumption].
    - destruct (existsb _ flag_options); [congruence|]. destruct (existsb _ root_options); [|congruence].
      destruct A as [[A1 A2]|(A1 & A2)], B as [[B1 B2]|(B1 & B2)]; congruence.
  Qed.

  (** ** environment *)
  Lemma env_read n t : In n documented ->
    match factor_of n with
    | None => read n (VStr t) = Ok (VStr t)
    | Some f => (exists z, quantity f t z /\ read n (VStr t) = Ok (VInt z)) \/
                ((forall z, ~ quantity f t z) /\ read n (VStr t) = Raise ValueError)
    end.
  Proof.
    intros HD. cbn in HD.
    assert (NV : @VStr Obj t <> VNone) by discriminate.
    repeat (destruct HD as [<-|HD]); try contradiction; cbn; try reflexivity.
    - destruct (num_cases Obj obj_str percent_factor _ percent_table (VStr t) NV) as [(z & A & B & C)|(A & B & C)]; [left; eauto|right; auto].
    - destruct (num_cases Obj obj_str second_factor _ second_table (VStr t) NV) as [(z & A & B & C)|(A & B & C)]; [left; eauto|right; auto].
    - destruct (num_cases Obj obj_str byte_factor _ byte_table (VStr t) NV) as [(z & A & B & C)|(A & B & C)]; [left; eauto|right; auto].
    - destruct (num_cases Obj obj_str byte_factor _ byte_table (VStr t) NV) as [(z & A & B & C)|(A & B & C)]; [left; eauto|right; auto].
  Qed.

  Lemma env_get n t s : In n documented -> alookup (env_var_name n) (environ s) = Some t ->
    match factor_of n with
    | None => get s n = Ok (VStr t)
    | Some f => (exists z, quantity f t z /\ get s n = Ok (VInt z)) \/
                ((forall z, ~ quantity f t z) /\ get s n = Raise ValueError)
    end.
  Proof.
    intros HD HE. pose proof (env_read n t HD) as X. unfold Config.get. rewrite get_in_read, HE.
    destruct (documented_opt n HD) as (o & ->). exact X.
  Qed.

  Lemma env_unset n vs env env' :
    alookup (env_var_name n) env = alookup (env_var_name n) env' -> get_in vs env n = get_in vs env' n.
  Proof. intros H. rewrite !get_in_read, H. reflexivity. Qed.

  Lemma env_collision a b : In a documented -> In b documented -> env_var_name a = env_var_name b -> a = b.
  Proof. intros Ha Hb. apply env_var_inj; apply options_plain; assumption. Qed.

  (** ** reachable states *)
  Lemma start_WF p files env o : allP WF (start p files env o).
  Proof.
    unfold Config.start. pose proof (WF_load Obj obj_yaml home version (alookup p files)) as HW. fold load in HW.
    destruct (load (alookup p files)) as [v b]. split; [exact HW|constructor].
  Qed.
  Lemma start_path p files env o : path (base (start p files env o)) = Some p.
  Proof. unfold Config.start. destruct (load (alookup p files)) as [v b]. reflexivity. Qed.
  Lemma start_stack p files env o : stack (start p files env o) = [].
  Proof. unfold Config.start. destruct (load (alookup p files)) as [v b]. reflexivity. Qed.

  Lemma reach_path p files env o c s' r : exec c (start p files env o) = (s', r) -> path (base s') = Some p.
  Proof.
    intros H. apply exec_stack in H. destruct H as [_ H]. rewrite start_stack in H.
    destruct H as (ls & _ & _ & H). rewrite H. apply start_path.
  Qed.
  Lemma reach_WF p files env o c s' r : exec c (start p files env o) = (s', r) -> WF (vals (top s')).
  Proof.
    intros H. pose proof (exec_WF Obj obj_str obj_bool home writable version ObsSt obs c _ (start_WF p files env o)) as X.
    rewrite H in X. eapply allP_top. exact X.
  Qed.

  Definition good_file (f : option (list (string * value))) : Prop :=
    match f with
    | None => True
    | Some kvs => forall n v, In (n, v) kvs -> In n documented -> exists m, read n v = Ok m
    end.
  Lemma start_readable p files env o : good_file (alookup p files) -> allP readable (start p files env o).
  Proof.
    intros HF. unfold Config.start. destruct (load (alookup p files)) as [v b] eqn:E.
    split; [|constructor]. cbn. unfold Config.load in E.
    destruct (alookup p files) as [kvs|]; [|inversion E; subst; apply readable_defaults].
    destruct (forallb _ kvs); [|inversion E; subst; apply readable_defaults]. inversion E; subst. clear E.
    cbn in HF. revert HF. generalize (readable_defaults Obj obj_str home). generalize defaults as d.
    induction kvs as [|[k v] kvs IH]; intros d Hd HF; cbn; [exact Hd|].
    apply IH; [|intros n w Hn; apply HF; right; exact Hn].
    apply readable_aset; [|exact Hd]. intros Hk. apply (HF k v); [left; reflexivity|].
    apply (documented_options Obj home). exact Hk.
  Qed.

  Lemma get_total p files env o c s' r n :
    good_file (alookup p files) -> exec c (start p files env o) = (s', r) -> In n documented ->
    alookup (env_var_name n) (environ s') = None -> exists v, get s' n = Ok v.
  Proof.
    intros HF H HD HE. pose proof (reach_WF _ _ _ _ _ _ _ H) as [_ HK].
    pose proof (exec_readable Obj obj_str obj_bool home writable version ObsSt obs c _ (start_readable p files env o HF)) as X.
    rewrite H in X. apply allP_top in X. unfold Config.get. rewrite get_in_read, HE.
    destruct (documented_opt n HD) as (op & ->). apply (documented_options Obj home) in HD.
    specialize (HK n HD). destruct (alookup n (vals (top s'))) as [v|] eqn:EV; [|apply alookup_None in EV; contradiction].
    eapply X; eassumption.
  Qed.

  (** ** restart *)
  Definition py_same (a b : result value) : Prop :=
    a = b \/ exists z c, a = Ok (VInt z) /\ b = Ok (VBool c) /\ z = Z.b2z c.

  Lemma reload_get n vs env : WF vs -> savable vs -> In n documented ->
    py_same (get_in vs env n) (get_in (fst (load (Some (dumped vs)))) env n).
  Proof.
    intros HW HS HD. rewrite !get_in_read. destruct (documented_opt n HD) as (op & ->).
    destruct (alookup (env_var_name n) env); [left; reflexivity|].
    pose proof HD as HO. apply (documented_options Obj home) in HO.
    destruct (reload Obj obj_yaml home version n vs HW HS HO) as (v & v' & A & B & C).
    fold load dumped in B. rewrite A, B. destruct C as [->|(z & b & -> & -> & ->)]; [left; reflexivity|].
    destruct (in_dec string_dec n flag_options) as [HF|HF].
    - right. exists (Z.b2z b), b. cbn in HF. destruct HF as [<-|[<-|[<-|[]]]]; cbn; auto.
    - exfalso. pose proof (WF_load Obj obj_yaml home version) as _.
      apply HF. clear -HW HS A B HO. revert A B. 
      intros A B. unfold Config.load in B.
      assert (forallb (fun p => yaml_safe Obj obj_yaml (snd p)) (dumped vs) = true) as E.
      { apply forallb_forall. intros [k x] Hx. cbn. unfold Config.dumped in Hx. apply in_app_iff in Hx.
        destruct Hx as [Hx|[Hx|[]]]; [|inversion Hx; reflexivity]. apply filter_In in Hx. eapply HS. apply Hx. }
      rewrite E in B. cbn [fst] in B. rewrite alookup_update in B by (apply NoDup_dumped; apply HW).
      unfold Config.dumped in B. rewrite alookup_app, alookup_filter, A in B by apply HW.
      destruct (to_save Obj home (n, VInt (Z.b2z b))); [discriminate|].
      revert B. by_option HO; cbn; intros B; try discriminate; auto.
  Qed.

  Lemma restart_saved p v files env o n : WF v -> savable v -> In n documented ->
    alookup p files = Some (dumped v) -> py_same (get_in v env n) (get (start p files env o) n).
  Proof.
    intros HW HS HD HF. unfold Config.start. rewrite HF.
    pose proof (reload_get n v env HW HS HD) as X. destruct (load (Some (dumped v))) as [w b]. exact X.
  Qed.

  (** After a successful change of the base configuration, the file holds the new values. *)
  Lemma changed_file n s s' r p : changed (S n) s = (s', r) -> autosave s = true -> path (top s) = Some p ->
    writable p = true -> alookup p (files s') = Some (dumped (vals (top s'))) .
  Proof.
    intros H HA HP HW. apply changed_same in H. destruct H as [HS HF]. rewrite HF, HA, HP. cbn. rewrite HW.
    rewrite alookup_aset_eq. rewrite (same_top _ _ _ _ HS). reflexivity.
  Qed.

  Definition is_change (c : cmd Obj ObsSt) : Prop :=
    match c with CSet _ | CReset _ => True | _ => False end.

  Lemma set_vals_count a v w n : set_vals a v = (w, Ok n) -> exists m, n = S m.
  Proof.
    destruct a as [kvs|kvs|name args k]; cbn [Config.set_vals].
    - destruct kvs; [discriminate|]. destruct (set_many _ _) as [x [u|e|]]; intros H; inversion H; eauto.
    - destruct (set_many _ _) as [x [u|e|]]; intros H; inversion H; eauto.
    - destruct (set_one _ _ _ _ _ _ _ _) as [x [u|e|]]; intros H; inversion H; eauto.
  Qed.

  Lemma change_is_changed c s s' : is_change c -> exec c s = (s', Ok tt) ->
    exists n v, changed (S n) (with_top s (mkConf v (path (top s)))) = (s', Ok tt).
  Proof.
    destruct c; try contradiction; intros _ H; cbn [Config.exec] in H.
    - unfold Config.do_set in H. destruct (set_vals a (vals (top s))) as [v [n|e|]] eqn:E; try discriminate.
      destruct (set_vals_count _ _ _ _ E) as (m & ->). eauto.
    - unfold Config.do_reset in H. destruct n as [n|].
      + destruct (alookup n _) as [d|]; [|discriminate]. eauto.
      + eauto.
  Qed.

  Lemma change_saved p files0 env0 o0 c0 r0 c s s' :
    exec c0 (start p files0 env0 o0) = (s, r0) -> stack s = [] -> autosave s = true -> writable p = true ->
    is_change c -> exec c s = (s', Ok tt) -> alookup p (files s') = Some (dumped (vals (top s'))).
  Proof.
    intros H0 HS HA HW HC H. destruct (change_is_changed _ _ _ HC H) as (n & v & HX).
    pose proof (with_top_fields _ _ s (mkConf v (path (top s)))) as (_ & EA & _).
    eapply changed_file; [exact HX|rewrite EA; exact HA|rewrite with_top_top; cbn|exact HW].
    unfold top. rewrite HS. eapply reach_path. exact H0.
  Qed.

  Lemma seq_reach c0 p files0 env0 o0 r0 s c s' r : exec c0 (start p files0 env0 o0) = (s, r0) ->
    exec c s = (s', r) -> exists c', exec c' (start p files0 env0 o0) = (s', r).
  Proof.
    intros H0 H. exists (CSeq (CTry c0) c). cbn [Config.exec]. rewrite H0. exact H.
  Qed.

  Lemma survives p files0 env0 o0 c0 r0 c s s' o n :
    exec c0 (start p files0 env0 o0) = (s, r0) -> stack s = [] -> autosave s = true -> writable p = true ->
    is_change c -> exec c s = (s', Ok tt) -> savable (vals (top s')) -> In n documented ->
    py_same (get s' n) (get (start p (files s') (environ s') o) n).
  Proof.
    intros H0 HS HA HW HC H HV HD.
    destruct (seq_reach _ _ _ _ _ _ _ _ _ _ H0 H) as (c' & H').
    apply restart_saved; [eapply reach_WF; exact H'|exact HV|exact HD|]. exact (change_saved _ _ _ _ _ _ _ _ _ H0 HS HA HW HC H).
  Qed.

  Lemma save_as_survives p files0 env0 o0 c0 r0 s s' q o n :
    exec c0 (start p files0 env0 o0) = (s, r0) -> writable q = true ->
    exec (CSaveAs q) s = (s', Ok tt) -> savable (vals (top s')) -> In n documented ->
    py_same (get s' n) (get (start q (files s') (environ s') o) n).
  Proof.
    intros H0 HW H HV HD. pose proof (reach_WF _ _ _ _ _ _ _ H0) as X.
    cbn [Config.exec] in H. inversion H; subst. apply restart_saved; [exact X|exact HV|exact HD|].
    cbn. rewrite HW. apply alookup_aset_eq.
  Qed.

  (** ** reset *)
  Lemma defaults_read n : In n documented -> exists d v,
    alookup n defaults = Some d /\ alookup n (default_values Obj home) = Some v /\ read n d = Ok v.
  Proof.
    intros H. cbn in H. repeat (destruct H as [<-|H]; [eexists; eexists; split; [cbn; reflexivity|]; split; [cbn; reflexivity|]; vm_compute; reflexivity|]). contradiction.
  Qed.

  Lemma reset_one n s s' : exec (CReset (Some n)) s = (s', Ok tt) ->
    exists v, alookup n (default_values Obj home) = Some v /\
      (alookup (env_var_name n) (environ s) = None -> get s' n = Ok v) /\
      forall k, k <> n -> get s' k = get s k.
  Proof.
    cbn [Config.exec]. unfold Config.do_reset. destruct (alookup n defaults) as [d|] eqn:ED; [|discriminate].
    intros H. apply changed_same in H. destruct H as [H _].
    assert (HD : In n documented) by (apply (documented_options Obj home); apply alookup_Some_key in ED; exact ED).
    destruct (defaults_read n HD) as (d' & v & A & B & C). rewrite ED in A. inversion A; subst d'. exists v.
    set (cf := mkConf _ _) in H.
    pose proof (with_top_fields _ _ s cf) as (_ & _ & _ & E & _).
    assert (HG : forall k, get s' k = get_in (vals cf) (environ s) k).
    { intros k. rewrite (same_get _ _ _ _ _ _ H). unfold Config.get. rewrite with_top_top, E. reflexivity. }
    split; [exact B|]. split.
    - intros HE. rewrite HG, get_in_read, HE. cbn [vals cf]. rewrite alookup_aset_eq, C.
      destruct (documented_opt n HD) as (op & ->). reflexivity.
    - intros k Hk. rewrite HG. unfold Config.get. rewrite !get_in_read. cbn [vals cf].
      rewrite alookup_aset_neq, alookup_aremove_neq by congruence. reflexivity.
  Qed.

  Lemma reset_all s s' : exec (CReset None) s = (s', Ok tt) -> forall n, In n documented ->
    exists v, alookup n (default_values Obj home) = Some v /\
      (alookup (env_var_name n) (environ s) = None -> get s' n = Ok v).
  Proof.
    cbn [Config.exec]. unfold Config.do_reset. intros H n HD. apply changed_same in H. destruct H as [H _].
    destruct (defaults_read n HD) as (d & v & A & B & C). exists v. split; [exact B|]. intros HE.
    set (cf := mkConf _ _) in H.
    pose proof (with_top_fields _ _ s cf) as (_ & _ & _ & E & _).
    rewrite (same_get _ _ _ _ _ _ H). unfold Config.get. rewrite with_top_top, E, get_in_read, HE. cbn [vals cf].
    rewrite A, C. destruct (documented_opt n HD) as (op & ->). reflexivity.
  Qed.

  (** ** observers *)
  Lemma change_seen c s s' : is_change c -> exec c s = (s', Ok tt) ->
    exists n, seen s' = seen s ++ List.concat (repeat (map (fun cb => (cb, vals (top s'))) (callbacks s)) (S n)) /\
      callbacks s' = callbacks s.
  Proof.
    intros HC H. destruct (change_is_changed _ _ _ HC H) as (n & v & HX). exists n.
    pose proof (with_top_fields _ _ s (mkConf v (path (top s)))) as (E1 & _ & _ & _ & _ & E2).
    pose proof HX as HS. apply changed_same in HS. destruct HS as [HS _].
    rewrite (changed_seen _ _ _ _ _ _ _ _ _ _ HX), E1, E2, (same_top _ _ _ _ HS). split; [reflexivity|].
    destruct HS as (_ & _ & HS & _). congruence.
  Qed.

  Lemma temp_seen p a body s s' r : (forall cb v o, snd (obs cb v o) = Ok tt) ->
    exec (CTemp p a body) s = (s', r) ->
    (is_ok r = false /\ s' = s) \/
    exists s1 s2, exec body s1 = (s2, r) /\
      seen s1 = seen s ++ map (fun cb => (cb, vals (top s1))) (callbacks s) /\ callbacks s1 = callbacks s /\
      seen s' = seen s2 ++ map (fun cb => (cb, vals (top s'))) (callbacks s2).
  Proof.
    intros HQ H. cbn [Config.exec] in H.
    assert (HN : forall x, snd (notify x) = Ok tt).
    { intros x. unfold Config.notify. generalize (callbacks x). intros cbs. revert x.
      induction cbs as [|cb cbs IH]; intros x; cbn [Config.notify_loop]; [reflexivity|].
      pose proof (HQ cb (get x) (ostate x)) as X. destruct (obs cb (get x) (ostate x)) as [o' res]. cbn in X. subst res. apply IH. }
    destruct (make_temp _ _ _ _ _ _ _ p a s) as [s0 r0] eqn:E0.
    pose proof E0 as E0'. apply make_temp_same in E0'.
    destruct E0' as ((A1 & A2 & A3 & A4 & A5 & A6) & _ & _ & A8 & A9 & _).
    destruct r0 as [cf|e|].
    2:{ left. inversion H; subst. split; [reflexivity|]. apply A8. reflexivity. }
    2:{ left. inversion H; subst. split; [reflexivity|]. apply A8. reflexivity. }
    right. unfold Config.enter in H.
    pose proof (HN (with_stack Obj ObsSt s0 (cf :: stack s0))) as N1.
    destruct (notify (with_stack Obj ObsSt s0 (cf :: stack s0))) as [s1 r1] eqn:E1. cbn in N1. subst r1.
    destruct (exec body s1) as [s2 r2] eqn:E2. exists s1, s2.
    unfold Config.leave in H. pose proof (HN (with_stack Obj ObsSt s2 (tl (stack s2)))) as N2.
    destruct (notify (with_stack Obj ObsSt s2 (tl (stack s2)))) as [s3 r3] eqn:E3. cbn in N2. subst r3.
    inversion H; subst s3 r2. split; [exact E2|].
    pose proof E1 as S1. apply notify_same in S1. destruct S1 as [S1 _].
    pose proof E3 as S3. apply notify_same in S3. destruct S3 as [S3 _].
    apply notify_seen in E1. apply notify_seen in E3.
    rewrite (same_top _ _ _ _ S1), (same_top _ _ _ _ S3). rewrite E1, E3. cbn [seen callbacks Config.with_stack].
    rewrite A9, A3. split; [reflexivity|]. split; [|reflexivity].
    destruct S1 as (_ & _ & S1 & _). cbn in S1. congruence.
  Qed.

  (** A failing entry leaves exactly its own configuration on the stack. *)
  Lemma temp_entry_fails p a body s s' e cf :
    make_temp Obj obj_str obj_bool home writable version ObsSt p a s = (s, Ok cf) ->
    (exists s1, notify (with_stack Obj ObsSt s (cf :: stack s)) = (s1, Raise e)) ->
    exec (CTemp p a body) s = (s', Raise e) -> base s' = base s /\ stack s' = cf :: stack s.
  Proof.
    intros E0 (s1 & E1) H. cbn [Config.exec] in H. rewrite E0 in H. unfold Config.enter in H. rewrite E1 in H.
    inversion H; subst. apply notify_same in E1. destruct E1 as [(A & B & _) _]. cbn. auto.
  Qed.
  Lemma temp_refused p name v body s : In name documented -> (forall m, ~ means name v m) ->
    exec (CTemp p (Some (SetPos name [v] 0)) body) s = (s, Raise ValueError).
  Proof.
    intros HD HN. destruct (checked_spec Obj obj_str obj_bool home name v HD) as [(w' & m' & A & B & C)|(A & B)]; [exfalso; eapply HN; exact B|].
    cbn [Config.exec Config.make_temp Config.set_vals]. unfold Config.set_one. rewrite A. reflexivity.
  Qed.
End ConfigProofs3.
