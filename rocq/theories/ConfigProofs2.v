(** Proofs about Config.v: values, environment, file. *)
From Verif Require Import PyBase ListLemmas PyStr Humanize HumanizeSpec HumanizeProofs Config ConfigSpec ConfigProofs.

Local Open Scope string_scope.
Local Open Scope list_scope.
Local Open Scope Z_scope.
Set Default Proof Using "Type".

Section ConfigProofs2.
  Variable Obj : Type.
  Variable obj_str : Obj -> string.
  Variable obj_bool : Obj -> bool.
  Variable obj_yaml : Obj -> bool.
  Variable home : string.
  Variable writable : string -> bool.
  Variable version : string.
  Variable ObsSt : Type.
  Variable obs : nat -> (string -> result (value Obj)) -> ObsSt -> ObsSt * result unit.

  Notation value := (value Obj).
  Notation st := (st Obj ObsSt).
  Notation conf := (conf Obj).
  Notation options := (options Obj home).
  Notation defaults := (defaults Obj home).
  Notation checked := (checked Obj obj_str obj_bool home).
  Notation set_many := (set_many Obj obj_str obj_bool home).
  Notation set_one := (set_one Obj obj_str obj_bool home).
  Notation set_vals := (set_vals Obj obj_str obj_bool home).
  Notation run_getter := (run_getter Obj obj_str).
  Notation get_in := (get_in Obj obj_str home).
  Notation means := (means obj_str obj_bool).
  Notation str := (str_of Obj obj_str).
  Notation changed := (changed Obj obj_str home writable version ObsSt obs).
  Notation do_set := (do_set Obj obj_str obj_bool home writable version ObsSt obs).
  Notation do_reset := (do_reset Obj obj_str home writable version ObsSt obs).
  Notation exec := (exec Obj obj_str obj_bool home writable version ObsSt obs).
  Notation with_top := (with_top Obj ObsSt).
  Notation get := (get Obj obj_str home ObsSt).
  Notation same := (same Obj ObsSt).
  Notation to_save := (to_save Obj home).
  Notation dumped := (dumped Obj home version).
  Notation load := (load Obj obj_yaml home version).
  Notation update_all := (update_all Obj).

  (** What [get] does with a stored value. *)
  Definition read (name : string) (v : value) : result value :=
    match alookup name options with
    | None => Raise KeyError
    | Some o => match o_getter _ o with None => Ok v | Some g => run_getter g v (o_none_ok _ o) end
    end.

  Lemma get_in_read vs env name :
    get_in vs env name =
    match alookup name options with
    | None => Raise KeyError
    | Some _ =>
        match alookup (env_var_name name) env with
        | Some t => read name (VStr t)
        | None => match alookup name vs with Some v => read name v | None => Raise KeyError end
        end
    end.
  Proof.
    unfold Config.get_in, read. destruct (alookup name options) as [o|]; [|reflexivity].
    destruct (alookup (env_var_name name) env); [reflexivity|]. destruct (alookup name vs); reflexivity.
  Qed.

  Lemma documented_options name : In name documented <-> In name (akeys options).
  Proof. clear writable. cbn. intuition. Qed.

  (** One case per option. *)
  Ltac by_option H := cbn in H; repeat (destruct H as [<-|H]); [..|contradiction].

  Lemma bytes_quantity v z b : v <> VNone ->
    as_bytes (as_text Obj obj_str v) b = Ok (Some z) <-> quantity byte_factor (str v) z.
  Proof.
    intros N. destruct v as [|x|x|x|x]; [contradiction|..]; cbn [as_text];
      apply (as_number_ok byte_units byte_factor byte_table).
  Qed.
  Lemma percent_quantity v z b : v <> VNone ->
    as_percent (as_text Obj obj_str v) b = Ok (Some z) <-> quantity percent_factor (str v) z.
  Proof.
    intros N. destruct v as [|x|x|x|x]; [contradiction|..]; cbn [as_text];
      apply (as_number_ok percent_units percent_factor percent_table).
  Qed.
  Lemma seconds_quantity v z b : v <> VNone ->
    as_seconds (as_text Obj obj_str v) b = Ok (Some z) <-> quantity second_factor (str v) z.
  Proof.
    intros N. destruct v as [|x|x|x|x]; [contradiction|..]; cbn [as_text];
      apply (as_number_ok second_units second_factor second_table).
  Qed.

  Lemma as_text_some v : v <> VNone -> as_text Obj obj_str v = Some (str v).
  Proof. destruct v; [contradiction|..]; reflexivity. Qed.

  Lemma existsb_In x l : existsb (String.eqb x) l = true <-> In x l.
  Proof.
    rewrite existsb_exists. split.
    - intros (y & A & B). apply String.eqb_eq in B. subst. exact A.
    - intros H. exists x. split; [exact H|]. apply String.eqb_refl.
  Qed.

  (** A numeric getter either gives a quantity or raises ValueError. *)
  Lemma num_cases factor units (table : forall u f, factor u f <-> find (fun p => Ascii.eqb u (fst p)) units = Some (u, f)) v :
    v <> VNone ->
    (exists z, lift_num Obj (as_number (as_text Obj obj_str v) units true) = Ok (VInt z) /\ 
               lift_num Obj (as_number (as_text Obj obj_str v) units false) = Ok (VInt z) /\ quantity factor (str v) z) \/
    (lift_num Obj (as_number (as_text Obj obj_str v) units true) = Raise ValueError /\
     lift_num Obj (as_number (as_text Obj obj_str v) units false) = Raise ValueError /\ forall z, ~ quantity factor (str v) z).
  Proof.
    intros N. rewrite (as_text_some v N).
    destruct (as_number_total units (str v) true) as [[z H]|H].
    - left. exists z. assert (H2 : as_number (Some (str v)) units false = Ok (Some z)) by exact H.
      rewrite H, H2. split; [reflexivity|]. split; [reflexivity|].
      apply (as_number_ok units factor table _ _ true). exact H.
    - right. assert (H2 : as_number (Some (str v)) units false = Raise ValueError) by exact H.
      rewrite H, H2. split; [reflexivity|]. split; [reflexivity|]. intros z Hz.
      apply (as_number_ok units factor table _ _ true) in Hz. congruence.
  Qed.

  Definition vnone (v : value) : {v = VNone} + {v <> VNone}.
  Proof. destruct v; [left; reflexivity|right; discriminate..]. Defined.

  (** The central fact: [_set] accepts exactly the admitted values, and reading back gives
      the meaning. *)
  Lemma flag_truth v : flag_of obj_bool v (truth Obj obj_bool v).
  Proof.
    destruct v as [|b|z|s|o]; cbn; try constructor.
    - destruct (Z.eqb_spec z 0) as [->|N]; constructor. exact N.
    - destruct s; constructor.
  Qed.
  Lemma flag_unique v b : flag_of obj_bool v b -> b = truth Obj obj_bool v.
  Proof. destruct 1 as [| | |z N| | |]; cbn; try reflexivity. destruct (Z.eqb_spec z 0); [contradiction|reflexivity]. Qed.
  Lemma checked_spec name v : In name documented ->
    (exists w m, checked name [v] 0 = Ok w /\ means name v m /\ read name w = Ok m) \/
    (checked name [v] 0 = Raise ValueError /\ forall m, ~ means name v m).
  Proof.
    intros HD. apply documented_options in HD. unfold Config.checked, read.
    by_option HD; cbn [alookup Config.options String.eqb Ascii.eqb Bool.eqb plain_str plain_bool o_kind o_getter
        o_valid o_none_ok bind].
    - (* user-cache-directory *) left. eexists _, _. split; [reflexivity|]. split; [constructor|reflexivity].
    - (* temporary-cache-directory-root *)
      left. destruct (vnone v) as [->|N].
      + eexists _, _. split; [reflexivity|]. split; [apply m_root_none; cbn; auto|reflexivity].
      + exists v, (VStr (str v)). split; [|split; [apply m_root; [cbn; auto|exact N]|]];
          (destruct v; [contradiction|reflexivity..]).
    - left. destruct (vnone v) as [->|N].
      + eexists _, _. split; [reflexivity|]. split; [apply m_root_none; cbn; auto|reflexivity].
      + exists v, (VStr (str v)). split; [|split; [apply m_root; [cbn; auto|exact N]|]];
          (destruct v; [contradiction|reflexivity..]).
    - (* cache-policy *)
      cbn [str_of]. destruct (existsb (String.eqb (str v)) _) eqn:E.
      + left. exists (VStr (str v)), (VStr (str v)). split; [reflexivity|]. split; [|reflexivity]. apply m_cache_policy, existsb_In. exact E.
      + right. split; [reflexivity|]. intros m H. inversion H; subst;
          try (match goal with X : In "cache-policy" _ |- _ => cbn in X; repeat destruct X as [X|X]; try discriminate; contradiction end).
        match goal with X : In (str_of _ _ _) _ |- _ => apply existsb_In in X; congruence end.
    - (* maximum-cache-size *)
      cbn [Config.run_getter]. destruct (vnone v) as [->|N].
      + left. exists VNone, VNone. split; [reflexivity|]. split; [apply m_size_none; cbn; auto|reflexivity].
      + unfold as_bytes. destruct (num_cases byte_factor byte_units byte_table v N) as [(z & A & B & C)|(A & B & C)].
        * left. exists v, (VInt z). rewrite A. split; [reflexivity|]. split; [apply m_size; [cbn; auto|exact N|exact C]|reflexivity].
        * right. rewrite A. split; [reflexivity|]. intros m H. inversion H; subst;
          try (match goal with X : In "maximum-cache-size" _ |- _ => cbn in X; repeat destruct X as [X|X]; try discriminate; try contradiction end);
          first [contradiction|eapply C; eassumption].
    - (* maximum-cache-disk-usage *)
      cbn [Config.run_getter]. destruct (vnone v) as [->|N].
      + left. exists VNone, VNone. split; [reflexivity|]. split; [apply m_percent_none|reflexivity].
      + unfold as_percent. destruct (num_cases percent_factor percent_units percent_table v N) as [(z & A & B & C)|(A & B & C)].
        * left. exists v, (VInt z). rewrite A. split; [reflexivity|]. split; [apply m_percent; assumption|reflexivity].
        * right. rewrite A. split; [reflexivity|]. intros m H. inversion H; subst;
          try (match goal with X : In "maximum-cache-disk-usage" _ |- _ => cbn in X; repeat destruct X as [X|X]; try discriminate; try contradiction end);
          first [contradiction|eapply C; eassumption].
    - (* url-download-timeout *)
      cbn [Config.run_getter]. destruct (vnone v) as [->|N].
      + right. split; [reflexivity|]. intros m H. inversion H; subst;
          try (match goal with X : In "url-download-timeout" _ |- _ => cbn in X; repeat destruct X as [X|X]; try discriminate; try contradiction end);
          first [contradiction|eapply C; eassumption].
      + unfold as_seconds. destruct (num_cases second_factor second_units second_table v N) as [(z & A & B & C)|(A & B & C)].
        * left. exists v, (VInt z). rewrite B. split; [reflexivity|]. split; [apply m_timeout; assumption|reflexivity].
        * right. rewrite B. split; [reflexivity|]. intros m H. inversion H; subst;
          try (match goal with X : In "url-download-timeout" _ |- _ => cbn in X; repeat destruct X as [X|X]; try discriminate; try contradiction end);
          first [contradiction|eapply C; eassumption].
    - left. eexists _, _. split; [reflexivity|]. split; [apply m_flag; [cbn; auto|apply flag_truth]|reflexivity].
    - left. eexists _, _. split; [reflexivity|]. split; [apply m_flag; [cbn; auto|apply flag_truth]|reflexivity].
    - (* maximum-weights-memory-cache-size *)
      cbn [Config.run_getter]. destruct (vnone v) as [->|N].
      + left. exists VNone, VNone. split; [reflexivity|]. split; [apply m_size_none; cbn; auto|reflexivity].
      + unfold as_bytes. destruct (num_cases byte_factor byte_units byte_table v N) as [(z & A & B & C)|(A & B & C)].
        * left. exists v, (VInt z). rewrite A. split; [reflexivity|]. split; [apply m_size; [cbn; auto|exact N|exact C]|reflexivity].
        * right. rewrite A. split; [reflexivity|]. intros m H. inversion H; subst;
          try (match goal with X : In "maximum-weights-memory-cache-size" _ |- _ => cbn in X; repeat destruct X as [X|X]; try discriminate; try contradiction end);
          first [contradiction|eapply C; eassumption].
    - (* weights-memory-cache-policy *)
      cbn [str_of]. destruct (existsb (String.eqb (str v)) _) eqn:E.
      + left. exists (VStr (str v)), (VStr (str v)). split; [reflexivity|]. split; [|reflexivity]. apply m_mem_policy, existsb_In. exact E.
      + right. split; [reflexivity|]. intros m H. inversion H; subst;
          try (match goal with X : In "weights-memory-cache-policy" _ |- _ => cbn in X; repeat destruct X as [X|X]; try discriminate; contradiction end).
        match goal with X : In (str_of _ _ _) _ |- _ => apply existsb_In in X; congruence end.
    - left. eexists _, _. split; [reflexivity|]. split; [apply m_flag; [cbn; auto|apply flag_truth]|reflexivity].
  Qed.

  (** ** Well-formed value tables *)
  Definition WF (vs : list (string * value)) : Prop :=
    NoDup (akeys vs) /\ forall n, In n (akeys options) -> In n (akeys vs).

  Lemma akeys_aset k v (vs : list (string * value)) :
    akeys (aset k v vs) = if amem k vs then akeys vs else akeys vs ++ [k].
  Proof.
    unfold amem. induction vs as [|[k' v'] vs IH]; cbn; [reflexivity|].
    destruct (String.eqb_spec k k') as [->|N]; [reflexivity|]. cbn. rewrite IH.
    destruct (alookup k vs); reflexivity.
  Qed.
  Lemma aset_keys k v (vs : list (string * value)) n : In n (akeys (aset k v vs)) <-> n = k \/ In n (akeys vs).
  Proof. clear writable home.
    rewrite akeys_aset. unfold amem. destruct (alookup k vs) eqn:E.
    - split; [auto|]. intros [->|H]; [|exact H]. eapply alookup_Some_key. exact E.
    - rewrite in_app_iff. cbn. intuition.
  Qed.
  Lemma NoDup_aset k v (vs : list (string * value)) : NoDup (akeys vs) -> NoDup (akeys (aset k v vs)).
  Proof.
    intros H. rewrite akeys_aset. unfold amem. destruct (alookup k vs) eqn:E; [exact H|].
    apply NoDup_snoc; [exact H|]. apply alookup_None. exact E.
  Qed.
  Lemma WF_aset k v vs : WF vs -> WF (aset k v vs).
  Proof.
    intros [A B]. split; [apply NoDup_aset; exact A|]. intros n Hn. apply aset_keys. right. auto.
  Qed.
  Lemma WF_defaults : WF defaults.
  Proof. clear writable.
    split; [|intros n H; cbn in *; exact H]. cbn. repeat constructor; cbn; intuition discriminate.
  Qed.
  Lemma WF_update kvs vs : WF vs -> WF (update_all kvs vs).
  Proof. revert vs. induction kvs as [|[k v] kvs IH]; intros vs H; cbn; [exact H|]. apply IH, WF_aset, H. Qed.
  Lemma WF_load f : WF (fst (load f)).
  Proof.
    unfold Config.load. destruct f as [kvs|]; [|apply WF_defaults].
    destruct (forallb _ kvs); [|apply WF_defaults]. cbn. apply WF_update, WF_defaults.
  Qed.
  Lemma WF_reset n d vs : In n (akeys options) -> WF vs -> WF (aset n d (aremove n vs)).
  Proof.
    intros Hn [A B]. split.
    - apply NoDup_aset. apply aremove_NoDup. exact A.
    - intros m Hm. apply aset_keys. destruct (string_dec m n) as [->|N]; [auto|right].
      apply aremove_keys_in. auto.
  Qed.
  Lemma WF_set_one name args k vs : WF vs -> WF (fst (set_one name args k vs)).
  Proof. intros H. unfold Config.set_one. destruct (checked name args k); cbn; auto using WF_aset. Qed.
  Lemma WF_set_many kvs vs : WF vs -> WF (fst (set_many kvs vs)).
  Proof.
    revert vs. induction kvs as [|[k v] kvs IH]; intros vs H; cbn [Config.set_many]; [exact H|].
    pose proof (WF_set_one k [v] 0 vs H) as HW. destruct (set_one k [v] 0 vs) as [vs' [u|e|]]; cbn in HW; auto.
  Qed.
  Lemma WF_set_vals a vs : WF vs -> WF (fst (set_vals a vs)).
  Proof.
    intros H. destruct a as [kvs|kvs|name args k]; cbn [Config.set_vals].
    - destruct kvs as [|kv kvs]; [exact H|].
      set (l := map _ _). pose proof (WF_set_many l vs H) as HW. destruct (set_many l vs) as [vs' [u|e|]]; exact HW.
    - pose proof (WF_set_many kvs vs H) as HW. destruct (set_many kvs vs) as [vs' [u|e|]]; exact HW.
    - pose proof (WF_set_one name args k vs H) as HW. destruct (set_one name args k vs) as [vs' [u|e|]]; exact HW.
  Qed.

  (** ** A property of the values that set, reset and temporary keep, holds throughout. *)
  Section Kept.
    Variable P : list (string * value) -> Prop.
    Hypothesis P_set : forall a vs, P vs -> P (fst (set_vals a vs)).
    Hypothesis P_defaults : P defaults.
    Hypothesis P_reset : forall n d vs, alookup n defaults = Some d -> P vs -> P (aset n d (aremove n vs)).

    Definition allP (s : st) : Prop := P (vals (base s)) /\ Forall (fun c : conf => P (vals c)) (stack s).

    Lemma allP_top s : allP s -> P (vals (top s)).
    Proof. intros [A B]. unfold top. destruct (stack s) as [|c r]; [exact A|]. inversion B. assumption. Qed.
    Lemma allP_same s s' : same s s' -> allP s -> allP s'.
    Proof. intros (A & B & _). unfold allP. rewrite A, B. auto. Qed.
    Lemma allP_with_top s c : P (vals c) -> allP s -> allP (with_top s c).
    Proof.
      intros H [A B]. unfold allP, Config.with_top. destruct (stack s) as [|t r]; cbn; [auto|].
      inversion B; subst. auto.
    Qed.

    Lemma exec_allP c : forall s, allP s -> allP (fst (exec c s)).
    Proof using P_set P_defaults P_reset.
      induction c; intros s H; cbn [Config.exec]; try exact H.
      - specialize (IHc1 s H). destruct (exec c1 s) as [s1 [u|e|]]; cbn in IHc1 |- *; auto.
      - unfold Config.do_set. pose proof (P_set a _ (allP_top s H)) as HV.
        destruct (set_vals a (vals (top s))) as [v [n|e|]]; cbn [fst] in *; try (apply allP_with_top; assumption).
        destruct (changed n _) as [s' r] eqn:E. apply changed_same in E. destruct E as [E _].
        eapply allP_same; [exact E|]. apply allP_with_top; assumption.
      - unfold Config.do_reset. destruct n as [n|].
        + destruct (alookup n defaults) as [d|] eqn:ED; [|exact H].
          destruct (changed 1 _) as [s' r] eqn:E. apply changed_same in E. destruct E as [E _].
          eapply allP_same; [exact E|]. apply allP_with_top; [|exact H]. apply P_reset; [exact ED|]. apply allP_top, H.
        + destruct (changed 1 _) as [s' r] eqn:E. apply changed_same in E. destruct E as [E _].
          eapply allP_same; [exact E|]. apply allP_with_top; [exact P_defaults|exact H].
      - destruct (make_temp _ _ _ _ _ _ _ p a s) as [s0 r0] eqn:E0.
        assert (A1 : same s s0) by (pose proof E0 as X; apply make_temp_same in X; apply X).
        pose proof (allP_same _ _ A1 H) as H0.
        destruct r0 as [cf|e|]; [|exact H0|exact H0].
        assert (HC : P (vals cf)).
        { unfold make_temp in E0. destruct a as [a|]; [|inversion E0; subst; apply allP_top, H].
          pose proof (P_set a _ (allP_top s H)) as HV.
          destruct (set_vals a (vals (top s))) as [v [n|e|]]; inversion E0; subst; exact HV. }
        destruct (enter _ _ _ _ _ cf s0) as [s1 r1] eqn:E1.
        apply (enter_same _ _ _) in E1; destruct E1 as (B1 & B2 & _).
        assert (H1 : allP s1). { destruct H0 as [X Y]. split; [rewrite B1; exact X|]. rewrite B2. constructor; assumption. }
        destruct r1 as [u|e|]; [|exact H1|exact H1].
        specialize (IHc s1 H1). destruct (exec c s1) as [s2 r2]. cbn in IHc.
        destruct (leave _ _ _ _ _ r2 s2) as [s3 r3] eqn:E3.
        apply (leave_same _ _ _) in E3; destruct E3 as (C1 & C2 & _).
        destruct IHc as [X Y]. split; cbn [fst]; [rewrite C1; exact X|]. rewrite C2.
        destruct (stack s2); [exact Y|]. inversion Y; assumption.
      - destruct (f _ (ostate s)) as [o' rr]. exact H.
      - specialize (IHc s H). destruct (exec c s) as [s1 r1]. exact IHc.
    Qed.
  End Kept.

  Lemma exec_WF c s : allP WF s -> allP WF (fst (exec c s)).
  Proof.
    apply exec_allP.
    - exact WF_set_vals.
    - exact WF_defaults.
    - intros n d vs Hd. apply WF_reset. apply alookup_Some_key in Hd. exact Hd.
  Qed.

  (** Every stored value reads back. *)
  Definition readable (vs : list (string * value)) : Prop :=
    forall n v, In n (akeys options) -> alookup n vs = Some v -> exists m, read n v = Ok m.

  Lemma readable_aset n v vs : (In n (akeys options) -> exists m, read n v = Ok m) -> readable vs -> readable (aset n v vs).
  Proof.
    intros H HR k w Hk E. destruct (string_dec k n) as [->|N].
    - rewrite alookup_aset_eq in E. inversion E; subst. apply H. exact Hk.
    - rewrite alookup_aset_neq in E by congruence. eapply HR; eassumption.
  Qed.
  Lemma checked_args name args k w : checked name args k = Ok w -> exists v, args = [v] /\ k = 0%nat /\ In name documented.
  Proof.
    unfold Config.checked. destruct (alookup name options) as [o|] eqn:E; [|discriminate].
    destruct args as [|a [|b args]]; try discriminate. destruct k; [|discriminate]. intros _.
    exists a. split; [reflexivity|]. split; [reflexivity|]. apply documented_options. eapply alookup_Some_key. exact E.
  Qed.
  Lemma checked_read name args k w : checked name args k = Ok w -> exists m, read name w = Ok m.
  Proof.
    intros H. destruct (checked_args _ _ _ _ H) as (v & -> & -> & HD).
    destruct (checked_spec name v HD) as [(w' & m & A & B & C)|(A & B)]; [|congruence].
    rewrite A in H. inversion H; subst. eauto.
  Qed.
  Lemma readable_set_one name args k vs : readable vs -> readable (fst (set_one name args k vs)).
  Proof.
    intros H. unfold Config.set_one. destruct (checked name args k) as [w|e|] eqn:E; cbn; auto.
    apply readable_aset; [|exact H]. intros _. eapply checked_read. exact E.
  Qed.
  Lemma readable_set_many kvs vs : readable vs -> readable (fst (set_many kvs vs)).
  Proof.
    revert vs. induction kvs as [|[k v] kvs IH]; intros vs H; cbn [Config.set_many]; [exact H|].
    pose proof (readable_set_one k [v] 0 vs H) as HW. destruct (set_one k [v] 0 vs) as [vs' [u|e|]]; cbn in HW; auto.
  Qed.
  Lemma readable_set_vals a vs : readable vs -> readable (fst (set_vals a vs)).
  Proof.
    intros H. destruct a as [kvs|kvs|name args k]; cbn [Config.set_vals].
    - destruct kvs as [|kv kvs]; [exact H|].
      set (l := map _ _). pose proof (readable_set_many l vs H) as HW. destruct (set_many l vs) as [vs' [u|e|]]; exact HW.
    - pose proof (readable_set_many kvs vs H) as HW. destruct (set_many kvs vs) as [vs' [u|e|]]; exact HW.
    - pose proof (readable_set_one name args k vs H) as HW. destruct (set_one name args k vs) as [vs' [u|e|]]; exact HW.
  Qed.
  Lemma readable_defaults : readable defaults.
  Proof.
    intros n v Hn. by_option Hn; intros E; inversion E; subst; eexists; reflexivity.
  Qed.
  Lemma exec_readable c s : allP readable s -> allP readable (fst (exec c s)).
  Proof.
    apply exec_allP.
    - exact readable_set_vals.
    - exact readable_defaults.
    - intros n d vs Hd HR k w Hk E. destruct (string_dec k n) as [->|N].
      + rewrite alookup_aset_eq in E. inversion E; subst. eapply readable_defaults; eassumption.
      + rewrite alookup_aset_neq, alookup_aremove_neq in E by congruence. eapply HR; eassumption.
  Qed.

  (** ** set *)
  Lemma with_top_id s : with_top s (mkConf (vals (top s)) (path (top s))) = s.
  Proof. unfold Config.with_top, top. destruct s as [b [|[v p] r] cb au fi en os se fa]; cbn; [destruct b|]; reflexivity. Qed.

  Lemma set_pos_ok name args k s s' : do_set (SetPos name args k) s = (s', Ok tt) ->
    exists v m, args = [v] /\ k = 0%nat /\ means name v m /\
      (alookup (env_var_name name) (environ s) = None -> get s' name = Ok m) /\
      (forall n, n <> name -> get s' n = get s n).
  Proof.
    unfold Config.do_set. cbn [Config.set_vals]. unfold Config.set_one.
    destruct (checked name args k) as [w|e|] eqn:EC; try discriminate.
    destruct (checked_args _ _ _ _ EC) as (v & -> & -> & HD).
    destruct (checked_spec name v HD) as [(w' & m & A & B & C)|(A & B)]; [|congruence].
    rewrite A in EC. inversion EC; subst w'. clear EC. intros H.
    apply changed_same in H. destruct H as [H _]. exists v, m.
    split; [reflexivity|]. split; [reflexivity|]. split; [exact B|].
    assert (HG : forall n, get s' n = get_in (aset name w (vals (top s))) (environ s) n).
    { intros n. rewrite (same_get _ _ _ _ _ _ H). unfold Config.get. rewrite with_top_top. cbn.
      pose proof (with_top_fields _ _ s (mkConf (aset name w (vals (top s))) (path (top s)))) as (_ & _ & _ & E & _).
      rewrite E. reflexivity. }
    split.
    - intros HE. rewrite HG, get_in_read, HE, alookup_aset_eq, C.
      apply documented_options in HD. destruct (alookup name options) eqn:EO; [reflexivity|].
      apply alookup_None in EO. contradiction.
    - intros n Hn. rewrite HG. unfold Config.get. rewrite !get_in_read.
      rewrite alookup_aset_neq by congruence. reflexivity.
  Qed.

  Lemma set_pos_accepts name v m s : means name v m -> exists w,
    do_set (SetPos name [v] 0) s = changed 1 (with_top s (mkConf (aset name w (vals (top s))) (path (top s)))).
  Proof.
    intros HM. assert (HD : In name documented).
    { inversion HM; subst; cbn in *; intuition (subst; auto 20). }
    destruct (checked_spec name v HD) as [(w' & m' & A & B & C)|(A & B)]; [|exfalso; eapply B; exact HM].
    exists w'. unfold Config.do_set. cbn [Config.set_vals]. unfold Config.set_one. rewrite A. reflexivity.
  Qed.

  Lemma set_pos_rejects name v s : In name documented -> (forall m, ~ means name v m) ->
    do_set (SetPos name [v] 0) s = (s, Raise ValueError).
  Proof.
    intros HD HN. destruct (checked_spec name v HD) as [(w' & m' & A & B & C)|(A & B)]; [exfalso; eapply HN; exact B|].
    unfold Config.do_set. cbn [Config.set_vals]. unfold Config.set_one. rewrite A. cbn. rewrite with_top_id. reflexivity.
  Qed.
  Lemma set_pos_unknown name args k s : ~ In name documented -> do_set (SetPos name args k) s = (s, Raise KeyError).
  Proof.
    intros HN. unfold Config.do_set. cbn [Config.set_vals]. unfold Config.set_one, Config.checked.
    destruct (alookup name options) eqn:E.
    - exfalso. apply HN, documented_options. eapply alookup_Some_key. exact E.
    - cbn. rewrite with_top_id. reflexivity.
  Qed.
  Lemma get_unknown name s : ~ In name documented -> get s name = Raise KeyError.
  Proof.
    intros HN. unfold Config.get. rewrite get_in_read. destruct (alookup name options) eqn:E; [|reflexivity].
    exfalso. apply HN, documented_options. eapply alookup_Some_key. exact E.
  Qed.

  Lemma set_many_cons k v kvs vs : set_many ((k, v) :: kvs) vs =
    match checked k [v] 0 with
    | Ok w => set_many kvs (aset k w vs) | Raise e => (vs, Raise e) | OutOfFuel => (vs, OutOfFuel)
    end.
  Proof. cbn [Config.set_many]. unfold Config.set_one. destruct (checked k [v] 0); reflexivity. Qed.

  (** Several options: everything up to the first bad one. *)
  Lemma set_many_cases kvs : forall vs,
    (exists vs', set_many kvs vs = (vs', Ok tt) /\ Forall (fun kv => exists m, means (fst kv) (snd kv) m) kvs) \/
    (exists done k v rest vs' e, kvs = done ++ (k, v) :: rest /\ set_many done vs = (vs', Ok tt) /\
       set_many kvs vs = (vs', Raise e) /\ Forall (fun kv => exists m, means (fst kv) (snd kv) m) done /\
       (e = KeyError /\ ~ In k documented \/ e = ValueError /\ In k documented /\ forall m, ~ means k v m)).
  Proof.
    induction kvs as [|[k v] kvs IH]; intros vs.
    - left. exists vs. split; [reflexivity|constructor].
    - rewrite set_many_cons. destruct (in_dec string_dec k documented) as [HD|HD].
      + destruct (checked_spec k v HD) as [(w & m & A & B & C)|(A & B)].
        * rewrite A. destruct (IH (aset k w vs)) as [(vs' & D & E)|(done & k' & v' & rest & vs' & e & D & E & F & G & HH)].
          -- left. exists vs'. split; [exact D|]. constructor; [exists m; exact B|exact E].
          -- right. exists ((k, v) :: done), k', v', rest, vs', e. subst kvs. split; [reflexivity|].
             rewrite !set_many_cons, A. split; [exact E|]. split; [exact F|].
             split; [constructor; [exists m; exact B|exact G]|exact HH].
        * rewrite A. right. exists [], k, v, kvs, vs, ValueError. cbn. repeat split; auto.
      + assert (checked k [v] 0 = Raise KeyError) as ->.
        { unfold Config.checked. destruct (alookup k options) eqn:E; [|reflexivity].
          exfalso. apply HD, documented_options. eapply alookup_Some_key. exact E. }
        right. exists [], k, v, kvs, vs, KeyError. cbn. repeat split; auto.
  Qed.

  (** ** environment *)
  Definition plain_char (c : ascii) : bool := is_lower c || is_digit c || Ascii.eqb c "-".
  Definition env_char (c : ascii) : ascii := if Ascii.eqb (to_upper c) "-" then "_"%char else to_upper c.

  Lemma upper_code c : code (to_upper c) = if is_lower c then code c - 32 else code c.
  Proof. clear writable version.
    unfold to_upper. destruct (is_lower c) eqn:E; [|reflexivity]. unfold is_lower in E.
    rewrite code_of_N; [lia|]. pose proof (code_range c). lia.
  Qed.
  Lemma env_char_inj a b : plain_char a = true -> plain_char b = true -> env_char a = env_char b -> a = b.
  Proof. clear writable version.
    unfold plain_char, env_char. rewrite !ascii_eqb_code, !upper_code. intros Ha Hb H.
    apply (f_equal code) in H.
    assert (HU : forall c, code (if (if is_lower c then code c - 32 else code c) =? code "-" then "_"%char else to_upper c) =
                 if (if is_lower c then code c - 32 else code c) =? 45 then 95 else if is_lower c then code c - 32 else code c).
    { intros c. change (code "-") with 45. destruct (_ =? 45); [reflexivity|]. apply upper_code. }
    rewrite !HU in H. apply code_inj. unfold is_lower, is_digit in *. change (code "-") with 45 in *.
    destruct ((97 <=? code a) && (code a <=? 122)) eqn:Ea, ((97 <=? code b) && (code b <=? 122)) eqn:Eb;
      repeat match type of H with context [?x =? 45] => destruct (Z.eqb_spec x 45) end; lia.
  Qed.

  Lemma env_var_inj a b : forallb plain_char (chars a) = true -> forallb plain_char (chars b) = true ->
    env_var_name a = env_var_name b -> a = b.
  Proof.
    unfold env_var_name, replace1, upper. intros Ha Hb H.
    apply (f_equal chars) in H. rewrite !chars_app, !chars_of_chars, !map_map in H. apply app_inv_head in H.
    apply chars_inj. revert Ha Hb H. generalize (chars b). generalize (chars a).
    induction l as [|x l IH]; intros [|y l'] Ha Hb H; try discriminate; [reflexivity|].
    cbn in Ha, Hb. apply andb_prop in Ha, Hb. destruct Ha, Hb. cbn [map] in H. injection H as HX HY.
    f_equal; [apply env_char_inj; assumption|]. apply IH; assumption.
  Qed.

  Lemma options_plain n : In n documented -> forallb plain_char (chars n) = true.
  Proof. intros H. cbn in H. repeat (destruct H as [<-|H]; [reflexivity|]). contradiction. Qed.

  (** ** file *)
  Lemma alookup_update kvs : forall vs n, NoDup (akeys kvs) ->
    alookup n (update_all kvs vs) = match alookup n kvs with Some v => Some v | None => alookup n vs end.
  Proof.
    induction kvs as [|[k v] kvs IH]; intros vs n HN; cbn; [reflexivity|]. inversion HN as [|? ? H1 H2]; subst.
    rewrite IH by exact H2. destruct (String.eqb_spec n k) as [->|N].
    - destruct (alookup k kvs) eqn:E; [exfalso; apply H1; eapply alookup_Some_key; exact E|]. apply alookup_aset_eq.
    - destruct (alookup n kvs); [reflexivity|]. apply alookup_aset_neq. congruence.
  Qed.

  Lemma akeys_filter_in f (vs : list (string * value)) k : In k (akeys (filter f vs)) -> In k (akeys vs).
  Proof.
    rewrite !akeys_map. intros H. apply in_map_iff in H. destruct H as (x & <- & H). apply filter_In in H.
    apply in_map. apply H.
  Qed.
  Lemma NoDup_filter_keys f (vs : list (string * value)) : NoDup (akeys vs) -> NoDup (akeys (filter f vs)).
  Proof.
    induction vs as [|[k v] vs IH]; cbn; intros H; [constructor|]. inversion H; subst.
    destruct (f (k, v)); cbn; auto. constructor; auto. intros X. apply akeys_filter_in in X. contradiction.
  Qed.
  Lemma alookup_filter f (vs : list (string * value)) n : NoDup (akeys vs) ->
    alookup n (filter f vs) = match alookup n vs with Some v => if f (n, v) then Some v else None | None => None end.
  Proof.
    induction vs as [|[k v] vs IH]; cbn; intros H; [reflexivity|]. inversion H as [|? ? H1 H2]; subst.
    destruct (String.eqb_spec n k) as [->|N].
    - destruct (f (k, v)); cbn; [rewrite String.eqb_refl; reflexivity|].
      rewrite IH by exact H2. destruct (alookup k vs) eqn:E; [|reflexivity].
      exfalso. apply H1. eapply alookup_Some_key. exact E.
    - destruct (f (k, v)); cbn; [destruct (String.eqb_spec n k); [contradiction|]|]; apply IH; exact H2.
  Qed.

  Lemma version_not_saved v : to_save ("version", v) = false.
  Proof. reflexivity. Qed.

  Lemma NoDup_dumped vs : NoDup (akeys vs) -> NoDup (akeys (dumped vs)).
  Proof.
    intros H. unfold Config.dumped. rewrite akeys_app. cbn. apply NoDup_snoc; [apply NoDup_filter_keys; exact H|].
    rewrite akeys_map. intros X. apply in_map_iff in X. destruct X as ([k v] & E & X). cbn in E. subst k.
    apply filter_In in X. destruct X as [_ X]. rewrite version_not_saved in X. discriminate.
  Qed.

  (** The values that will be written can be read back by yaml.safe_load. *)
  Definition savable (vs : list (string * value)) : Prop :=
    forall n v, In (n, v) vs -> yaml_safe Obj obj_yaml v = true.

  Lemma reload n vs : WF vs -> savable vs -> In n (akeys options) ->
    exists v v', alookup n vs = Some v /\ alookup n (fst (load (Some (dumped vs)))) = Some v' /\
      (v' = v \/ exists z b, v = VInt z /\ v' = VBool b /\ z = Z.b2z b).
  Proof. clear writable.
    intros [HN HK] HS Hn. specialize (HK n Hn).
    destruct (alookup n vs) as [v|] eqn:E; [|apply alookup_None in E; contradiction].
    unfold Config.load.
    assert (forallb (fun p => yaml_safe Obj obj_yaml (snd p)) (dumped vs) = true) as ->.
    { apply forallb_forall. intros [k x] Hx. cbn. unfold Config.dumped in Hx. apply in_app_iff in Hx.
      destruct Hx as [Hx|[Hx|[]]]; [|inversion Hx; reflexivity]. apply filter_In in Hx. eapply HS. apply Hx. }
    cbn [fst]. rewrite alookup_update by (apply NoDup_dumped; exact HN). unfold Config.dumped.
    assert (alookup n (filter to_save vs ++ [("version", VStr version)]) =
            if to_save (n, v) then Some v else None) as ->.
    { rewrite alookup_app, alookup_filter, E by exact HN. destruct (to_save (n, v)); [reflexivity|].
      by_option Hn; reflexivity. }
    destruct (to_save (n, v)) eqn:ET.
    - exists v, v. auto.
    - unfold Config.to_save in ET. cbn [fst snd] in ET. destruct (alookup n options) as [o|] eqn:EO;
        [|apply alookup_None in EO; contradiction].
      assert (alookup n defaults = Some (o_default _ o)) as HDf.
      { by_option Hn; cbn in EO; inversion EO; reflexivity. }
      rewrite HDf. exists v, (o_default _ o). split; [reflexivity|]. split; [reflexivity|].
      destruct v as [|vb|vz|vs0|vo], (o_default _ o) as [|db|dz|ds|do_]; cbn in ET; try discriminate; auto.
      + left. f_equal. destruct vb, db; cbn in ET; congruence.
      + right. exists vz, db. split; [reflexivity|]. split; [reflexivity|]. destruct db; cbn; lia.
      + left. f_equal. destruct (String.eqb_spec vs0 ds); [congruence|discriminate].
  Qed.
End ConfigProofs2.
