(** Proofs about Policy.v. *)
From Verif Require Import PyBase ListLemmas Config Policy.

Local Open Scope string_scope.
Local Open Scope list_scope.
Local Open Scope nat_scope.
Set Default Proof Using "All".

Section PolicyProofs.
  Variable Obj : Type.
  Variable obj_eqb : Obj -> Obj -> bool.
  Variable expand : string -> string.
  Variable mkdir : string -> result unit.
  Variable mkdtemp : option string -> result unit.
  Variable check : policy Obj -> bool * result unit.
  Notation value := (value Obj).
  Notation reader := (string -> result value).
  Notation policy := (policy Obj).
  Notation cache := (cache Obj).
  Notation py_eq := (py_eq Obj obj_eqb).
  Notation cget := (cget Obj).
  Notation read := (read Obj).
  Notation construct := (construct Obj expand mkdir mkdtemp).
  Notation from_config := (from_config Obj expand mkdir mkdtemp).
  Notation temp_directory := (temp_directory Obj expand mkdir mkdtemp).
  Notation make_path := (make_path Obj expand mkdir).
  Notation make_policy := (make_policy Obj expand mkdir mkdtemp check).
  Notation get_policy := (get_policy Obj expand mkdir mkdtemp check).
  Notation outdated := (outdated Obj obj_eqb).
  Notation update := (update Obj obj_eqb).
  Notation config_changed := (config_changed Obj obj_eqb expand mkdir mkdtemp check).
  Notation directory := (directory Obj expand mkdir mkdtemp check).
  Notation database := (database Obj expand mkdir mkdtemp check).
  Notation drop_policy := (drop_policy Obj).
  Notation policy_directory := (policy_directory Obj expand mkdir mkdtemp).
  Implicit Types (g : reader) (c : cache) (p : policy) (v w : value).

  (** ** Histories: anything that happens to the cache, each time with the options reading as
      [g] says then. *)
  Inductive event := EChanged (g : reader) | EPolicy (g : reader) | EDirectory (g : reader) | EDatabase (g : reader).
  Definition event_reader (e : event) : reader :=
    match e with EChanged g | EPolicy g | EDirectory g | EDatabase g => g end.
  Definition step c (e : event) : cache :=
    match e with
    | EChanged g => fst (config_changed g c)
    | EPolicy g => fst (get_policy g c)
    | EDirectory g => fst (directory g c)
    | EDatabase g => fst (database g c)
    end.
  Definition after (h : list event) : cache := fold_left step h fresh.

  Definition parent v : option (option string) :=
    match v with VNone => Some None | VStr s => Some (Some (expand s)) | _ => None end.

  (** Well-formed policies, whatever was raised before. *)
  Definition wf_policy p : Prop :=
    cget (pconf p) "cache-policy" = VStr (pname p) /\
    match pk p with
    | PUser => pdir p = None /\
        exists s, cget (pconf p) "user-cache-directory" = VStr s /\ ppath p = Some (expand s)
    | PTmp => exists d n, pdir p = Some (d, n) /\ parent (cget (pconf p) "temporary-cache-directory-root") = Some d
    | POff => cget (pconf p) "temporary-directory-root" = VNone /\
        (pdir p = None \/ exists n, pdir p = Some (None, n))
    end.
  Definition dirs (o : option policy) : list (option string * nat) :=
    match o with Some p => match pdir p with Some d => [d] | None => [] end | None => [] end.
  Definition wf c : Prop :=
    live c = dirs (cpolicy c) /\ (forall d, In d (live c) -> snd d < made c) /\
    (forall p, cpolicy c = Some p -> wf_policy p).

  Lemma read_cons g k ks cf : read g (k :: ks) = Ok cf ->
    exists v rest, g k = Ok v /\ read g ks = Ok rest /\ cf = (k, v) :: rest.
  Proof.
    cbn. unfold bind. destruct (g k) as [v|e|]; [|discriminate|discriminate].
    destruct (read g ks) as [r|e|]; [|discriminate|discriminate]. intros H. inversion H. eauto.
  Qed.
  Lemma read_keys g cf : read g cache_keys = Ok cf ->
    g "cache-policy" = Ok (cget cf "cache-policy") /\
    g "user-cache-directory" = Ok (cget cf "user-cache-directory") /\
    g "temporary-cache-directory-root" = Ok (cget cf "temporary-cache-directory-root") /\
    g "maximum-cache-disk-usage" = Ok (cget cf "maximum-cache-disk-usage") /\
    g "maximum-cache-size" = Ok (cget cf "maximum-cache-size") /\
    cget cf "temporary-directory-root" = VNone.
  Proof.
    unfold cache_keys. intros H.
    apply read_cons in H. destruct H as (v1 & r1 & E1 & H & ->).
    apply read_cons in H. destruct H as (v2 & r2 & E2 & H & ->).
    apply read_cons in H. destruct H as (v3 & r3 & E3 & H & ->).
    apply read_cons in H. destruct H as (v4 & r4 & E4 & H & ->).
    apply read_cons in H. destruct H as (v5 & r5 & E5 & H & ->).
    cbn in H. inversion H; subst r5. repeat split; assumption.
  Qed.

  Lemma temp_directory_cases v c c' r : temp_directory v c = (c', r) ->
    (exists d, parent v = Some d /\ r = Ok (d, made c) /\
       c' = mkCache (cpolicy c) (cmanager c) (S (made c)) (live c ++ [(d, made c)]) (needed c)) \/
    (c' = c /\ (exists e, r = Raise e) \/ c' = c /\ r = OutOfFuel).
  Proof.
    unfold Policy.temp_directory, bind. destruct v as [|b|z|s|o]; cbn [parent].
    - destruct (mkdtemp None); intros H; inversion H; subst; eauto.
    - intros H; inversion H; subst; eauto.
    - intros H; inversion H; subst; eauto.
    - destruct (String.eqb (expand s) ""); [intros H; inversion H; subst; eauto|].
      destruct (mkdir (expand s)); [|intros H; inversion H; subst; eauto|intros H; inversion H; subst; eauto].
      destruct (mkdtemp _); intros H; inversion H; subst; eauto.
    - intros H; inversion H; subst; eauto.
  Qed.
  Lemma make_path_cases v c c' r : make_path v c = (c', r) ->
    (cpolicy c' = cpolicy c /\ cmanager c' = cmanager c /\ made c' = made c /\ live c' = live c) /\
    (forall s, r = Ok s -> exists t, v = VStr t /\ s = expand t).
  Proof.
    unfold Policy.make_path, bind. destruct v as [|b|z|s|o];
      try (intros H; inversion H; subst; split; [auto|discriminate]).
    intros H. inversion H; subst c' r. clear H. split; [cbn; auto|].
    intros t. destruct (mkdir (expand s)); [|discriminate|discriminate]. intros H. inversion H. eauto.
  Qed.

  (** What from_config gives: a policy made from the options, and its temporary directory. *)
  Definition born g p : Prop :=
    g "cache-policy" = Ok (VStr (pname p)) /\ read g cache_keys = Ok (pconf p) /\
    (pk p = POff -> pdir p = None) /\ wf_policy p.

  Lemma construct_cases g k c c' r : construct g k c = (c', r) ->
    g "cache-policy" = Ok (VStr (match k with POff => "off" | PUser => "user" | PTmp => "temporary" end)) ->
    cpolicy c' = cpolicy c /\ cmanager c' = cmanager c /\ made c <= made c' /\
    match r with
    | Ok p => pk p = k /\ born g p /\ live c' = live c ++ dirs (Some p) /\
              (forall d, In d (dirs (Some p)) -> snd d < made c')
    | _ => live c' = live c
    end.
  Proof.
    intros H HG. unfold Policy.construct in H. destruct (read g cache_keys) as [cf|e|] eqn:ER;
      try (inversion H; subst; repeat split; auto; fail).
    pose proof (read_keys _ _ ER) as (K1 & K2 & K3 & K4 & K5 & K6).
    assert (KP : cget cf "cache-policy" = VStr (match k with POff => "off" | PUser => "user" | PTmp => "temporary" end)) by congruence.
    destruct k.
    - inversion H; subst. cbn [dirs pdir pk]. rewrite app_nil_r. repeat split; cbn; auto. intros d [].
    - destruct (make_path (cget cf "user-cache-directory") c) as [c1 r1] eqn:EP.
      apply make_path_cases in EP. destruct EP as ((A1 & A2 & A3 & A4) & A5).
      destruct r1 as [path|e|]; try (inversion H; subst; repeat split; auto; lia).
      destruct (temp_directory _ c1) as [c2 r2] eqn:ET. apply temp_directory_cases in ET.
      destruct ET as [(d & B1 & -> & ->)|[(-> & e & ->)|(-> & ->)]].
      + inversion H; subst. cbn [cpolicy cmanager made live dirs pdir pk].
        rewrite A4. split; [exact A1|]. split; [exact A2|]. split; [lia|]. split; [reflexivity|].
        split; [|split; [reflexivity|]].
        * unfold born, wf_policy. cbn [pk pconf ppath pdir pname]. split; [exact HG|]. split; [exact ER|]. split; [discriminate|]. split; [exact KP|]. eauto.
        * intros x [<-|[]]. cbn. lia.
      + inversion H; subst. repeat split; auto. lia.
      + inversion H; subst. repeat split; auto. lia.
    - destruct (make_path (cget cf "user-cache-directory") c) as [c1 r1] eqn:EP.
      apply make_path_cases in EP. destruct EP as ((A1 & A2 & A3 & A4) & A5).
      destruct r1 as [path|e|]; try (inversion H; subst; repeat split; auto; lia).
      inversion H; subst. cbn [dirs pdir pk]. rewrite app_nil_r. destruct (A5 _ eq_refl) as (t & T1 & T2).
      split; [exact A1|]. split; [exact A2|]. split; [lia|]. split; [reflexivity|].
      split; [|split; [exact A4|intros d []]].
      unfold born, wf_policy. cbn [pk pconf ppath pdir pname]. split; [exact HG|]. split; [exact ER|]. split; [discriminate|].
      split; [exact KP|]. split; [reflexivity|]. exists t. split; [exact T1|rewrite T2; reflexivity].
  Qed.

  Lemma from_config_cases g c c' r : from_config g c = (c', r) ->
    cpolicy c' = cpolicy c /\ cmanager c' = cmanager c /\ made c <= made c' /\
    match r with
    | Ok p => born g p /\ live c' = live c ++ dirs (Some p) /\ (forall d, In d (dirs (Some p)) -> snd d < made c')
    | _ => live c' = live c
    end.
  Proof.
    unfold Policy.from_config. destruct (g "cache-policy") as [v|e|] eqn:EG;
      try (intros H; inversion H; subst; repeat split; auto; fail).
    assert (D : forall (x : cache * result policy), (c, Raise NotImplementedError) = (c', r) ->
      cpolicy c' = cpolicy c /\ cmanager c' = cmanager c /\ made c <= made c' /\
      match r with
      | Ok p => born g p /\ live c' = live c ++ dirs (Some p) /\ (forall d, In d (dirs (Some p)) -> snd d < made c')
      | _ => live c' = live c
      end) by (intros _ H; inversion H; subst; repeat split; auto).
    destruct v as [|b|z|s|o]; try exact (D (c, Raise NotImplementedError)).
    assert (X : (s = "off" \/ s = "temporary" \/ s = "user") \/
                match VStr (Obj := Obj) s with
                | VStr "off" => construct g POff c | VStr "temporary" => construct g PTmp c
                | VStr "user" => construct g PUser c | _ => (c, Raise NotImplementedError) end
                = (c, Raise NotImplementedError)).
    { repeat (destruct s as [|[[] [] [] [] [] [] [] []] s]; try (right; reflexivity); try (left; tauto)). }
    destruct X as [[->|[->| ->]]|X].
    - intros H. apply construct_cases in H; [|exact EG]. destruct H as (A & B & C & D0). repeat split; auto.
      destruct r as [p|e|]; auto. tauto.
    - intros H. apply construct_cases in H; [|exact EG]. destruct H as (A & B & C & D0). repeat split; auto.
      destruct r as [p|e|]; auto. tauto.
    - intros H. apply construct_cases in H; [|exact EG]. destruct H as (A & B & C & D0). repeat split; auto.
      destruct r as [p|e|]; auto. tauto.
    - rewrite X. apply (D (c, Raise NotImplementedError)).
  Qed.

  (** The manager has the policy of the cache, and is connected to its database or to none. *)
  Definition told p (m : option (manager Obj)) : Prop :=
    managed p = true -> exists q conn, m = Some (mkMgr (Some q) conn) /\
      pk q = pk p /\ ppath q = ppath p /\ pdir q = pdir p /\
      cget (pconf q) "maximum-cache-size" = cget (pconf p) "maximum-cache-size" /\
      cget (pconf q) "maximum-cache-disk-usage" = cget (pconf p) "maximum-cache-disk-usage" /\
      (conn = None \/ conn = home_of Obj q).
  Definition in_touch c : Prop := forall p, cpolicy c = Some p -> told p (cmanager c).

  Lemma call_manager_cases c c' r p : call_manager_config_changed Obj check c = (c', r) ->
    cpolicy c = Some p -> cmanager c <> None ->
    cpolicy c' = Some p /\ made c' = made c /\ live c' = live c /\ needed c' = needed c /\
    cmanager c' <> None /\ told p (cmanager c').
  Proof.
    unfold Policy.call_manager_config_changed, manager_config_changed. intros H HP HM. rewrite HP in H.
    destruct (cmanager c) as [m|]; [|contradiction].
    destruct (check p) as [o rr]. inversion H; subst. cbn. rewrite HP. repeat split; auto; [discriminate|].
    intros _. exists p, (if o then home_of Obj p else None). repeat split; auto. destruct o; auto.
  Qed.

  Lemma make_policy_cases g c c' r : make_policy g c = (c', r) -> cpolicy c = None ->
    made c <= made c' /\
    ((exists p, cpolicy c' = Some p /\ born g p /\ live c' = live c ++ dirs (Some p) /\
       (forall d, In d (dirs (Some p)) -> snd d < made c') /\ told p (cmanager c')) \/
     (cpolicy c' = None /\ live c' = live c /\ r <> Ok tt)).
  Proof.
    intros H HN. unfold Policy.make_policy in H. rewrite HN in H.
    destruct (from_config g c) as [c1 r1] eqn:EF. apply from_config_cases in EF.
    destruct EF as (A1 & A2 & A3 & A4). rewrite HN in A1.
    destruct r1 as [p|e|].
    - destruct A4 as (B1 & B2 & B3).
      assert (T : forall d, call_manager_config_changed Obj check d = (c', r) -> cpolicy d = Some p -> cmanager d <> None ->
        made d = made c1 -> live d = live c1 -> made c <= made c' /\
        ((exists p, cpolicy c' = Some p /\ born g p /\ live c' = live c ++ dirs (Some p) /\
           (forall d, In d (dirs (Some p)) -> snd d < made c') /\ told p (cmanager c')) \/
         (cpolicy c' = None /\ live c' = live c /\ r <> Ok tt))).
      { intros d HD D1 D2 D3 D4. destruct (call_manager_cases _ _ _ _ HD D1 D2) as (X1 & X2 & X3 & X4 & X5 & X6).
        split; [lia|]. left. exists p. rewrite X2, X3, D3, D4. auto. }
      destruct (managed p) eqn:EM.
      + destruct (cmanager (with_policy Obj c1 (Some p))) as [m|] eqn:EC.
        * apply (T _ H); auto. rewrite EC. discriminate.
        * destruct B1 as (B1 & B1' & B1''). rewrite B1' in H. apply (T _ H); auto. discriminate.
      + inversion H; subst. split; [exact A3|]. left. exists p. cbn. repeat split; try apply B1; auto.
        intros X. congruence.
    - inversion H; subst. split; [exact A3|]. right. repeat split; auto. discriminate.
    - inversion H; subst. split; [exact A3|]. right. repeat split; auto. discriminate.
  Qed.

  Lemma make_policy_wf g c c' r : make_policy g c = (c', r) -> cpolicy c = None -> wf c ->
    wf c' /\ (forall p, cpolicy c' = Some p -> told p (cmanager c') /\ born g p).
  Proof.
    intros H HN (W1 & W2 & W3). rewrite HN in W1. cbn in W1. destruct (make_policy_cases _ _ _ _ H HN) as (A & [(p & B1 & B2 & B3 & B4 & B5)|(B1 & B2 & B3)]).
    - rewrite W1 in B3. cbn [app] in B3. split.
      + unfold wf. rewrite B1. split; [exact B3|]. split; [intros d; rewrite B3; apply B4|].
        intros q HQ. inversion HQ; subst q. apply B2.
      + intros q HQ. rewrite B1 in HQ. inversion HQ; subst q. auto.
    - split.
      + unfold wf. rewrite B1, B2. split; [exact W1|]. split; [rewrite W1; intros d []|discriminate].
      + rewrite B1. discriminate.
  Qed.

  Lemma get_policy_cases g c c' r : get_policy g c = (c', r) -> wf c ->
    wf c' /\ (in_touch c -> in_touch c') /\
    (forall p, r = Ok p -> cpolicy c' = Some p) /\
    (cpolicy c <> None -> c' = c /\ exists p, r = Ok p) /\
    (cpolicy c = None -> forall p, cpolicy c' = Some p -> born g p).
  Proof.
    unfold Policy.get_policy. intros H W. destruct (cpolicy c) as [p|] eqn:EC.
    - unfold Policy.make_policy in H. rewrite EC in H. rewrite EC in H. inversion H; subst.
      split; [exact W|]. split; [auto|]. split; [intros q HQ; inversion HQ; subst; exact EC|].
      split; [eauto|discriminate].
    - destruct (make_policy g c) as [c1 r1] eqn:EM. destruct (make_policy_wf _ _ _ _ EM EC W) as [A B].
      assert (c' = c1) by (destruct r1; inversion H; reflexivity). subst c'.
      split; [exact A|]. split; [intros _ p HP; apply B; exact HP|].
      split; [|split; [congruence|intros _ p HP; apply B; exact HP]].
      intros p ->. destruct r1 as [u|e|]; [|discriminate|discriminate].
      destruct (cpolicy c1); inversion H; reflexivity.
  Qed.

  Lemma drop_wf c : wf c -> wf (drop_policy c) /\ cpolicy (drop_policy c) = None.
  Proof.
    intros (W1 & W2 & W3). unfold Policy.drop_policy. destruct (cpolicy c) as [[k cf pa [[d n]|]]|] eqn:EC.
    - cbn in W1. rewrite W1. cbn. rewrite Nat.eqb_refl. cbn. split; [|reflexivity].
      unfold wf. cbn. split; [reflexivity|]. split; [intros ? []|discriminate].
    - split; [|reflexivity]. cbn in W1. unfold wf. cbn. split; [exact W1|]. rewrite W1. split; [intros ? []|discriminate].
    - split; [|reflexivity]. cbn in W1. unfold wf. cbn. split; [exact W1|]. rewrite W1. split; [intros ? []|discriminate].
  Qed.

  Lemma cget_aset_eq k v cf : cget (aset k v cf) k = v.
  Proof. unfold Policy.cget. rewrite alookup_aset_eq. reflexivity. Qed.
  Lemma cget_aset_neq k k' v cf : k <> k' -> cget (aset k v cf) k' = cget cf k'.
  Proof. intros N. unfold Policy.cget. rewrite alookup_aset_neq; [reflexivity|congruence]. Qed.

  Lemma update_keys_spec g out ks : forall cf ch cf' r, update_keys Obj obj_eqb g out ks cf ch = (cf', r) ->
    (forall k, In k out -> cget cf' k = cget cf k) /\
    (forall k, ~ In k ks -> cget cf' k = cget cf k) /\
    (forall b, r = Ok b ->
       (forall k, In k ks -> ~ In k out -> g k = Ok (cget cf' k)) /\
       (ch = true -> b = true) /\
       (b = false -> NoDup ks -> forall k, In k ks -> exists v, g k = Ok v /\ py_eq (cget cf k) v = true)).
  Proof.
    induction ks as [|k ks IH]; intros cf ch cf' r H; cbn [update_keys] in H.
    - inversion H; subst. split; [auto|]. split; [auto|]. intros b HB. inversion HB; subst.
      split; [intros ? []|]. split; [auto|]. intros _ _ ? [].
    - destruct (g k) as [v|e|] eqn:EG; [|inversion H; subst; repeat split; auto; discriminate|inversion H; subst; repeat split; auto; discriminate].
      destruct (IH _ _ _ _ H) as (A1 & A2 & A3). clear IH.
      set (cf1 := if existsb (String.eqb k) out then cf else aset k v cf) in *.
      assert (E1 : forall j, j <> k -> cget cf1 j = cget cf j).
      { intros j N. unfold cf1. destruct (existsb _ out); [reflexivity|]. apply cget_aset_neq. congruence. }
      assert (E2 : In k out -> cf1 = cf).
      { intros I. unfold cf1. assert (existsb (String.eqb k) out = true) as ->; [|reflexivity].
        apply existsb_exists. exists k. split; [exact I|apply String.eqb_refl]. }
      assert (E3 : ~ In k out -> cget cf1 k = v).
      { intros I. unfold cf1. assert (existsb (String.eqb k) out = false) as ->; [|apply cget_aset_eq].
        destruct (existsb (String.eqb k) out) eqn:EE; [|reflexivity]. exfalso. apply I.
        apply existsb_exists in EE. destruct EE as (x & X1 & X2). apply String.eqb_eq in X2. subst. exact X1. }
      split; [|split].
      + intros j J. rewrite A1 by exact J. destruct (string_dec j k) as [->|N]; [rewrite E2 by exact J; reflexivity|auto].
      + intros j J. cbn in J. rewrite A2 by tauto. apply E1. intros ->. tauto.
      + intros b HB. destruct (A3 b HB) as (B1 & B2 & B3). split; [|split].
        * intros j [->|J] NO; [|apply B1; assumption].
          destruct (in_dec string_dec j ks) as [I|I]; [apply B1; assumption|].
          rewrite A2 by exact I. rewrite E3 by exact NO. exact EG.
        * intros ->. apply B2. destruct (py_eq _ v); reflexivity.
        * intros -> HD. inversion HD as [|? ? N1 N2]; subst.
          assert (EQ : py_eq (cget cf k) v = true).
          { destruct (py_eq (cget cf k) v); [reflexivity|]. discriminate (B2 eq_refl). }
          intros j [->|J]; [eauto|]. destruct (B3 eq_refl N2 j J) as (w & W1 & W2). exists w. split; [exact W1|].
          rewrite E1 in W2; [exact W2|]. intros ->. contradiction.
  Qed.

  Lemma any_differs_false g cf ks : any_differs Obj obj_eqb g cf ks = Ok false ->
    forall k, In k ks -> exists v, g k = Ok v /\ py_eq (cget cf k) v = true.
  Proof.
    induction ks as [|k ks IH]; cbn; [intros _ ? []|]. unfold bind.
    destruct (g k) as [v|e|] eqn:EG; [|discriminate|discriminate].
    destruct (py_eq (cget cf k) v) eqn:EE; [|discriminate]. intros H j [<-|J]; eauto.
  Qed.

  Lemma py_eq_str s v : py_eq (VStr s) v = true -> v = VStr s.
  Proof. destruct v; cbn; try discriminate. intros H. apply String.eqb_eq in H. congruence. Qed.
  Lemma py_eq_none v : py_eq VNone v = true -> v = VNone.
  Proof. destruct v; cbn; congruence. Qed.

  (** What following the options means, in terms of the fields. *)
  Definition good g p : Prop :=
    g "cache-policy" = Ok (VStr (pname p)) /\
    (managed p = true ->
       g "maximum-cache-size" = Ok (cget (pconf p) "maximum-cache-size") /\
       g "maximum-cache-disk-usage" = Ok (cget (pconf p) "maximum-cache-disk-usage")) /\
    match pk p with
    | PUser => exists s, g "user-cache-directory" = Ok (VStr s) /\ ppath p = Some (expand s) /\
        cget (pconf p) "user-cache-directory" = VStr s
    | PTmp => exists v d n, g "temporary-cache-directory-root" = Ok v /\ parent v = Some d /\ pdir p = Some (d, n) /\
        cget (pconf p) "temporary-cache-directory-root" = v
    | POff => pdir p = None \/ exists n, pdir p = Some (None, n)
    end.

  Lemma born_good g p : born g p -> good g p.
  Proof.
    intros (A & B & C & D & E). pose proof (read_keys _ _ B) as (K1 & K2 & K3 & K4 & K5 & K6).
    split; [exact A|]. split; [auto|]. destruct (pk p).
    - apply E.
    - destruct E as (d & n & E1 & E2). eauto 8.
    - destruct E as (_ & s & E1 & E2). exists s. repeat split; congruence.
  Qed.

  (** A policy that is not outdated, after its update. *)
  Lemma update_cases g p p' r : update g p = (p', r) -> wf_policy p ->
    pk p' = pk p /\ ppath p' = ppath p /\ pdir p' = pdir p /\ wf_policy p' /\
    (outdated g p = Ok false -> forall b, r = Ok b -> good g p').
  Proof.
    unfold Policy.update, Policy.outdated. intros H W. destruct (update_keys _ _ _ _ _ _ _) as [cf rr] eqn:EU.
    inversion H; subst p' rr. clear H. apply update_keys_spec in EU. destruct EU as (A1 & A2 & A3).
    cbn [pk ppath pdir pconf]. split; [reflexivity|]. split; [reflexivity|]. split; [reflexivity|].
    assert (W' : wf_policy (mkPol (pk p) cf (ppath p) (pdir p))).
    { destruct W as [W1 W2]. unfold wf_policy. cbn [pk pconf ppath pdir].
      split; [rewrite A1 by (destruct (pk p); cbn; auto); exact W1|].
      destruct (pk p).
      - rewrite A1 by (cbn; auto). exact W2.
      - rewrite A1 by (cbn; auto). exact W2.
      - rewrite A1 by (cbn; auto). exact W2. }
    split; [exact W'|].
    intros HO b HB. pose proof (any_differs_false _ _ _ HO) as AD. destruct (A3 b HB) as (B1 & _ & _).
    destruct W as [W1 W2]. unfold good. cbn [pk pconf ppath pdir].
    split.
    { destruct (AD "cache-policy") as (v & V1 & V2); [destruct (pk p); cbn; auto|].
      rewrite W1 in V2. apply py_eq_str in V2. subst v. exact V1. }
    split.
    { intros _. split; (apply B1; [cbn; tauto|destruct (pk p); cbn; intros [X|[X|[]]]; discriminate]). }
    destruct (pk p).
    - apply W2.
    - destruct W2 as (d & n & E1 & E2). destruct (AD "temporary-cache-directory-root") as (v & V1 & V2); [cbn; auto|].
      exists v, d, n. split; [exact V1|]. rewrite A1 by (cbn; auto).
      destruct (cget (pconf p) "temporary-cache-directory-root"); cbn in E2; try discriminate.
      + apply py_eq_none in V2. subst v. auto.
      + apply py_eq_str in V2. subst v. auto.
    - destruct W2 as (_ & s & E1 & E2). destruct (AD "user-cache-directory") as (v & V1 & V2); [cbn; auto|].
      rewrite E1 in V2. apply py_eq_str in V2. subst v. rewrite A1 by (cbn; auto). eauto.
  Qed.

  Lemma wf_with_policy c p p' : wf c -> cpolicy c = Some p -> pdir p' = pdir p -> wf_policy p' -> wf (with_policy Obj c (Some p')).
  Proof.
    intros (W1 & W2 & W3) HC HD HW. rewrite HC in W1. cbn in W1. unfold wf. cbn. rewrite HD.
    split; [exact W1|]. split; [exact W2|]. intros q HQ. inversion HQ; subst; assumption.
  Qed.

  Lemma changed_cases g c c' r : config_changed g c = (c', r) -> wf c ->
    wf c' /\ (r = Ok tt -> exists p, cpolicy c' = Some p /\ good g p).
  Proof.
    intros H W. unfold Policy.config_changed in H. destruct (g "cache-policy") as [v|e|] eqn:EG;
      [|inversion H; subst; split; [exact W|discriminate]|inversion H; subst; split; [exact W|discriminate]].
    destruct v as [|b|z|s|o]; try (inversion H; subst; split; [exact W|discriminate]).
    destruct (get_policy g c) as [c1 r1] eqn:EP. apply get_policy_cases in EP; [|exact W].
    destruct EP as (A1 & A2 & A3 & A4 & A5).
    destruct r1 as [p|e|]; try (inversion H; subst; split; [exact A1|discriminate]).
    pose proof (A3 _ eq_refl) as HC.
    destruct (outdated g p) as [[|]|e|] eqn:EO; try (inversion H; subst; split; [exact A1|discriminate]).
    - destruct (drop_wf _ A1) as [D1 D2]. destruct (make_policy_wf _ _ _ _ H D2 D1) as [M1 M2]. split; [exact M1|].
      intros ->. destruct (make_policy_cases _ _ _ _ H D2) as (_ & [(q & Q1 & Q2 & _)|(_ & _ & N)]); [|contradiction].
      exists q. split; [exact Q1|]. apply born_good. exact Q2.
    - destruct (update g p) as [p' r2] eqn:EU. apply update_cases in EU; [|apply A1; exact HC].
      destruct EU as (U1 & U2 & U3 & U4 & U5).
      pose proof (wf_with_policy _ _ _ A1 HC U3 U4) as W2.
      destruct r2 as [ch|e|]; try (inversion H; subst; split; [exact W2|discriminate]).
      destruct (ch && managed p') eqn:EB.
      + destruct (call_manager_config_changed Obj check (with_policy Obj c1 (Some p'))) as [c2 r3] eqn:EM.
        inversion H; subst c2 r3. unfold Policy.call_manager_config_changed in EM.
        cbn [cpolicy cmanager with_policy] in EM. destruct (cmanager c1) as [m|].
        * destruct (manager_config_changed Obj check p') as [m' r']. inversion EM; subst.
          split; [exact W2|]. intros _. exists p'. split; [reflexivity|]. eapply U5; [exact EO|reflexivity].
        * inversion EM; subst. split; [exact W2|discriminate].
      + inversion H; subst. split; [exact W2|]. intros _. exists p'. split; [reflexivity|].
        eapply U5; [exact EO|reflexivity].
  Qed.

  Lemma policy_directory_cases p c c' p' r : policy_directory p c = (c', p', r) ->
    wf c -> cpolicy c = Some p ->
    wf (with_policy Obj c' (Some p')) /\ pk p' = pk p /\ ppath p' = ppath p /\ pconf p' = pconf p /\
    cmanager c' = cmanager c /\
    (managed p = true -> c' = c /\ p' = p /\ exists d, r = Ok d /\ home_of Obj p = Some d) /\
    (managed p = false -> forall d, r = Ok d -> exists n, d = Temp None n /\ pdir p' = Some (None, n)) /\
    (pdir p <> None -> c' = c /\ p' = p).
  Proof.
    intros H W HC. pose proof (proj2 (proj2 W) _ HC) as WP. unfold Policy.policy_directory in H.
    assert (K : with_policy Obj c (Some p) = c) by (destruct c; cbn in *; subst; reflexivity).
    assert (E : forall rr, (pdir p <> None \/ forall d, rr <> Ok d) -> managed p = false ->
      (forall d, rr = Ok d -> exists n, d = Temp None n /\ pdir p = Some (None, n)) ->
      wf (with_policy Obj c (Some p)) /\ pk p = pk p /\ ppath p = ppath p /\ pconf p = pconf p /\
      cmanager c = cmanager c /\
      (managed p = true -> c = c /\ p = p /\ exists d, rr = Ok d /\ home_of Obj p = Some d) /\
      (managed p = false -> forall d, rr = Ok d -> exists n, d = Temp None n /\ pdir p = Some (None, n)) /\
      (pdir p <> None -> c = c /\ p = p)).
    { intros rr _ M X. rewrite K. split; [exact W|]. do 4 (split; [reflexivity|]). split; [congruence|]. auto. }
    assert (F : forall d, home_of Obj p = Some d -> managed p = true ->
      wf (with_policy Obj c (Some p)) /\ pk p = pk p /\ ppath p = ppath p /\ pconf p = pconf p /\
      cmanager c = cmanager c /\
      (managed p = true -> c = c /\ p = p /\ exists d', Ok d = Ok d' /\ home_of Obj p = Some d') /\
      (managed p = false -> forall d', Ok d = Ok d' -> exists n, d' = Temp None n /\ pdir p = Some (None, n)) /\
      (pdir p <> None -> c = c /\ p = p)).
    { intros d X M. rewrite K. split; [exact W|]. do 4 (split; [reflexivity|]). split; [eauto|]. split; [congruence|auto]. }
    destruct WP as [WP1 WP2]. destruct (pk p) eqn:EK.
    - destruct WP2 as [WP2 WP3].
      assert (M : managed p = false) by (unfold managed; rewrite EK; reflexivity).
      destruct (pdir p) as [[d n]|] eqn:ED.
      + inversion H; subst. rewrite ?ED in *. rewrite ?EK. apply E; [left; discriminate|exact M|].
        intros x HX. inversion HX; subst. destruct WP3 as [X|(m & X)]; [discriminate|]. inversion X; subst. eauto.
      + rewrite WP2 in H. destruct (temp_directory VNone c) as [c1 r1] eqn:ET. apply temp_directory_cases in ET.
        destruct ET as [(d & B1 & -> & ->)|[(-> & e & ->)|(-> & ->)]].
        * cbn in B1. inversion B1; subst d. inversion H; subst. cbn [pk ppath pconf pdir cmanager].
          destruct W as (W1 & W2 & W3). rewrite HC in W1. cbn in W1. rewrite ED in W1.
          split.
          { unfold wf. cbn. rewrite W1. cbn. split; [reflexivity|]. split; [intros x [<-|[]]; cbn; lia|].
            intros q HQ. inversion HQ; subst q. unfold wf_policy. cbn. unfold pname in WP1. rewrite EK in WP1.
            split; [exact WP1|]. split; [exact WP2|]. eauto. }
          do 4 (split; [reflexivity|]). split; [congruence|]. split; [|congruence].
          intros _ x HX. inversion HX; subst. eauto.
        * inversion H; subst. rewrite ?ED in *. rewrite ?EK. apply E; [right; discriminate|exact M|discriminate].
        * inversion H; subst. rewrite ?ED in *. rewrite ?EK. apply E; [right; discriminate|exact M|discriminate].
    - destruct WP2 as (d & n & E1 & E2). rewrite E1 in H. inversion H; subst.
      rewrite ?EK. apply F; [unfold home_of; rewrite EK, E1; reflexivity|unfold managed; rewrite EK; reflexivity].
    - destruct WP2 as (_ & s & E1 & E2). rewrite E2 in H. inversion H; subst.
      rewrite ?EK. apply F; [unfold home_of; rewrite EK, E2; reflexivity|unfold managed; rewrite EK; reflexivity].
  Qed.

  Lemma directory_wf g c c' r : directory g c = (c', r) -> wf c -> wf c' /\ (in_touch c -> in_touch c').
  Proof.
    unfold Policy.directory. intros H W. destruct (get_policy g c) as [c1 r1] eqn:EP.
    apply get_policy_cases in EP; [|exact W]. destruct EP as (A1 & A2 & A3 & A4 & A5).
    destruct r1 as [p|e|]; try (inversion H; subst; auto; fail).
    pose proof (A3 _ eq_refl) as HC. destruct (policy_directory p c1) as [[c2 p'] r2] eqn:ED.
    inversion H; subst. destruct (policy_directory_cases _ _ _ _ _ ED A1 HC) as (B1 & B2 & B3 & B4 & B5 & B6 & B7 & B8).
    split; [exact B1|]. intros IT q HQ. cbn in HQ. inversion HQ; subst q. cbn. rewrite B5.
    specialize (A2 IT p HC). intros HM.
    assert (managed p = true) as M by (unfold managed in *; rewrite <- B2; exact HM).
    destruct (B6 M) as (-> & -> & _). apply A2. exact M.
  Qed.
  Lemma database_wf g c c' r : database g c = (c', r) -> wf c -> wf c' /\ (in_touch c -> in_touch c').
  Proof.
    unfold Policy.database. intros H W. destruct (get_policy g c) as [c1 r1] eqn:EP.
    apply get_policy_cases in EP; [|exact W]. destruct EP as (A1 & A2 & A3 & A4 & A5).
    destruct r1 as [p|e|]; try (inversion H; subst; auto; fail).
    pose proof (A3 _ eq_refl) as HC. destruct (managed p) eqn:EM; [|inversion H; subst; auto].
    destruct (cmanager c1) as [m|] eqn:EC; [|inversion H; subst; auto].
    destruct (connection Obj m) as [m' d] eqn:ECN. inversion H; subst. split; [exact A1|].
    intros IT q HQ. cbn in HQ. rewrite HC in HQ. inversion HQ; subst q. specialize (A2 IT p HC). rewrite EC in A2.
    intros M. destruct (A2 M) as (q & conn & E1 & E2 & E3 & E4 & E5 & E6 & E7). inversion E1; subst m. cbn.
    unfold connection in ECN. cbn [mpolicy mconn] in ECN. destruct conn as [x|].
    - inversion ECN; subst. exists q, (Some x). repeat split; auto.
    - destruct (managed q); inversion ECN; subst; [exists q, (home_of Obj q)|exists q, None]; repeat split; auto.
  Qed.

  Lemma after_wf h : wf (after h).
  Proof.
    unfold after. assert (G : forall c, wf c -> wf (fold_left step h c)).
    { induction h as [|e h IH]; intros c W; cbn; [exact W|]. apply IH. destruct e; cbn.
      - destruct (config_changed g c) eqn:E. eapply changed_cases; eassumption.
      - destruct (get_policy g c) eqn:E. eapply get_policy_cases; eassumption.
      - destruct (directory g c) eqn:E. eapply directory_wf; eassumption.
      - destruct (database g c) eqn:E. eapply database_wf; eassumption. }
    apply G. split; [reflexivity|]. split; [intros ? []|discriminate].
  Qed.

  (** The options can be read, and the two limits read as numbers or None. *)
  Definition readable g : Prop := forall k, In k ("temporary-directory-root" :: cache_keys) -> exists v, g k = Ok v.
  Definition limits g : Prop := forall k v, In k ["maximum-cache-size"; "maximum-cache-disk-usage"] -> g k = Ok v ->
    v = VNone \/ exists z, v = VInt z.
  Definition number v : Prop := v = VNone \/ exists z, v = VInt z.
  Definition numbers c : Prop := forall p, cpolicy c = Some p ->
    number (cget (pconf p) "maximum-cache-size") /\ number (cget (pconf p) "maximum-cache-disk-usage").

  Lemma py_eq_number v w : number v -> number w -> py_eq v w = true -> v = w.
  Proof.
    intros [->|(x & ->)] [->|(y & ->)]; cbn; try discriminate; [reflexivity|]. intros H. apply Z.eqb_eq in H. congruence.
  Qed.
  Lemma born_numbers g p : born g p -> limits g ->
    number (cget (pconf p) "maximum-cache-size") /\ number (cget (pconf p) "maximum-cache-disk-usage").
  Proof.
    intros (_ & B & _) L. pose proof (read_keys _ _ B) as (K1 & K2 & K3 & K4 & K5 & K6).
    split; eapply L; try eassumption; cbn; auto.
  Qed.

  Lemma get_policy_numbers g c c' r : get_policy g c = (c', r) -> wf c -> limits g -> numbers c -> numbers c'.
  Proof.
    intros H W L N. apply get_policy_cases in H; [|exact W]. destruct H as (A1 & A2 & A3 & A4 & A5).
    destruct (cpolicy c) as [p|] eqn:EC.
    - destruct A4 as [-> _]; [discriminate|]. exact N.
    - intros p HP. eapply born_numbers; [apply A5; [reflexivity|exact HP]|exact L].
  Qed.

  Lemma update_keys_reads g out ks : forall cf ch cf' r, update_keys Obj obj_eqb g out ks cf ch = (cf', r) ->
    (forall k, In k ks -> exists v, g k = Ok v) -> exists b, r = Ok b.
  Proof.
    induction ks as [|k ks IH]; intros cf ch cf' r H HR; cbn in H; [inversion H; eauto|].
    destruct (HR k) as (v & HV); [cbn; auto|]. rewrite HV in H. eapply IH; [exact H|]. intros j J. apply HR. cbn. auto.
  Qed.
  Lemma keys_nodup : NoDup cache_keys.
  Proof. unfold cache_keys. repeat constructor; cbn; intuition discriminate. Qed.

  Lemma changed_touch g c c' r : config_changed g c = (c', r) -> wf c -> (readable g \/ r = Ok tt) -> limits g ->
    numbers c -> in_touch c -> numbers c' /\ in_touch c'.
  Proof.
    intros H W HR L N T. unfold Policy.config_changed in H. destruct (g "cache-policy") as [v|e|] eqn:EG;
      try (inversion H; subst; auto; fail).
    destruct v as [|b|z|s|o]; try (inversion H; subst; auto; fail).
    destruct (get_policy g c) as [c1 r1] eqn:EP. pose proof (get_policy_numbers _ _ _ _ EP W L N) as N1.
    apply get_policy_cases in EP; [|exact W]. destruct EP as (A1 & A2 & A3 & A4 & A5). specialize (A2 T).
    destruct r1 as [p|e|]; try (inversion H; subst; auto; fail).
    pose proof (A3 _ eq_refl) as HC.
    destruct (outdated g p) as [[|]|e|] eqn:EO; try (inversion H; subst; auto; fail).
    - destruct (drop_wf _ A1) as [D1 D2]. destruct (make_policy_wf _ _ _ _ H D2 D1) as [M1 M2].
      split; intros q HQ; destruct (M2 _ HQ) as [X Y]; [|exact X]. eapply born_numbers; eassumption.
    - destruct (update g p) as [p' r2] eqn:EU. pose proof EU as EU'. apply update_cases in EU'; [|apply A1; exact HC].
      destruct EU' as (U1 & U2 & U3 & U4 & U5).
      unfold Policy.update in EU. destruct (update_keys _ _ _ _ _ _ _) as [cf rr] eqn:EUK. inversion EU; subst p' rr. clear EU.
      assert (exists ch, r2 = Ok ch) as (ch & ->).
      { destruct HR as [HR| ->]; [exact (update_keys_reads _ _ _ _ _ _ _ EUK (fun k K => HR k (or_intror K)))|].
        destruct r2 as [ch|e|]; [eauto|discriminate|discriminate]. }
      apply update_keys_spec in EUK. destruct EUK as (K1 & K2 & K3). destruct (K3 _ eq_refl) as (B1 & B2 & B3).
      assert (NI : forall k, In k ["maximum-cache-size"; "maximum-cache-disk-usage"] ->
        In k cache_keys /\ ~ In k (outdated_keys (pk p))).
      { intros k [<-|[<-|[]]]; (split; [cbn; tauto|destruct (pk p); cbn; intros [X|[X|[]]]; discriminate]). }
      assert (NV : forall k, In k ["maximum-cache-size"; "maximum-cache-disk-usage"] -> number (cget cf k)).
      { intros k K. destruct (NI k K) as [I1 I2]. apply (L k); [exact K|]. apply B1; assumption. }
      assert (N2 : forall m, numbers (with_manager Obj (with_policy Obj c1 (Some (mkPol (pk p) cf (ppath p) (pdir p)))) m)).
      { intros m q HQ. cbn in HQ. inversion HQ; subst q. cbn [pconf]. split; apply NV; cbn; auto. }
      cbn [managed pk] in H.
      destruct (ch && managed (mkPol (pk p) cf (ppath p) (pdir p))) eqn:EB.
      + apply andb_true_iff in EB. destruct EB as [-> EB].
        assert (HM : managed p = true) by exact EB.
        destruct (A2 p HC HM) as (q0 & conn & Q & _).
        pose proof H as H'. unfold Policy.call_manager_config_changed, Policy.manager_config_changed in H'.
        cbn [cpolicy cmanager with_policy] in H'. rewrite Q in H'. destruct (check _) as [oo rr]. inversion H'; subst c' rr.
        split; [apply N2|].
        destruct (call_manager_cases _ _ _ (mkPol (pk p) cf (ppath p) (pdir p)) H) as (X1 & X2 & X3 & X4 & X5 & X6);
          [reflexivity|cbn; rewrite Q; discriminate|].
        intros q HQ. rewrite X1 in HQ. inversion HQ; subst q. exact X6.
      + inversion H; subst. split; [exact (N2 (cmanager c1))|]. intros q HQ. cbn in HQ. inversion HQ; subst q.
        intros HM. unfold managed in HM. cbn [pk] in HM. cbn [cmanager with_policy].
        change (match pk p with POff => false | _ => true end) with (managed p) in HM.
        change (managed (mkPol (pk p) cf (ppath p) (pdir p))) with (managed p) in EB. rewrite HM in EB.
        rewrite andb_true_r in EB. subst ch.
        destruct (A2 p HC HM) as (q & conn & Q1 & Q2 & Q3 & Q4 & Q5 & Q6 & Q7).
        exists q, conn. cbn [pk ppath pdir pconf]. repeat split; auto.
        * rewrite Q5. destruct (B3 eq_refl keys_nodup "maximum-cache-size") as (w & W1 & W2); [cbn; tauto|].
          destruct (NI "maximum-cache-size") as [I1 I2]; [cbn; auto|]. pose proof (B1 _ I1 I2) as B.
          assert (w = cget cf "maximum-cache-size") by congruence. subst w.
          apply py_eq_number; [apply (N1 p HC)|apply NV; cbn; auto|exact W2].
        * rewrite Q6. destruct (B3 eq_refl keys_nodup "maximum-cache-disk-usage") as (w & W1 & W2); [cbn; tauto|].
          destruct (NI "maximum-cache-disk-usage") as [I1 I2]; [cbn; auto|]. pose proof (B1 _ I1 I2) as B.
          assert (w = cget cf "maximum-cache-disk-usage") by congruence. subst w.
          apply py_eq_number; [apply (N1 p HC)|apply NV; cbn; auto|exact W2].
  Qed.

  Lemma directory_numbers g c c' r : directory g c = (c', r) -> wf c -> limits g -> numbers c -> numbers c'.
  Proof.
    unfold Policy.directory. intros H W L N. destruct (get_policy g c) as [c1 r1] eqn:EP.
    pose proof (get_policy_numbers _ _ _ _ EP W L N) as N1.
    apply get_policy_cases in EP; [|exact W]. destruct EP as (A1 & A2 & A3 & A4 & A5).
    destruct r1 as [p|e|]; try (inversion H; subst; auto; fail).
    pose proof (A3 _ eq_refl) as HC. destruct (policy_directory p c1) as [[c2 p'] r2] eqn:ED.
    inversion H; subst. destruct (policy_directory_cases _ _ _ _ _ ED A1 HC) as (B1 & B2 & B3 & B4 & B5 & B6 & B7 & B8).
    intros q HQ. cbn in HQ. inversion HQ; subst q. rewrite B4. apply N1. exact HC.
  Qed.
  Lemma database_numbers g c c' r : database g c = (c', r) -> wf c -> limits g -> numbers c -> numbers c'.
  Proof.
    unfold Policy.database. intros H W L N. destruct (get_policy g c) as [c1 r1] eqn:EP.
    pose proof (get_policy_numbers _ _ _ _ EP W L N) as N1.
    destruct r1 as [p|e|]; try (inversion H; subst; auto; fail).
    destruct (managed p); [|inversion H; subst; exact N1].
    destruct (cmanager c1) as [m|]; [|inversion H; subst; exact N1].
    destruct (connection Obj m) as [m' d]. inversion H; subst. intros q HQ. apply N1. exact HQ.
  Qed.

  Lemma after_touch h : (forall e, In e h -> readable (event_reader e) /\ limits (event_reader e)) ->
    numbers (after h) /\ in_touch (after h).
  Proof.
    unfold after. assert (G : forall c, wf c -> numbers c -> in_touch c ->
      (forall e, In e h -> readable (event_reader e) /\ limits (event_reader e)) ->
      numbers (fold_left step h c) /\ in_touch (fold_left step h c)).
    { induction h as [|e h IH]; intros c W N T HR; cbn; [auto|].
      destruct (HR e) as [R L]; [cbn; auto|].
      assert (wf (step c e) /\ numbers (step c e) /\ in_touch (step c e)) as (X & Y & Z0).
      { destruct e; cbn in *.
        - destruct (config_changed g c) eqn:E. split; [eapply changed_cases; eassumption|]. eapply changed_touch; try eassumption. left. exact R.
        - destruct (get_policy g c) eqn:E. split; [eapply get_policy_cases; eassumption|].
          split; [eapply get_policy_numbers; eassumption|]. eapply get_policy_cases; eassumption.
        - destruct (directory g c) eqn:E. split; [eapply directory_wf; eassumption|].
          split; [eapply directory_numbers; eassumption|]. eapply directory_wf; eassumption.
        - destruct (database g c) eqn:E. split; [eapply database_wf; eassumption|].
          split; [eapply database_numbers; eassumption|]. eapply database_wf; eassumption. }
      apply IH; auto. intros e' I. apply HR. cbn. auto. }
    intros HR. apply G; auto.
    - split; [reflexivity|]. split; [intros ? []|discriminate].
    - intros p HP. discriminate.
    - intros p HP. discriminate.
  Qed.
End PolicyProofs.
