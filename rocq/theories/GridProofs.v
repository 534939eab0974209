(** Proofs about gridspec.py that need no real numbers. *)
From Verif Require Import PyBase ListLemmas PyStr Float64 GridSpec GridVocab.
Set Default Proof Using "Type".

Local Open Scope string_scope.
Local Open Scope list_scope.
Local Open Scope Z_scope.

(** ** Dictionaries *)
Lemma alookup_aset {A} k k' (v : A) l :
  alookup k' (aset k v l) = if String.eqb k k' then Some v else alookup k' l.
Proof.
  destruct (String.eqb_spec k k') as [->|N]; [apply alookup_aset_eq|apply alookup_aset_neq, N].
Qed.
Lemma alookup_aremove {A} k k' (l : list (string * A)) :
  alookup k' (aremove k l) = if String.eqb k k' then None else alookup k' l.
Proof.
  destruct (String.eqb_spec k k') as [->|N]; [apply alookup_aremove_eq|apply alookup_aremove_neq, N].
Qed.
Lemma alookup_normalise k d : alookup k (normalise d) = given d k.
Proof.
  unfold given. induction d as [|[k' v] d IH]; cbn; [reflexivity|]. destruct (String.eqb k k'); [reflexivity|exact IH].
Qed.
Lemma alookup_dupdate e : NoDup (akeys e) -> forall d k,
  alookup k (dupdate d e) = match alookup k e with Some v => Some v | None => alookup k d end.
Proof.
  unfold dupdate. induction e as [|[k' v] e IH]; cbn; intros HN d k; [reflexivity|]. inversion HN; subst.
  rewrite (IH H2), alookup_aset. rewrite String.eqb_sym. destruct (String.eqb_spec k k') as [->|N].
  - replace (alookup k' e) with (@None val); [reflexivity|]. symmetry. apply alookup_None. exact H1.
  - reflexivity.
Qed.
Lemma setdefault_lookup k k' v d :
  alookup k' (setdefault k v d) = if String.eqb k k' then or_else (alookup k d) v else alookup k' d.
Proof.
  unfold setdefault, amem. destruct (alookup k d) as [w|] eqn:E.
  - destruct (String.eqb_spec k k') as [->|N]; [exact E|reflexivity].
  - rewrite alookup_aset. destruct (String.eqb k k'); reflexivity.
Qed.

Lemma untuple_idem v : untuple (untuple v) = untuple v.
Proof. destruct v; reflexivity. Qed.
Lemma normalise_aset k v d : normalise (aset k v d) = aset k (untuple v) (normalise d).
Proof.
  unfold normalise. induction d as [|[k' w] d IH]; cbn; [reflexivity|].
  destruct (String.eqb k k'); cbn; [reflexivity|]. rewrite IH. reflexivity.
Qed.
Lemma normalise_dupdate e : forall d, normalise (dupdate d e) = dupdate (normalise d) (normalise e).
Proof.
  unfold dupdate. induction e as [|[k v] e IH]; intros d; [reflexivity|].
  change (normalise ((k, v) :: e)) with ((k, untuple v) :: normalise e). cbn [fold_left fst snd].
  rewrite IH, normalise_aset. reflexivity.
Qed.
Lemma normalise_idem d : normalise (normalise d) = normalise d.
Proof.
  unfold normalise. rewrite map_map. apply map_ext. intros [k v]. cbn. rewrite untuple_idem. reflexivity.
Qed.

(** ** Everything depends on the dictionary through its lookups *)
Lemma same_refl d : same_dict d d. Proof. intros k. reflexivity. Qed.
Lemma same_sym d e : same_dict d e -> same_dict e d. Proof. intros H k. symmetry. apply H. Qed.
Lemma same_trans d e f : same_dict d e -> same_dict e f -> same_dict d f.
Proof. intros A B k. rewrite A. apply B. Qed.
Lemma same_aset k v d e : same_dict d e -> same_dict (aset k v d) (aset k v e).
Proof. intros H k'. rewrite !alookup_aset. destruct (String.eqb k k'); [reflexivity|apply H]. Qed.
Lemma same_aremove k d e : same_dict d e -> same_dict (aremove k d) (aremove k e).
Proof. intros H k'. rewrite !alookup_aremove. destruct (String.eqb k k'); [reflexivity|apply H]. Qed.
Lemma same_setdefault k v d e : same_dict d e -> same_dict (setdefault k v d) (setdefault k v e).
Proof. intros H k'. rewrite !setdefault_lookup, !H. reflexivity. Qed.
Lemma same_dget k d e : same_dict d e -> dget k d = dget k e.
Proof. intros H. unfold dget. rewrite H. reflexivity. Qed.
Lemma same_amem k d e : same_dict d e -> amem k d = amem k e.
Proof. intros H. unfold amem. rewrite H. reflexivity. Qed.
Lemma same_infer d e : same_dict d e -> infer d = infer e.
Proof. intros H. unfold infer. rewrite (H "type"), (same_dget "grid" d e H). reflexivity. Qed.
Lemma same_global_flags d e : same_dict d e -> global_flags d = global_flags e.
Proof. intros H. unfold global_flags. rewrite (H "global"), (same_dget "area" d e H). reflexivity. Qed.

Lemma same_result_flags c d e : same_dict d e ->
  same_result (f <- global_flags d ;; Ok (mkG c d f f)) (f <- global_flags e ;; Ok (mkG c e f f)).
Proof.
  intros H. rewrite (same_global_flags d e H). destruct (global_flags e) as [f|x|] eqn:E; cbn; auto.
  - unfold same_spec. cbn. auto.
  - unfold global_flags, dget in E. destruct (alookup "area" e); cbn in E; [|discriminate].
    destruct (truthy _); [discriminate|]. revert E. unfold same_area.
    destruct (elems v) as [l|x|] eqn:EV; cbn [bind]; try discriminate.
    + cbn [elems DEFAULT_AREA bind]. set (m := [VInt 90; _; _; _]).
      destruct (Nat.eqb _ _); cbn [bind]; try discriminate.
      assert (forall l m, all_same l m DEGREE_EPS <> OutOfFuel).
      { clear. induction l as [|x l IH]; intros [|y m]; cbn; try discriminate.
        unfold same_coord. destruct (as_num x) as [a|], (as_num y) as [b|]; cbn; try discriminate.
        assert (N : nsub a b <> OutOfFuel).
        { unfold nsub, to_float, int_float. destruct a as [za|fa], b as [zb|fb]; cbn; try discriminate;
            try (destruct (of_Z za)); try (destruct (of_Z zb)); cbn; discriminate. }
        destruct (nsub a b); cbn; try discriminate; [|contradiction]. destruct (nltb _ _); [apply IH|discriminate]. }
      destruct (all_same l m DEGREE_EPS) eqn:EA; cbn; intros EX; try discriminate EX. exact (H0 _ _ EA).
    + intros _. destruct v; discriminate EV.
Qed.

Lemma same_init c d e : same_dict d e -> same_result (init c d) (init c e).
Proof.
  intros H. destruct c; cbn [init].
  - unfold init_LL. rewrite !(same_amem _ d e H), !(same_dget _ d e H).
    destruct (negb (amem "global" e) && negb (amem "area" e)); cbn [bind].
    + destruct (dget "grid" e) as [g|x|] eqn:E; cbn [bind]; [|reflexivity|unfold dget in E; destruct (alookup _ _); discriminate].
      assert (NF : forall v n, index v n <> OutOfFuel).
      { intros v n. unfold index. destruct v; cbn; try discriminate; destruct (nth_error _ _); discriminate. }
      destruct (index g 0) as [x|x|] eqn:E0; cbn [bind]; [|reflexivity|exact (NF _ _ E0)].
      destruct (index g 1) as [y|y|] eqn:E1; cbn [bind]; [|reflexivity|exact (NF _ _ E1)].
      destruct (hashable x && hashable y); cbn [bind]; [|reflexivity].
      apply same_result_flags, same_setdefault, same_aset, same_aset, H.
    + apply same_result_flags, same_setdefault, H.
  - apply same_result_flags, same_setdefault, H.
  - unfold init_HP. cbn. rewrite (H "ordering"). unfold same_spec. cbn. split; [reflexivity|]. split; [|auto].
    destruct (alookup "ordering" e); apply same_setdefault; [apply same_aset, same_aremove|]; exact H.
  - cbn. unfold same_spec. auto.
Qed.

Lemma from_dict_same d e : same_dict (normalise (dupdate DEFAULTS d)) (normalise (dupdate DEFAULTS e)) ->
  same_result (from_dict d) (from_dict e).
Proof.
  intros H. unfold from_dict. rewrite (same_infer _ _ H). destruct (infer _) as [[c|]|x|] eqn:E; cbn; auto.
  - apply same_init, same_aset, H.
  - unfold infer, dget in E. destruct (alookup "type" _) as [[| | | | | | ]|]; try discriminate; cbn in E;
      try (destruct (alookup "grid" _); discriminate).
    destruct (_ : bool) in E; discriminate.
Qed.

Lemma lookup_norm d k : NoDup (akeys d) ->
  alookup k (normalise (dupdate DEFAULTS d)) =
  match given d k with Some v => Some v | None => if existsb (String.eqb k) flags then Some (VInt 0) else None end.
Proof.
  intros HN. rewrite alookup_normalise. unfold given at 1. rewrite (alookup_dupdate d HN). unfold given.
  destruct (alookup k d) as [v|]; [reflexivity|]. cbn. rewrite orb_false_r.
  destruct (String.eqb k "i_scans_negatively"); [reflexivity|].
  destruct (String.eqb k "j_points_consecutive"); [reflexivity|].
  destruct (String.eqb k "j_scans_positively"); reflexivity.
Qed.

Lemma key_order_free d e : NoDup (akeys d) -> NoDup (akeys e) -> same_dict d e ->
  same_result (from_dict d) (from_dict e).
Proof.
  intros Hd He H. apply from_dict_same. intros k. rewrite !lookup_norm by assumption. unfold given. rewrite H. reflexivity.
Qed.
Lemma tuple_free d : from_dict (normalise d) = from_dict d.
Proof. unfold from_dict. rewrite !normalise_dupdate, normalise_idem. reflexivity. Qed.

(** ** The contents of a finished specification *)
Definition table_of (d : dict) : val :=
  match given d "grid" with
  | Some (VList (x :: y :: _)) => table_area x y
  | Some (VStr (String a (String b _))) => table_area (VStr (String a "")) (VStr (String b ""))
  | _ => VNone
  end.

Lemma contents_ok d g k : NoDup (akeys d) -> from_dict d = Ok g ->
  alookup k (gd g) = contents (table_of d) (cls g) d k.
Proof.
  intros HN H. unfold from_dict in H. pose proof (lookup_norm d) as L.
  set (n := normalise (dupdate DEFAULTS d)) in *. destruct (infer n) as [[c|]|x|]; try discriminate. cbn [bind] in H.
  assert (LK : forall k, alookup k (aset "type" (VStr (type_name c)) n) =
            if String.eqb k "type" then Some (VStr (type_name c)) else
            match given d k with Some v => Some v | None => if existsb (String.eqb k) flags then Some (VInt 0) else None end).
  { intros k'. rewrite alookup_aset, String.eqb_sym. destruct (String.eqb k' "type"); [reflexivity|apply L; exact HN]. }
  remember (aset "type" (VStr (type_name c)) n) as m. clear Heqm L n.
  destruct c; cbn [init] in H.
  - unfold init_LL in H. unfold amem in H. rewrite (LK "global"), (LK "area") in H. cbn [String.eqb existsb flags orb Ascii.eqb Bool.eqb] in H.
    destruct (given d "global") as [gv|] eqn:Eg; [|destruct (given d "area") as [av|] eqn:Ea]; cbn [negb andb bind] in H.
    + destruct (global_flags _) as [f|x|]; try discriminate. cbn [bind] in H. inversion H; subst g; clear H. cbn [cls gd].
      rewrite setdefault_lookup, !LK. unfold contents. rewrite Eg.
      destruct (String.eqb_spec "area" k) as [<-|N]; [cbn; destruct (given d "area"); reflexivity|].
      destruct (String.eqb k "type"); [reflexivity|]. destruct (existsb (String.eqb k) flags) eqn:EF; [destruct (given d k); reflexivity|].
      rewrite String.eqb_sym. destruct (String.eqb_spec "area" k); [contradiction|].
      destruct (String.eqb_spec k "global") as [->|N2]; [rewrite Eg; reflexivity|]. destruct (given d k); reflexivity.
    + destruct (global_flags _) as [f|x|]; try discriminate. cbn [bind] in H. inversion H; subst g; clear H. cbn [cls gd].
      rewrite setdefault_lookup, !LK. unfold contents. rewrite Eg, Ea.
      destruct (String.eqb_spec "area" k) as [<-|N]; [reflexivity|].
      destruct (String.eqb k "type"); [reflexivity|]. destruct (existsb (String.eqb k) flags) eqn:EF; [destruct (given d k); reflexivity|].
      rewrite String.eqb_sym. destruct (String.eqb_spec "area" k); [contradiction|].
      destruct (String.eqb_spec k "global") as [->|N2]; [rewrite Eg; reflexivity|]. destruct (given d k); reflexivity.
    + unfold dget in H. rewrite LK in H. cbn [String.eqb existsb flags orb Ascii.eqb Bool.eqb] in H.
      unfold table_of. destruct (given d "grid") as [gr|] eqn:Egr; [|discriminate]. cbn [bind] in H.
      unfold index in H. destruct (elems gr) as [l|x|] eqn:EE; try discriminate. cbn [bind] in H.
      destruct l as [|x [|y l]]; try discriminate. cbn [nth_error bind] in H.
      destruct (hashable x && hashable y); try discriminate. cbn [bind] in H.
      destruct (global_flags _) as [f|z|]; try discriminate. cbn [bind] in H. inversion H; subst g; clear H. cbn [cls gd].
      assert (T : table_of d = table_area x y).
      { unfold table_of. rewrite Egr. destruct gr as [| | | |s|l0|l0]; try discriminate; cbn in EE.
        - destruct s as [|a [|b s]]; cbn in EE; inversion EE; subst; reflexivity.
        - inversion EE; subst. reflexivity.
        - unfold given in Egr. destruct (alookup "grid" d) as [w|]; [|discriminate]. destruct w; discriminate. }
      unfold table_of in T. rewrite Egr in T. rewrite T.
      rewrite setdefault_lookup, !alookup_aset, !LK. unfold contents. rewrite Eg, Ea.
      destruct (String.eqb_spec "area" k) as [<-|N]; [reflexivity|].
      rewrite (String.eqb_sym "global" k).
      destruct (String.eqb_spec k "global") as [->|N2]; [reflexivity|].
      destruct (String.eqb k "type"); [reflexivity|]. destruct (existsb (String.eqb k) flags) eqn:EF; [destruct (given d k); reflexivity|].
      rewrite String.eqb_sym. destruct (String.eqb_spec "area" k); [contradiction|]. destruct (given d k); reflexivity.
  - unfold init_RGG in H. destruct (global_flags _) as [f|z|]; try discriminate. cbn [bind] in H. inversion H; subst g; clear H. cbn [cls gd].
    rewrite setdefault_lookup, !LK. unfold contents.
    destruct (String.eqb_spec "area" k) as [<-|N]; [cbn; destruct (given d "area"); reflexivity|].
    destruct (String.eqb k "type"); [reflexivity|]. destruct (existsb (String.eqb k) flags) eqn:EF; [destruct (given d k); reflexivity|].
    rewrite String.eqb_sym. destruct (String.eqb_spec "area" k); [contradiction|]. destruct (given d k); reflexivity.
  - unfold init_HP in H. inversion H; subst g; clear H. cbn [cls gd].
    pose proof (LK "ordering") as LO. cbn [String.eqb existsb flags orb Ascii.eqb Bool.eqb] in LO.
    rewrite setdefault_lookup, LO. clear LO. unfold contents.
    destruct (String.eqb_spec "area" k) as [<-|N].
    { cbn [String.eqb existsb flags orb Ascii.eqb Bool.eqb].
      destruct (given d "ordering"); rewrite ?alookup_aset, ?alookup_aremove; cbn [String.eqb Ascii.eqb Bool.eqb];
        rewrite LK; cbn [String.eqb existsb flags orb Ascii.eqb Bool.eqb]; destruct (given d "area"); reflexivity. }
    destruct (String.eqb_spec "order" k) as [<-|N1].
    { cbn [String.eqb existsb flags orb Ascii.eqb Bool.eqb].
      destruct (given d "ordering"); rewrite ?alookup_aset, ?alookup_aremove; cbn [String.eqb Ascii.eqb Bool.eqb];
        [reflexivity|]. rewrite LK. cbn. destruct (given d "order"); reflexivity. }
    destruct (String.eqb_spec "ordering" k) as [<-|N2].
    { destruct (given d "ordering") eqn:EO; rewrite ?alookup_aset, ?alookup_aremove; cbn [String.eqb Ascii.eqb Bool.eqb];
        [reflexivity|]. rewrite LK. cbn. rewrite EO. reflexivity. }
    replace (alookup k _) with (alookup k m).
    2: { destruct (given d "ordering"); [|reflexivity]. rewrite alookup_aset, alookup_aremove.
         destruct (String.eqb_spec "order" k); [contradiction|]. destruct (String.eqb_spec "ordering" k); [contradiction|reflexivity]. }
    rewrite LK. rewrite (String.eqb_sym k "area"), (String.eqb_sym k "order"), (String.eqb_sym k "ordering").
    destruct (String.eqb_spec "area" k); [contradiction|]. destruct (String.eqb_spec "order" k); [contradiction|].
    destruct (String.eqb_spec "ordering" k); [contradiction|].
    destruct (String.eqb k "type"); [reflexivity|]. destruct (existsb (String.eqb k) flags); destruct (given d k); reflexivity.
  - inversion H; subst g; clear H. cbn [cls gd]. rewrite LK. unfold contents.
    destruct (String.eqb k "type"); [reflexivity|]. destruct (existsb (String.eqb k) flags); destruct (given d k); reflexivity.
Qed.

(** ** Idempotence *)
Lemma amem_setdefault k v d : amem k (setdefault k v d) = true.
Proof. unfold amem. rewrite setdefault_lookup, String.eqb_refl. unfold or_else. destruct (alookup k d); reflexivity. Qed.
Lemma setdefault_mem k v d : amem k d = true -> setdefault k v d = d.
Proof. intros H. unfold setdefault. rewrite H. reflexivity. Qed.
Lemma init_HP_stable d : alookup "ordering" d = None -> amem "area" d = true ->
  init_HP d = Ok (mkG HP d (Some true) (Some true)).
Proof. intros A B. unfold init_HP. rewrite A, setdefault_mem by exact B. reflexivity. Qed.
Lemma init_stable c d g : init c d = Ok g -> init c (gd g) = Ok g /\ cls g = c.
Proof.
  destruct c; cbn [init]; intros H.
  - unfold init_LL in H. destruct (_ : result dict) as [d1|x|] in H; try discriminate. cbn [bind] in H.
    destruct (global_flags (setdefault "area" DEFAULT_AREA d1)) as [f|x|] eqn:E; try discriminate. inversion H; subst g. cbn [gd cls].
    split; [|reflexivity]. unfold init_LL. rewrite (amem_setdefault "area" DEFAULT_AREA d1). rewrite andb_false_r. cbn [bind].
    rewrite setdefault_mem by apply amem_setdefault. rewrite E. reflexivity.
  - unfold init_RGG in *. destruct (global_flags (setdefault "area" DEFAULT_AREA d)) as [f|x|] eqn:E; try discriminate. inversion H; subst g. cbn [gd cls].
    split; [|reflexivity]. rewrite setdefault_mem by apply amem_setdefault. rewrite E. reflexivity.
  - unfold init_HP in H. inversion H; subst g. cbn [gd cls]. split; [|reflexivity].
    apply init_HP_stable; [|apply amem_setdefault]. rewrite setdefault_lookup. cbn [String.eqb Ascii.eqb Bool.eqb].
    destruct (alookup "ordering" d) eqn:E; [|exact E]. rewrite alookup_aset, alookup_aremove. reflexivity.
  - inversion H; subst. auto.
Qed.

Lemma NoDup_aset {A} k (v : A) d : NoDup (akeys d) -> NoDup (akeys (aset k v d)).
Proof.
  intros H. rewrite akeys_aset. unfold amem. destruct (alookup k d) eqn:E; [exact H|].
  apply NoDup_snoc; [exact H|]. apply alookup_None, E.
Qed.
Lemma NoDup_dupdate e : forall d : dict, NoDup (akeys d) -> NoDup (akeys (dupdate d e)).
Proof. unfold dupdate. induction e as [|[k v] e IH]; intros d H; cbn; [exact H|]. apply IH, NoDup_aset, H. Qed.
Lemma akeys_normalise d : akeys (normalise d) = akeys d.
Proof. unfold normalise. induction d as [|[k v] d IH]; cbn; [reflexivity|]. rewrite IH. reflexivity. Qed.
Lemma NoDup_setdefault k v d : NoDup (akeys d) -> NoDup (akeys (setdefault k v d)).
Proof. intros H. unfold setdefault. destruct (amem k d); [exact H|apply NoDup_aset, H]. Qed.
Lemma NoDup_init c d g : NoDup (akeys d) -> init c d = Ok g -> NoDup (akeys (gd g)).
Proof.
  intros HN H. destruct c; cbn [init] in H.
  - unfold init_LL in H. destruct (negb _ && negb _).
    + destruct (dget _ _); try discriminate. cbn [bind] in H. destruct (index a 0); try discriminate. cbn [bind] in H.
      destruct (index a 1); try discriminate. cbn [bind] in H. destruct (hashable _ && hashable _); try discriminate. cbn [bind] in H.
      destruct (global_flags _); try discriminate. inversion H; subst. cbn. apply NoDup_setdefault, NoDup_aset, NoDup_aset, HN.
    + cbn [bind] in H. destruct (global_flags _); try discriminate. inversion H; subst. cbn. apply NoDup_setdefault, HN.
  - unfold init_RGG in H. destruct (global_flags _); try discriminate. inversion H; subst. cbn. apply NoDup_setdefault, HN.
  - unfold init_HP in H. inversion H; subst. cbn. apply NoDup_setdefault.
    destruct (alookup "ordering" d); [apply NoDup_aset, aremove_NoDup|]; exact HN.
  - inversion H; subst. exact HN.
Qed.
Lemma NoDup_from d g : from_dict d = Ok g -> NoDup (akeys (gd g)).
Proof.
  unfold from_dict. destruct (infer _) as [[c|]|x|]; try discriminate. cbn [bind]. apply NoDup_init, NoDup_aset.
  rewrite akeys_normalise. apply NoDup_dupdate. repeat constructor; cbn; intuition discriminate.
Qed.
Lemma from_cls d g : from_dict d = Ok g ->
  exists n, infer (normalise (dupdate DEFAULTS d)) = Ok (Some (cls g)) /\ init (cls g) n = Ok g /\
            n = aset "type" (VStr (type_name (cls g))) (normalise (dupdate DEFAULTS d)).
Proof.
  unfold from_dict. destruct (infer _) as [[c|]|x|]; try discriminate. cbn [bind]. intros H.
  destruct (init_stable _ _ _ H) as [_ ->]. eauto.
Qed.
Lemma table_area_list x y : exists l, table_area x y = VList l.
Proof.
  unfold table_area. destruct (find _ _) as [[k a]|] eqn:E; [|eexists; reflexivity].
  apply find_some in E. destruct E as [E _].
  assert (F : Forall (fun p => exists l, snd p = VList l) GLOBAL_AREAS).
  { unfold GLOBAL_AREAS, full, global_area. repeat (constructor; [eexists; reflexivity|]). constructor. }
  rewrite Forall_forall in F. exact (F _ E).
Qed.
Lemma given_untuple d k v : given d k = Some v -> untuple v = v.
Proof. unfold given. destruct (alookup k d); [|discriminate]. cbn. intros H. inversion H. apply untuple_idem. Qed.
Lemma contents_untuple d g k v : NoDup (akeys d) -> from_dict d = Ok g -> alookup k (gd g) = Some v -> untuple v = v.
Proof.
  intros HN H. rewrite (contents_ok d g k HN H). unfold contents, or_else.
  assert (T : untuple (table_of d) = table_of d).
  { unfold table_of. destruct (given d "grid") as [[| | | |s|l|l]|]; try reflexivity.
    - destruct s as [|a [|b s]]; reflexivity.
    - destruct l as [|x [|y l]]; try reflexivity. destruct (table_area_list x y) as (l' & ->). reflexivity. }
  assert (G : forall k v w, given d k = Some v -> Some v = Some w -> untuple w = w).
  { intros k0 v0 w E1 E2. inversion E2; subst. exact (given_untuple _ _ _ E1). }
  assert (S1 : forall w x, untuple w = w -> Some w = Some x -> untuple x = x) by (intros w x A B; inversion B; subst; exact A).
  destruct (String.eqb k "type"); [apply S1; reflexivity|].
  destruct (existsb (String.eqb k) flags).
  { destruct (given d k) eqn:E; [exact (G _ _ _ E)|apply S1; reflexivity]. }
  destruct (cls g).
  - destruct (String.eqb k "area").
    { destruct (given d "area") eqn:E; [exact (G _ _ _ E)|]. destruct (given d "global"); apply S1; [reflexivity|exact T]. }
    destruct (String.eqb k "global"); [|intros E; exact (given_untuple _ _ _ E)].
    destruct (given d "global") eqn:E; [exact (G _ _ _ E)|]. destruct (given d "area"); [discriminate|apply S1; reflexivity].
  - destruct (String.eqb k "area"); [|intros E; exact (given_untuple _ _ _ E)].
    destruct (given d "area") eqn:E; [exact (G _ _ _ E)|]. apply S1; reflexivity.
  - destruct (String.eqb k "area").
    { destruct (given d "area") eqn:E; [exact (G _ _ _ E)|]. apply S1; reflexivity. }
    destruct (String.eqb k "order").
    { destruct (given d "ordering") eqn:E; [exact (G _ _ _ E)|]. intros E2; exact (given_untuple _ _ _ E2). }
    destruct (String.eqb k "ordering"); [discriminate|]. intros E; exact (given_untuple _ _ _ E).
  - intros E; exact (given_untuple _ _ _ E).
Qed.

Lemma idempotent d g : NoDup (akeys d) -> from_dict d = Ok g -> same_result (from_dict (gd g)) (Ok g).
Proof.
  intros HN H. pose proof (NoDup_from d g H) as HN2. destruct (from_cls d g H) as (n & HI & Hn & _).
  assert (SD : same_dict (normalise (dupdate DEFAULTS (gd g))) (gd g)).
  { intros k. rewrite lookup_norm by exact HN2. unfold given. destruct (alookup k (gd g)) as [v|] eqn:E; cbn [option_map].
    - rewrite (contents_untuple d g k v HN H E). reflexivity.
    - destruct (existsb (String.eqb k) flags) eqn:EF; [|reflexivity].
      rewrite (contents_ok d g k HN H) in E. unfold contents in E. rewrite EF in E.
      destruct (String.eqb k "type"); [discriminate|]. destruct (given d k); discriminate. }
  assert (TY : alookup "type" (gd g) = Some (VStr (type_name (cls g)))) by (rewrite (contents_ok d g _ HN H); reflexivity).
  unfold from_dict. rewrite (same_infer _ _ SD). unfold infer. rewrite TY.
  replace (class_of (type_name (cls g))) with (Some (cls g)) by (destruct (cls g); reflexivity). cbn [bind].
  assert (SD2 : same_dict (aset "type" (VStr (type_name (cls g))) (normalise (dupdate DEFAULTS (gd g)))) (gd g)).
  { intros k. rewrite alookup_aset. destruct (String.eqb_spec "type" k) as [<-|N]; [symmetry; exact TY|apply SD]. }
  destruct (init_stable _ _ _ Hn) as [Hs _]. rewrite <- Hs. apply same_init, SD2.
Qed.

(** ** Inference *)
Lemma letter_digit_spec ls s : letter_digit ls s = true <-> letter_number (chars ls) s.
Proof.
  unfold letter_digit, letter_number, in_chars. destruct s as [|c [|d r]].
  - split; [discriminate|]. intros (c & d & r & E & _); discriminate.
  - split; [discriminate|]. intros (c' & d & r & E & _); discriminate.
  - change (chars (String c (String d r))) with (c :: d :: chars r). rewrite andb_true_iff, existsb_exists. split.
    + intros [(x & X & E) D]. apply Ascii.eqb_eq in E. subst x. exists c, d, r. auto.
    + intros (c' & d' & r' & E & I & D). inversion E; subst. split; [|exact D]. exists c'. rewrite Ascii.eqb_refl. auto.
Qed.
Lemma RGG_match_spec s : RGG_match s = true <-> gaussian_name s.
Proof. exact (letter_digit_spec "OoNn" s). Qed.
Lemma HEALPIX_match_spec s : HEALPIX_match s = true <-> healpix_name s.
Proof. exact (letter_digit_spec "Hh" s). Qed.
Definition orca_body (l : list ascii) : Prop :=
  exists ds f t, l = (["O"; "R"; "C"; "A"] ++ ds ++ ["_"; f] ++ t)%char /\ ds <> [] /\
    Forall (fun c => is_digit c = true) ds /\ In f ["F"; "T"; "U"; "V"]%char /\ (t = [] \/ t = ["010"%char]).
Lemma ORCA_body_spec l : ORCA_body l = true <-> orca_body l.
Proof.
  split.
  - unfold ORCA_body. intros H.
    destruct l as [|c1 [|c2 [|c3 [|c4 r]]]];
      repeat match type of H with context [match ?b with true => _ | false => _ end] => is_var b; destruct b end;
      try discriminate.
    all: try (destruct c1 as [[] [] [] [] [] [] [] []]; discriminate).
    all: try (destruct c1 as [[] [] [] [] [] [] [] []]; try discriminate; destruct c2 as [[] [] [] [] [] [] [] []]; discriminate).
    all: try (destruct c1 as [[] [] [] [] [] [] [] []]; try discriminate; destruct c2 as [[] [] [] [] [] [] [] []]; try discriminate;
              destruct c3 as [[] [] [] [] [] [] [] []]; discriminate).
    destruct c1 as [[] [] [] [] [] [] [] []]; try discriminate; destruct c2 as [[] [] [] [] [] [] [] []]; try discriminate;
      destruct c3 as [[] [] [] [] [] [] [] []]; try discriminate; destruct c4 as [[] [] [] [] [] [] [] []]; try discriminate.
    destruct (span is_digit r) as [ds r'] eqn:ES. destruct (span_spec _ _ _ _ ES) as (E & F & _).
    destruct ds as [|d ds]; [discriminate|]. destruct r' as [|u [|f t]]; try discriminate.
    { destruct u as [[] [] [] [] [] [] [] []]; discriminate. }
    destruct u as [[] [] [] [] [] [] [] []]; try discriminate.
    apply andb_prop in H. destruct H as [H1 H2]. unfold in_chars in H1. apply existsb_exists in H1.
    destruct H1 as (x & X & E2). apply Ascii.eqb_eq in E2. subst x.
    exists (d :: ds), f, t. subst r. split; [reflexivity|]. split; [discriminate|]. split; [exact F|]. split; [exact X|].
    destruct t as [|n [|? ?]]; try discriminate; [auto|]. apply Ascii.eqb_eq in H2. subst. auto.
  - intros (ds & f & t & -> & N & F & I & T).
    change (ORCA_body (["O"; "R"; "C"; "A"] ++ ds ++ ["_"; f] ++ t)%char) with
      (let '(ds, r') := span is_digit (ds ++ "_"%char :: f :: t) in
       match ds, r' with
       | _ :: _, "_"%char :: c :: t =>
          in_chars "FTUV" c && match t with [] => true | [n] => Ascii.eqb n "010"%char | _ => false end
       | _, _ => false
       end).
    rewrite (span_app is_digit ds ("_" :: f :: t)%char F) by reflexivity.
    destruct ds as [|d ds]; [contradiction|]. cbn [app].
    apply andb_true_intro. split.
    + unfold in_chars. apply existsb_exists. exists f. rewrite Ascii.eqb_refl. auto.
    + destruct T as [->| ->]; reflexivity.
Qed.
