(** Proofs about gridspec.py, continued: inference of the class. *)
From Verif Require Import PyBase ListLemmas PyStr Float64 GridSpec GridVocab GridProofs.
Set Default Proof Using "Type".

Local Open Scope string_scope.
Local Open Scope list_scope.
Local Open Scope Z_scope.

Lemma chars_inj s t : chars s = chars t -> s = t.
Proof. intros H. rewrite <- (of_chars_chars s), H. apply of_chars_chars. Qed.

(** An ORCA name, or one followed by a newline. *)
Definition orca_line (s : string) : Prop := orca_name s \/ exists s', s = (s' ++ String newline "")%string /\ orca_name s'.

Lemma chars_app s t : chars (s ++ t)%string = chars s ++ chars t.
Proof. unfold chars. induction s as [|c s IH]; cbn; [reflexivity|]. rewrite IH. reflexivity. Qed.

Lemma orca_body_line l : (exists e, In e [[]; ["e"%char]] /\ exists r, l = e ++ r /\ orca_body r) <-> orca_line (of_chars l).
Proof.
  split.
  - intros (e & He & r & -> & ds & f & t & -> & N & F & I & T).
    assert (H : orca_name (of_chars (e ++ ["O"; "R"; "C"; "A"]%char ++ ds ++ ["_"; f]%char))).
    { exists (of_chars e), ds, f. split; [|split; [|auto]].
      - apply chars_inj. rewrite !chars_app, !chars_of_chars. reflexivity.
      - destruct He as [<-|[<-|[]]]; cbn; auto. }
    destruct T as [->| ->].
    + left. rewrite app_nil_r. exact H.
    + right. eexists. split; [|exact H]. apply chars_inj. rewrite chars_app, !chars_of_chars. cbn [chars].
      rewrite <- !app_assoc. reflexivity.
  - assert (X : forall s, orca_name s -> forall t, t = [] \/ t = ["010"%char] ->
      exists e, In e [[]; ["e"%char]] /\ exists r, chars s ++ t = e ++ r /\ orca_body r).
    { intros s (e & ds & f & -> & He & N & F & I) t T. exists (chars e). split.
      - destruct He as [<-|[<-|[]]]; cbn; auto.
      - exists (["O"; "R"; "C"; "A"] ++ ds ++ ["_"; f] ++ t)%char. split.
        + rewrite !chars_app, !chars_of_chars. rewrite <- !app_assoc. reflexivity.
        + exists ds, f, t. auto. }
    intros [H|(s & E & H)].
    + destruct (X _ H [] (or_introl eq_refl)) as (e & He & r & E & B). rewrite app_nil_r, chars_of_chars in E. eauto.
    + destruct (X _ H _ (or_intror eq_refl)) as (e & He & r & E' & B). exists e. split; [exact He|]. exists r. split; [|exact B].
      rewrite <- E'. rewrite <- (chars_of_chars l), E, chars_app. reflexivity.
Qed.
Lemma ORCA_match_spec s : ORCA_match s = true <-> orca_line s.
Proof.
  rewrite <- (of_chars_chars s) at 2. rewrite <- orca_body_line. unfold ORCA_match.
  assert (O : forall r, ~ orca_body ("e"%char :: r)) by (intros r (ds & f & t & E & _); discriminate).
  assert (S1 : chars s = tl (chars s) \/ True) by auto.
  destruct (chars s) as [|c r] eqn:E.
  { split; [discriminate|]. intros (e & _ & r & E1 & ds & f & t & E2 & _). destruct e; subst; discriminate. }
  destruct (Ascii.eqb_spec c "e") as [->|N].
  - rewrite ORCA_body_spec. split.
    + intros B. exists ["e"%char]. split; [cbn; auto|]. exists r. auto.
    + intros (e & [<-|[<-|[]]] & r' & E1 & B); cbn in E1.
      * subst r'. destruct (O _ B).
      * inversion E1; subst. exact B.
  - assert (M : ORCA_match s = ORCA_body (c :: r)).
    { unfold ORCA_match. rewrite E. destruct c as [[] [] [] [] [] [] [] []]; try reflexivity. destruct N; reflexivity. }
    unfold ORCA_match in M. rewrite E in M. rewrite M, ORCA_body_spec. split.
    + intros B. exists []. split; [cbn; auto|]. exists (c :: r). auto.
    + intros (e & [<-|[<-|[]]] & r' & E1 & B); cbn in E1; [subst; exact B|]. inversion E1; subst. destruct N; reflexivity.
Qed.

Lemma app_empty s : (s ++ "")%string = s.
Proof. induction s as [|c s IH]; cbn; [reflexivity|]. rewrite IH. reflexivity. Qed.

(** What [describes] says, with the newline the regular expression lets through. *)
Definition accepted (v : val) (c : gclass) : Prop :=
  describes v c \/ (c = ORCA /\ exists s, v = VStr (s ++ String newline "") /\ orca_name s).

Lemma type_match_spec v c : type_match c (untuple v) = true <-> accepted v c.
Proof.
  unfold accepted. split.
  - intros H. destruct c, v; try discriminate; cbn [type_match untuple] in H.
    + destruct l as [|x [|y [|z l]]]; try discriminate. left. constructor.
    + destruct l as [|x [|y [|z l]]]; try discriminate. left. constructor.
    + left. constructor. apply RGG_match_spec, H.
    + left. constructor. apply HEALPIX_match_spec, H.
    + apply ORCA_match_spec in H. destruct H as [H|(s' & -> & H)]; [left; constructor; exact H|]. right. eauto.
  - intros [H|(-> & s & -> & H)].
    + destruct H; cbn; try reflexivity.
      * apply RGG_match_spec, H.
      * apply HEALPIX_match_spec, H.
      * apply ORCA_match_spec. left. exact H.
    + cbn. apply ORCA_match_spec. right. eauto.
Qed.

Lemma accepted_unique v c c' : accepted v c -> accepted v c' -> c = c'.
Proof.
  assert (L : forall s, orca_line s -> forall ls, letter_number ls s -> False).
  { intros s H ls (x & y & r & -> & _ & D).
    assert (C : forall t, orca_name t -> forall u, (t ++ u)%string = String x (String y r) -> False).
    { intros t (e & ds & f & -> & [<-|[<-|[]]] & _) u E; cbn in E; inversion E; subst; discriminate. }
    destruct H as [H|(s' & E & H)]; [exact (C _ H "" (app_empty _))|symmetry in E; exact (C _ H _ E)]. }
  assert (GH : forall s, gaussian_name s -> healpix_name s -> False).
  { intros s (x & y & r & -> & I & _) (x' & y' & r' & E & I' & _). inversion E; subst.
    cbn in I, I'. intuition (subst; discriminate). }
  intros A B. apply type_match_spec in A, B. destruct v; try (destruct c, c'; try discriminate; reflexivity).
  cbn [untuple] in A, B. destruct c; try discriminate; destruct c'; try discriminate; try reflexivity; exfalso; cbn [type_match] in A, B.
  all: rewrite ?RGG_match_spec, ?HEALPIX_match_spec, ?ORCA_match_spec in A; rewrite ?RGG_match_spec, ?HEALPIX_match_spec, ?ORCA_match_spec in B; first [exact (GH _ A B)|exact (GH _ B A)|exact (L _ A _ B)|exact (L _ B _ A)].
Qed.

(** ** from_dict and the class *)
Lemma lookup_grid d : NoDup (akeys d) -> alookup "grid" (normalise (dupdate DEFAULTS d)) = given d "grid".
Proof. intros HN. rewrite lookup_norm by exact HN. cbn. destruct (given d "grid"); reflexivity. Qed.
Lemma lookup_type d : NoDup (akeys d) -> alookup "type" (normalise (dupdate DEFAULTS d)) = given d "type".
Proof. intros HN. rewrite lookup_norm by exact HN. cbn. destruct (given d "type"); reflexivity. Qed.

Lemma find_class v c : accepted v c -> find (fun c => type_match c (untuple v)) classes = Some c.
Proof.
  intros H. destruct (find _ classes) as [c'|] eqn:E.
  - apply find_some in E. destruct E as [_ E]. apply type_match_spec in E. rewrite (accepted_unique _ _ _ H E). reflexivity.
  - exfalso. assert (N : type_match c (untuple v) = false) by (apply (find_none _ _ E c); destruct c; cbn; auto).
    apply type_match_spec in H. rewrite H in N. discriminate N.
Qed.
Lemma find_noclass v : (forall c, ~ accepted v c) -> find (fun c => type_match c (untuple v)) classes = None.
Proof.
  intros H. destruct (find _ classes) as [c'|] eqn:E; [|reflexivity].
  apply find_some in E. destruct E as [_ E]. apply type_match_spec in E. destruct (H _ E).
Qed.

Lemma infer_untyped d : NoDup (akeys d) -> untyped d ->
  infer (normalise (dupdate DEFAULTS d)) =
  match alookup "grid" d with
  | None => Raise KeyError
  | Some v => Ok (find (fun c => type_match c (untuple v)) classes)
  end.
Proof.
  intros HN U. unfold infer, dget. rewrite lookup_type, lookup_grid by exact HN. unfold given.
  destruct U as [-> | ->]; cbn [option_map untuple]; destruct (alookup "grid" d); reflexivity.
Qed.

Lemma untyped_class d g : NoDup (akeys d) -> untyped d -> from_dict d = Ok g ->
  exists v, alookup "grid" d = Some v /\ accepted v (cls g).
Proof.
  intros HN U H. destruct (from_cls d g H) as (n & HI & _). rewrite infer_untyped in HI by assumption.
  destruct (alookup "grid" d) as [v|]; [|discriminate]. exists v. split; [reflexivity|].
  assert (H1 : find (fun c => type_match c (untuple v)) classes = Some (cls g)) by congruence.
  apply find_some in H1. apply type_match_spec, H1.
Qed.
Lemma untyped_other d v : NoDup (akeys d) -> untyped d -> alookup "grid" d = Some v -> (forall c, ~ accepted v c) ->
  from_dict d = Raise ValueError.
Proof.
  intros HN U Hg H. unfold from_dict. rewrite infer_untyped by assumption. rewrite Hg, find_noclass by exact H. reflexivity.
Qed.
Lemma untyped_nogrid d : NoDup (akeys d) -> untyped d -> alookup "grid" d = None -> from_dict d = Raise KeyError.
Proof. intros HN U Hg. unfold from_dict. rewrite infer_untyped by assumption. rewrite Hg. reflexivity. Qed.

(** An area that can be compared: a list or tuple of numbers. *)
Definition numbers_ok (v : val) : Prop := exists l, elems v = Ok l /\ Forall finite_num l.
Lemma nsub_small a b : (exists z, b = NI z /\ Z.abs z <= 360) -> (match a with NI _ => True | NF f => finite f = true end) ->
  exists c, nsub a b = Ok c.
Proof.
  intros (z & -> & Hz) Ha. destruct a as [x|f]; cbn; [eauto|].
  assert (I : exists g, int_float z = Ok g).
  { assert (In z (map (fun n => Z.of_nat n - 360) (seq 0 721))).
    { apply in_map_iff. exists (Z.to_nat (z + 360)). split; [lia|]. apply in_seq. lia. }
    assert (F : forallb (fun z => match int_float z with Ok _ => true | _ => false end)
                  (map (fun n => Z.of_nat n - 360) (seq 0 721)) = true) by (vm_compute; reflexivity).
    rewrite forallb_forall in F. specialize (F z H). destruct (int_float z); try discriminate. eauto. }
  destruct I as (g & ->). cbn. eauto.
Qed.
Lemma area_ok v : numbers_ok v -> exists b, same_area v DEFAULT_AREA DEGREE_EPS = Ok b.
Proof.
  intros (l & E & F). unfold same_area. rewrite E. cbn [bind elems DEFAULT_AREA].
  destruct (Nat.eqb_spec (List.length l) (List.length [VInt 90; VInt 0; VInt (-90); VInt 360])) as [L|L]; [|eauto].
  assert (X : forall l m, Forall finite_num l -> Forall (fun v => exists z, v = VInt z /\ Z.abs z <= 360) m -> exists b, all_same l m DEGREE_EPS = Ok b).
  { clear. induction l as [|x l IH]; intros [|y m] F G; cbn; eauto. inversion F; inversion G; subst.
    destruct H5 as (z & -> & Hz). unfold same_coord. cbn [as_num].
    assert (A : exists a, as_num x = Some a /\ match a with NI _ => True | NF f => finite f = true end).
    { destruct x; cbn in *; try contradiction; eauto. eexists. split; [reflexivity|]. cbn. apply H1. }
    destruct A as (a & -> & Ha). destruct (nsub_small a (NI z)) as (c & ->); [eauto|exact Ha|]. cbn.
    destruct (nltb _ _); eauto. }
  apply X; [exact F|]. repeat (constructor; [eexists; split; [reflexivity|lia]|]). constructor.
Qed.
Lemma table_numbers x y : numbers_ok (table_area x y).
Proof.
  unfold table_area. destruct (find _ _) as [[k a]|] eqn:E.
  - apply find_some in E. destruct E as [E _].
    assert (F : forallb (fun p => match snd p with VList l => forallb (fun v => match v with VInt _ => true | VFloat f => is_float64 f && finite f | _ => false end) l | _ => false end) GLOBAL_AREAS = true)
      by (vm_compute; reflexivity).
    rewrite forallb_forall in F. specialize (F _ E). cbn in F. destruct a; try discriminate. exists l. split; [reflexivity|].
    rewrite forallb_forall in F. apply Forall_forall. intros v V. specialize (F v V).
    destruct v; try discriminate; cbn; auto. apply andb_prop in F. exact F.
  - eexists. split; [reflexivity|]. repeat constructor.
Qed.

Lemma flags_ok d a : alookup "area" d = Some a -> numbers_ok a -> exists f, global_flags d = Ok f.
Proof.
  intros E N. unfold global_flags, dget. rewrite E. cbn [bind]. destruct (truthy _); [eauto|].
  destruct (area_ok a N) as (b & ->). cbn. eauto.
Qed.

(** The class is found and the specification built. *)
Lemma inferred_built d v c : NoDup (akeys d) -> infer (normalise (dupdate DEFAULTS d)) = Ok (Some c) -> alookup "grid" d = Some v ->
  (c = LL -> exists x y, (v = VList [x; y] \/ v = VTup [x; y]) /\ hashable x = true /\ hashable y = true) ->
  (c = LL \/ c = RGG -> forall a, alookup "area" d = Some a -> numbers_ok a) ->
  exists g, from_dict d = Ok g /\ cls g = c.
Proof.
  intros HN HI Hg HH HA. unfold from_dict. rewrite HI. cbn [bind].
  assert (X : exists g, init c (aset "type" (VStr (type_name c)) (normalise (dupdate DEFAULTS d))) = Ok g).
  2: { destruct X as (g & E). exists g. split; [exact E|]. apply (init_stable _ _ _ E). }
  assert (LK : forall k, k <> "type" -> alookup k (aset "type" (VStr (type_name c)) (normalise (dupdate DEFAULTS d))) =
     match given d k with Some v => Some v | None => if existsb (String.eqb k) flags then Some (VInt 0) else None end).
  { intros k Hk. rewrite alookup_aset. destruct (String.eqb_spec "type" k); [subst; contradiction|]. apply lookup_norm, HN. }
  remember (aset "type" (VStr (type_name c)) (normalise (dupdate DEFAULTS d))) as m. clear Heqm.
  pose proof (LK "area" ltac:(discriminate)) as La. pose proof (LK "global" ltac:(discriminate)) as Lg.
  pose proof (LK "grid" ltac:(discriminate)) as Lr. cbn [existsb flags String.eqb Ascii.eqb Bool.eqb orb] in La, Lg, Lr.
  assert (NA : c = LL \/ c = RGG -> forall a, alookup "area" m = Some a -> numbers_ok a).
  { intros IC a E. rewrite La in E. unfold given in E. destruct (alookup "area" d) as [a0|] eqn:Ea; [|discriminate].
    cbn in E. inversion E. destruct (HA IC a0 eq_refl) as (l & El & F). exists l. split; [|exact F]. destruct a0; exact El. }
  assert (ND : numbers_ok DEFAULT_AREA) by (eexists; split; [reflexivity|]; repeat constructor).
  assert (FL : forall e, (forall a, alookup "area" e = Some a -> numbers_ok a) -> exists f, global_flags (setdefault "area" DEFAULT_AREA e) = Ok f).
  { intros e He. pose proof (setdefault_lookup "area" "area" DEFAULT_AREA e) as L. rewrite String.eqb_refl in L.
    destruct (alookup "area" e) as [a|] eqn:E; cbn [or_else] in L; apply (flags_ok _ _ L); auto. }
  destruct c; cbn [init].
  - unfold init_LL. destruct (negb (amem "global" m) && negb (amem "area" m)) eqn:EN; cbn [bind].
    + unfold dget. rewrite Lr. unfold given. rewrite Hg. cbn [option_map bind].
      destruct (HH eq_refl) as (x & y & [->| ->] & Hx & Hy); cbn [untuple index elems bind nth_error]; rewrite Hx, Hy; cbn [andb bind].
      all: destruct (FL (aset "area" (table_area x y) (aset "global" (VInt 1) m))) as (f & ->); [|cbn; eauto];
        intros a E; rewrite alookup_aset in E; cbn in E; inversion E; apply table_numbers.
    + destruct (FL m (NA ltac:(auto))) as (f & ->). cbn. eauto.
  - unfold init_RGG. destruct (FL m (NA ltac:(auto))) as (f & ->). cbn. eauto.
  - unfold init_HP. eauto.
  - eauto.
Qed.

Lemma untyped_built d v c : NoDup (akeys d) -> untyped d -> alookup "grid" d = Some v -> accepted v c ->
  (forall x y, v = VList [x; y] \/ v = VTup [x; y] -> hashable x = true /\ hashable y = true) ->
  (forall a, alookup "area" d = Some a -> numbers_ok a) ->
  exists g, from_dict d = Ok g /\ cls g = c.
Proof.
  intros HN U Hg A HH HA. apply (inferred_built d v c HN); [|exact Hg| |intros _; exact HA].
  - rewrite infer_untyped by assumption. rewrite Hg, (find_class v c A). reflexivity.
  - intros ->. destruct A as [A|(A & _)]; [|discriminate]. inversion A; subst; exists x, y; auto.
Qed.
Lemma typed_built d v c : NoDup (akeys d) -> alookup "type" d = Some (VStr (type_name c)) -> alookup "grid" d = Some v ->
  (c = LL -> exists x y, (v = VList [x; y] \/ v = VTup [x; y]) /\ hashable x = true /\ hashable y = true) ->
  (c = LL \/ c = RGG -> forall a, alookup "area" d = Some a -> numbers_ok a) ->
  exists g, from_dict d = Ok g /\ cls g = c.
Proof.
  intros HN T Hg HH HA. apply (inferred_built d v c HN); [|exact Hg|exact HH|exact HA].
  unfold infer. rewrite lookup_type by exact HN. unfold given. rewrite T. cbn [option_map untuple]. destruct c; reflexivity.
Qed.

Lemma typed_class d s g : NoDup (akeys d) -> alookup "type" d = Some (VStr s) -> from_dict d = Ok g -> type_name (cls g) = s.
Proof.
  intros HN E H. destruct (from_cls d g H) as (n & HI & _). unfold infer in HI. rewrite lookup_type in HI by exact HN.
  unfold given in HI. rewrite E in HI. cbn [option_map untuple] in HI. 
  assert (H1 : class_of s = Some (cls g)) by congruence. apply find_some in H1. destruct H1 as [_ H1]. apply String.eqb_eq in H1. auto.
Qed.
Lemma typed_unknown d s : NoDup (akeys d) -> alookup "type" d = Some (VStr s) ->
  ~ In s ["regular_ll"; "reduced_gg"; "healpix"; "orca"] -> from_dict d = Raise ValueError.
Proof.
  intros HN E N. unfold from_dict, infer. rewrite lookup_type by exact HN. unfold given. rewrite E. cbn [option_map untuple].
  destruct (class_of s) as [c|] eqn:EC; [|reflexivity]. exfalso. apply N. unfold class_of in EC. apply find_some in EC.
  destruct EC as [_ EC]. apply String.eqb_eq in EC. subst. destruct c; cbn; auto.
Qed.
