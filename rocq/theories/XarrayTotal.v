(** Lemmas about xarray objects: an object is regridded if its slices are. *)
From Verif Require Import PyBase ListLemmas PyStr Float64 GridSpec GridProofs Regrid RegridSpec RegridProofs Dispatch Props_Dispatch Xarray XarraySpec XarrayProofs XarrayProofs2.
Set Default Proof Using "Type".
Local Open Scope string_scope.
Local Open Scope list_scope.
Local Open Scope nat_scope.

(** A dimension has the same size wherever it occurs. *)
Definition agrees (f : string -> nat) (l : list (string * nat)) : Prop := forall d k, In (d, k) l -> f d = k.
Lemma agrees_app f l m : agrees f (l ++ m) <-> agrees f l /\ agrees f m.
Proof. unfold agrees. split; [intros H; split; intros d k I; apply H, in_or_app; auto|]. intros [H1 H2] d k I. apply in_app_or in I. destruct I; auto. Qed.
Lemma agrees_flat {X} f (g : X -> list (string * nat)) l : agrees f (flat_map g l) <-> forall x, In x l -> agrees f (g x).
Proof. unfold agrees. split; [intros H x I d k J; apply H, in_flat_map; eauto|]. intros H d k I. apply in_flat_map in I. destruct I as (x & I & J). exact (H x I d k J). Qed.
Lemma agrees_check f l m : agrees f l -> agrees f m -> forall z, forallb (fun p => match alookup (fst p) l with Some k => snd p =? k | None => z end) m = true \/ (z = false /\ exists p, In p m /\ alookup (fst p) l = None).
Proof.
  intros H1 H2 z. destruct (forallb _ m) eqn:F; [left; reflexivity|right]. induction m as [|[d k] m IH]; [discriminate F|]. cbn in F. apply Bool.andb_false_iff in F. destruct F as [F|F].
  - destruct (alookup d l) as [k'|] eqn:L; [apply lookup_in in L; apply H1 in L; specialize (H2 d k (or_introl eq_refl)); apply Nat.eqb_neq in F; congruence|]. split; [exact F|]. exists (d, k). split; [left; reflexivity|exact L].
  - destruct (IH (fun d' k' I => H2 d' k' (or_intror I)) F) as (Z & p & I & L). split; [exact Z|]. exists p. split; [right; exact I|exact L].
Qed.
Lemma in_aset {V} k (v : V) l p : In p (aset k v l) -> p = (k, v) \/ In p l.
Proof.
  induction l as [|[k' v'] l IH]; cbn; [intros [<-|[]]; auto|]. destruct (String.eqb_spec k k') as [->|_].
  - intros [<-|I]; auto.
  - intros [<-|I]; [auto|]. destruct (IH I); auto.
Qed.

Section Sets.
  Context {A dtype spec other : Type}.
  Notation dataarray := (dataarray A dtype spec other).
  Notation dataset := (dataset A dtype spec other).
  Definition coord_sizes (c : coord other) : list (string * nat) := combine (c_dims c) (shape (c_data c)).
  Definition agreeing (f : string -> nat) (a : dataarray) : Prop := agrees f (sizes_of a) /\ forall k c, In (k, c) (da_coords a) -> agrees f (coord_sizes c).
  Lemma fold_new (more : list (string * coord other)) : forall l p, In p (fold_left (fun l p => if amem (fst p) l then l else l ++ [p]) more l) -> In p l \/ In p more.
  Proof.
    induction more as [|q more IH]; intros l p I; [auto|]. cbn in I. apply IH in I. destruct I as [I|I]; [|right; right; exact I].
    destruct (amem (fst q) l); [auto|]. apply in_app_or in I. destruct I as [I|[<-|[]]]; [auto|right; left; reflexivity].
  Qed.
  Lemma add_var_total f (s : dataset) k (o : dataarray) : agrees f (sizes_ds s) -> agreeing f o -> exists s', add_var s k o = Ok s' /\ agrees f (sizes_ds s').
  Proof.
    intros S [O C]. unfold add_var. destruct (agrees_check f _ _ S O true) as [->|[E _]]; [|discriminate E]. eexists. split; [reflexivity|].
    unfold sizes_ds in *. cbn [ds_vars ds_coords]. apply agrees_app in S. destruct S as [S1 S2]. pose proof (proj1 (agrees_flat _ _ _) S1) as S3. pose proof (proj1 (agrees_flat _ _ _) S2) as S4. apply agrees_app. split; apply agrees_flat.
    - intros p I. apply in_aset in I. destruct I as [->|I]; [exact O|exact (S3 p I)].
    - intros [k' c] I. apply fold_new in I. destruct I as [I|I]; [exact (S4 _ I)|exact (C k' c I)].
  Qed.
  Lemma set_coords_ds_total f (cs : list (string * coord other)) : (forall k c, In (k, c) cs -> agrees f (coord_sizes c)) -> forall s : dataset, agrees f (sizes_ds s) -> exists s', set_coords_ds s cs = Ok s'.
  Proof.
    induction cs as [|[k c] cs IH]; intros C s S; [exists s; reflexivity|]. unfold set_coords_ds. cbn [fold_left bind fst snd]. unfold fits at 2. cbn [negb].
    destruct (agrees_check f _ _ S (C k c (or_introl eq_refl)) true) as [E|[E _]]; [|discriminate E]. unfold coord_sizes in E. rewrite E.
    apply (IH (fun k' c' I => C k' c' (or_intror I))). unfold sizes_ds in *. cbn [ds_vars ds_coords]. apply agrees_app in S. destruct S as [S1 S2]. apply agrees_app. split; [exact S1|].
    pose proof (proj1 (agrees_flat _ _ _) S2) as S4. apply agrees_flat. intros p I. apply in_aset in I. destruct I as [->|I]; [exact (C k c (or_introl eq_refl))|exact (S4 p I)].
  Qed.
End Sets.

Section Total.
  Context {A dtype spec other St : Type}.
  Variable cast : dtype -> A -> A.
  Notation dataarray := (dataarray A dtype spec other).
  Notation dataset := (dataset A dtype spec other).
  Variable method : St -> array A -> St * result (array A).
  Variable Tr : list (array A) -> St -> Prop.
  Variable call : list (array A) -> array A -> array A -> Prop.
  Hypothesis traced : forall tr st v st' o, Tr tr st -> method st v = (st', Ok o) -> Tr (tr ++ [v]) st' /\ call tr v o.
  Variable n : list nat.
  Hypothesis shaped : forall tr v o, call tr v o -> shape o = n.
  (** What may be raised; the shapes for which calls otherwise return. *)
  Variable P : exn -> Prop.
  Variable good : list nat -> Prop.
  Hypothesis fate : forall tr st v, Tr tr st -> good (shape v) -> (exists st' o, method st v = (st', Ok o)) \/ exists st' e, method st v = (st', Raise e) /\ P e.
  Variables in_dims out_dims exclude : list string.
  Hypothesis L : List.length n = List.length out_dims.
  Hypothesis ND : NoDup out_dims.
  Hypothesis NI : NoDup in_dims.
  Hypothesis EX : forall d, In d out_dims -> In d in_dims -> In d exclude.

  Lemma loop_fate slice known idxs :
    (forall b, In b idxs -> good (shape (slice b))) ->
    forallb (fun p => match alookup (fst p) known with Some m => snd p =? m | None => true end) (combine out_dims n) = true ->
    forall o done tr st, (o = None \/ o = Some n) -> Tr tr st ->
    (exists st' fs, loop method slice known out_dims idxs o done st = (st', Ok (match idxs with [] => o | _ => Some n end, fs))) \/
    exists st' e, loop method slice known out_dims idxs o done st = (st', Raise e) /\ P e.
  Proof using traced shaped fate L.
    intros R FB. induction idxs as [|b idxs IH]; intros o done tr st O T; cbn [loop]; [left; eauto|].
    destruct (fate tr st (slice b) T (R b (or_introl eq_refl))) as [(st1 & v & M)|(st1 & e & M & PE)]; rewrite M; [|right; eauto].
    destruct (traced _ _ _ _ _ T M) as [T1 C]. pose proof (shaped _ _ _ C) as Sv. destruct (assign_same v) as (f & As & _). rewrite Sv in As.
    assert (E : (match o with Some sh => Ok sh | None => if List.length (shape v) <? List.length out_dims then Raise ValueError else
      let sh := skipn (List.length (shape v) - List.length out_dims) (shape v) in
      if forallb (fun p => match alookup (fst p) known with Some m => snd p =? m | None => true end) (combine out_dims sh) then Ok sh else Raise ValueError end) = Ok n).
    { destruct O as [->| ->]; [|reflexivity]. rewrite Sv, L, Nat.ltb_irrefl, Nat.sub_diag. cbn [skipn]. cbv zeta. rewrite FB. reflexivity. }
    cbv zeta in *. rewrite E. cbn [bind]. rewrite As. cbn [bind].
    destruct (IH (fun b' I => R b' (or_intror I)) (Some n) (done ++ [f]) _ st1 (or_intror eq_refl) T1) as [(st' & fs & G)|(st' & e & G & PE)]; rewrite G; [left; destruct idxs; eauto|right; eauto].
  Qed.
  (** An array whose slices can be regridded. *)
  Definition suits (a : dataarray) : Prop :=
    well_formed a /\ incl in_dims (da_dims a) /\ (forall d, In d (others a in_dims) -> ~ In d out_dims) /\ nonempty a in_dims /\
    forall sh, Forall2 (sized a) in_dims sh -> good sh.
  Lemma apply_fate a tr st : suits a -> Tr tr st ->
    (exists st' r, apply_ufunc cast method in_dims out_dims exclude a st = (st', Ok r)) \/ exists st' e, apply_ufunc cast method in_dims out_dims exclude a st = (st', Raise e) /\ P e.
  Proof using traced shaped fate L NI EX.
    intros (W & I1 & DJ & NZ & GD) T. unfold apply_ufunc. set (bdims := filter (fun d => negb (mem d in_dims || mem d out_dims)) (da_dims a)).
    assert (BO : bdims = others a in_dims).
    { rewrite others_filter. unfold bdims. apply filter_ext_in. intros d I. destruct (mem d in_dims) eqn:M1; [reflexivity|]. destruct (mem d out_dims) eqn:M2; [|reflexivity].
      apply mem_in in M2. apply mem_not in M1. destruct (DJ d); [apply others_in; auto|exact M2]. }
    assert (G : negb (nodup (da_dims a)) || negb (nodup in_dims) || negb (forallb (fun d => mem d (da_dims a)) in_dims) || negb (forallb (fun d => mem d (bdims ++ in_dims)) (da_dims a)) = false).
    { rewrite (proj2 (nodup_NoDup _) (proj1 W)), (proj2 (nodup_NoDup _) NI). cbn [negb orb]. apply Bool.orb_false_iff. split; apply Bool.negb_false_iff, forallb_forall; intros d I; apply mem_in.
      - apply I1, I.
      - apply in_or_app. rewrite BO, others_in. destruct (in_dec string_dec d in_dims); auto. }
    rewrite G. rewrite BO. clear G BO bdims. set (bd := others a in_dims) in *.
    set (slice := fun b => mkArr (map (size a) in_dims) (fun c => item (da_data a) (reorder (da_dims a) (bd ++ in_dims) (b ++ c)))).
    set (known := filter (fun p => negb (mem (fst p) exclude)) (combine in_dims (map (size a) in_dims))).
    destruct (loop_fate slice known (indices (map (size a) bd))) with (o := @None (list nat)) (done := @nil (list nat -> A)) (tr := tr) (st := st) as [(st' & fs & E)|(st' & e & E & PE)].
    - intros b _. apply GD. cbn [slice shape]. clear - I1 W. assert (X : forall ds, incl ds (da_dims a) -> Forall2 (sized a) ds (map (size a) ds)).
      { induction ds as [|d ds IH]; intros I; [constructor|]. cbn. constructor; [apply size_sized; [exact W|]; split; [apply I; left; reflexivity|reflexivity]|]. apply IH. intros x X. apply I. right. exact X. }
      apply X. exact I1.
    - apply forallb_forall. intros [d k] I. cbn [fst snd]. destruct (alookup d known) as [m|] eqn:AL; [|reflexivity]. apply lookup_in, filter_In in AL. destruct AL as [AL M]. cbn [fst] in M. apply Bool.negb_true_iff, mem_not in M.
      destruct (M (EX d (in_combine_l _ _ _ _ I) (in_combine_l _ _ _ _ AL))).
    - left. reflexivity.
    - exact T.
    - left. rewrite E. destruct (indices (map (size a) bd)) as [|b0 l] eqn:IX.
      + exfalso. assert (P0 : prod (map (size a) bd) = 0) by (rewrite <- indices_length, IX; reflexivity).
        assert (X : exists d, In d bd /\ size a d = 0).
        { clear - P0. induction bd as [|d l IH]; [discriminate P0|]. cbn in P0. apply Nat.eq_mul_0 in P0. destruct P0 as [P0|P0]; [exists d; split; [left; reflexivity|exact P0]|].
          destruct (IH P0) as (d' & I & Z). exists d'. split; [right; exact I|exact Z]. }
        destruct X as (d & I & Z0). apply (NZ d I). apply size_sized; [exact W|]. split; [|exact Z0]. apply others_in in I. exact (proj1 I).
      + cbn [bind fst]. eexists _, _. reflexivity.
    - right. rewrite E. cbn [bind]. eauto.
  Qed.

  (** The sizes of the dimensions of the variables before; after, those along the output are [n]. *)
  Variable f0 : string -> nat.
  Definition after_sizes (d : string) : nat := match alookup d (combine out_dims n) with Some k => k | None => f0 d end.
  Definition own_coords (a : dataarray) : Prop := forall k c, In (k, c) (da_coords a) -> incl (c_dims c) (da_dims a).
  Lemma after_out d : ~ In d out_dims -> after_sizes d = f0 d.
  Proof. intros N. unfold after_sizes. rewrite lookup_out by exact N. reflexivity. Qed.
  Lemma after_in d k : In (d, k) (combine out_dims n) -> after_sizes d = k.
  Proof using ND. intros I. unfold after_sizes. rewrite (in_lookup _ _ _ _ ND I). reflexivity. Qed.
  Lemma one_agrees a r c : agreeing f0 a -> own_coords a -> sliced cast c in_dims out_dims n a r -> (forall d, In d (others a in_dims) -> ~ In d out_dims) ->
    da_coords r = filter (fun p => disjoint (c_dims (snd p)) (filter (fun d => negb (mem d out_dims)) in_dims ++ exclude)) (da_coords a) -> agreeing after_sizes r.
  Proof using ND EX.
    intros [A1 A2] OC (D & _ & W & SO & SN & _) DJ C. split.
    - intros d k I. change (sized r d k) in I. assert (J : In d (others a in_dims ++ out_dims)) by (rewrite <- D; exact (in_combine_l _ _ _ _ I)). apply in_app_or in J. destruct J as [J|J].
      + rewrite (after_out d (DJ d J)). apply A1. apply (SO d k J). exact I.
      + assert (K : exists k', In (d, k') (combine out_dims n) /\ sized r d k').
        { clear - SN J. induction SN as [|x y l l' H SN IH]; [destruct J|]. destruct J as [->|J]; [exists y; split; [left; reflexivity|exact H]|]. destruct (IH J) as (k' & I & S). exists k'. split; [right; exact I|exact S]. }
        destruct K as (k' & K1 & K2). rewrite (after_in d k' K1). apply (size_sized r _ _ W) in I, K2. destruct I as [_ <-], K2 as [_ <-]. reflexivity.
    - intros k c0 I. rewrite C in I. apply filter_In in I. destruct I as [I J]. cbn [snd] in J. rewrite disjoint_spec in J. intros d i K.
      pose proof (in_combine_l _ _ _ _ K) as Kd. rewrite after_out; [exact (A2 k c0 I d i K)|]. intros O. specialize (J d Kd). apply J. apply in_or_app.
      destruct (in_dec string_dec d in_dims) as [N|N]; [right; exact (EX d O N)|]. exfalso. refine (DJ d _ O). apply others_in. split; [exact (OC k c0 I d Kd)|exact N].
  Qed.
  Lemma vars_fate sh vars : List.length sh = List.length out_dims ->
    Forall (fun v => suits (snd v) /\ agreeing f0 (snd v) /\ own_coords (snd v)) vars ->
    forall (s : dataset) tr st, Tr tr st -> agrees after_sizes (sizes_ds s) ->
    (exists st' s', all_vars cast method sh in_dims out_dims exclude vars s st = (st', Ok s') /\ agrees after_sizes (sizes_ds s')) \/
    exists st' e, all_vars cast method sh in_dims out_dims exclude vars s st = (st', Raise e) /\ P e.
  Proof using traced shaped fate L NI ND EX.
    intros LS. induction 1 as [|[k a] vars (SU & AG & OC) F IH]; intros s tr st T S; cbn [all_vars]; [left; eauto|]. cbn [snd] in *.
    unfold one. rewrite LS, Nat.ltb_irrefl. destruct (apply_fate a tr st SU T) as [(st1 & r & E)|(st1 & e & E & PE)]; rewrite E; cbn [bind]; [|right; eauto].
    destruct SU as (W & I1 & DJ & NZ & _).
    destruct (apply_traced cast method Tr call traced in_dims out_dims exclude a tr st st1 r n W ND L shaped T NZ E) as (l & T1 & _ & S1 & _ & _ & _ & _ & C).
    destruct (add_var_total after_sizes s k r S (one_agrees a r _ AG OC S1 DJ C)) as (s1 & AV & S'). rewrite AV. exact (IH s1 _ st1 T1 S').
  Qed.
End Total.
