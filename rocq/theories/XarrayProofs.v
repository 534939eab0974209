(** Lemmas about xarray objects. *)
From Verif Require Import PyBase ListLemmas PyStr Float64 GridSpec Regrid RegridSpec RegridProofs Dispatch Xarray XarraySpec.
Set Default Proof Using "Type".
Local Open Scope string_scope.
Local Open Scope list_scope.
Local Open Scope nat_scope.

(** ** Names *)
Lemma mem_in d l : mem d l = true <-> In d l.
Proof. unfold mem. rewrite existsb_exists. split; [intros (x & I & E); apply String.eqb_eq in E; subst; exact I|]. intros I. exists d. split; [exact I|apply String.eqb_refl]. Qed.
Lemma mem_not d l : mem d l = false <-> ~ In d l.
Proof. rewrite <- mem_in. destruct (mem d l); intuition congruence. Qed.
Lemma nodup_NoDup l : nodup l = true <-> NoDup l.
Proof.
  induction l as [|d l IH]; cbn; [split; [constructor|reflexivity]|]. rewrite Bool.andb_true_iff, Bool.negb_true_iff, mem_not, IH. split.
  - intros [N D]. constructor; assumption.
  - intros H. inversion H; auto.
Qed.
Lemma disjoint_spec a b : disjoint a b = true <-> forall d, In d a -> ~ In d b.
Proof. unfold disjoint. rewrite forallb_forall. split; intros H d I; specialize (H d I); [apply mem_not, Bool.negb_true_iff; exact H|apply Bool.negb_true_iff, mem_not; exact H]. Qed.
Lemma place_in p ds c d : List.length ds = List.length c -> In d ds -> exists i, alookup d (combine ds c) = Some i /\ place p ds c d = i.
Proof.
  revert c. induction ds as [|x ds IH]; intros c L I; [destruct I|]. destruct c as [|i c]; [discriminate|]. cbn [combine alookup place].
  destruct (String.eqb_spec d x) as [->|N]; [eauto|]. destruct I as [->|I]; [destruct (N eq_refl)|]. apply IH; [cbn in L; lia|exact I].
Qed.
Lemma place_out p ds c d : ~ In d ds -> place p ds c d = p d.
Proof.
  revert c. induction ds as [|x ds IH]; intros c N; [reflexivity|]. destruct c as [|i c]; [reflexivity|]. cbn [place].
  destruct (String.eqb_spec d x) as [->|N']; [destruct N; left; reflexivity|]. apply IH. intros I. apply N. right. exact I.
Qed.
Lemma lookup_out {V} ds (c : list V) d : ~ In d ds -> alookup d (combine ds c) = None.
Proof.
  revert c. induction ds as [|x ds IH]; intros c N; [reflexivity|]. destruct c as [|i c]; [reflexivity|]. cbn [combine alookup].
  destruct (String.eqb_spec d x) as [->|N']; [destruct N; left; reflexivity|]. apply IH. intros I. apply N. right. exact I.
Qed.
Lemma lookup_app {V} k (a b : list (string * V)) : alookup k (a ++ b) = match alookup k a with Some v => Some v | None => alookup k b end.
Proof. induction a as [|[k' v] a IH]; [reflexivity|]. cbn. destruct (String.eqb k k'); [reflexivity|exact IH]. Qed.
Lemma combine_app' {X Y} (a b : list X) (c d : list Y) : List.length a = List.length c -> combine (a ++ b) (c ++ d) = combine a c ++ combine b d.
Proof. revert c. induction a as [|x a IH]; intros c L; destruct c as [|y c]; try discriminate; [reflexivity|]. cbn. f_equal. apply IH. cbn in L. lia. Qed.
Lemma lookup_map {V} (f : string -> V) ds d : In d ds -> alookup d (combine ds (map f ds)) = Some (f d).
Proof.
  induction ds as [|x ds IH]; intros I; [destruct I|]. cbn [map combine alookup]. destruct (String.eqb_spec d x) as [->|N]; [reflexivity|].
  destruct I as [->|I]; [destruct (N eq_refl)|]. exact (IH I).
Qed.
Lemma map_place p ds c : NoDup ds -> List.length ds = List.length c -> map (place p ds c) ds = c.
Proof.
  revert c. induction ds as [|x ds IH]; intros c N L; destruct c as [|i c]; try discriminate; [reflexivity|]. inversion N as [|? ? N1 N2]; subst. cbn [map place].
  rewrite String.eqb_refl. f_equal. transitivity (map (place p ds c) ds); [|apply IH; [exact N2|cbn in L; lia]]. apply map_ext_in. intros y I. destruct (String.eqb_spec y x) as [->|_]; [destruct (N1 I)|reflexivity].
Qed.
Lemma lookup_in {V} k (v : V) l : alookup k l = Some v -> In (k, v) l.
Proof. induction l as [|[k' w] l IH]; [discriminate|]. cbn. destruct (String.eqb_spec k k') as [->|_]; [intros H; injection H as ->; left; reflexivity|right; auto]. Qed.
Lemma in_lookup {V} (ks : list string) (vs : list V) k v : NoDup ks -> In (k, v) (combine ks vs) -> alookup k (combine ks vs) = Some v.
Proof.
  revert vs. induction ks as [|x ks IH]; intros vs N I; [destruct I|]. destruct vs as [|w vs]; [destruct I|]. inversion N as [|? ? N1 N2]; subst. cbn in *.
  destruct I as [E|I]; [injection E as -> ->; rewrite String.eqb_refl; reflexivity|].
  destruct (String.eqb_spec k x) as [->|_]; [destruct N1; exact (in_combine_l _ _ _ _ I)|]. apply IH; assumption.
Qed.

Lemma Forall2_length {X Y} (P : X -> Y -> Prop) l m : Forall2 P l m -> List.length l = List.length m.
Proof. induction 1; cbn; congruence. Qed.

Section Apply.
  Context {A dtype spec other : Type}.
  Variable cast : dtype -> A -> A.
  Notation dataarray := (dataarray A dtype spec other).
  Implicit Types (a r : dataarray).

  Lemma size_sized a d k : well_formed a -> (sized a d k <-> In d (da_dims a) /\ size a d = k).
  Proof.
    intros [N L]. unfold sized, size. split.
    - intros I. split; [exact (in_combine_l _ _ _ _ I)|]. rewrite (in_lookup _ _ _ _ N I). reflexivity.
    - intros [I E]. destruct (place_in (fun _ => 0) (da_dims a) (shape (da_data a)) d L I) as (i & G & _). rewrite G in E. subst. apply lookup_in. exact G.
  Qed.
  Lemma others_filter a ds : others a ds = filter (fun d => negb (mem d ds)) (da_dims a).
  Proof.
    unfold others. apply filter_ext. intros d. destruct (in_dec string_dec d ds) as [I|N].
    - apply mem_in in I. rewrite I. reflexivity.
    - apply mem_not in N. rewrite N. reflexivity.
  Qed.
  Lemma others_in a ds d : In d (others a ds) <-> In d (da_dims a) /\ ~ In d ds.
  Proof. rewrite others_filter, filter_In, Bool.negb_true_iff, mem_not. reflexivity. Qed.

  (** A result of the right shape is copied. *)
  Lemma assign_same (v : array A) : exists f, assign (shape v) v = Ok f /\ forall c, valid (shape v) c -> f c = item v c.
  Proof.
    unfold assign. rewrite Nat.sub_diag. cbn [drop_ones]. rewrite Nat.sub_diag. cbn [skipn repeat].
    assert (F : forallb (fun p => (snd p =? fst p) || (snd p =? 1)) (combine (shape v) (shape v)) = true).
    { apply forallb_forall. intros [x y] I. cbn. assert (E : x = y). { clear - I. induction (shape v) as [|z l IH]; [destruct I|]. destruct I as [E|I]; [injection E as <- <-; reflexivity|auto]. }
      subst. rewrite Nat.eqb_refl. reflexivity. }
    rewrite F. eexists. split; [reflexivity|]. cbn beta. intros c V. cbn [app]. f_equal. clear F. unfold valid in V. induction V as [|n i sh c H V IH]; [reflexivity|]. cbn.
    rewrite IH. destruct (Nat.eqb_spec n 1) as [->|_]; [f_equal; lia|reflexivity].
  Qed.

  (** The elements of a list, each with those before it. *)
  Fixpoint splits {X} (pre l : list X) : list (list X * X) := match l with [] => [] | b :: r => (pre, b) :: splits (pre ++ [b]) r end.
  Lemma splits_length {X} (l : list X) : forall pre, List.length (splits pre l) = List.length l.
  Proof. induction l as [|b l IH]; intros pre; [reflexivity|]. cbn. rewrite IH. reflexivity. Qed.
  Lemma splits_nth {X} (l : list X) : forall pre i dp d, i < List.length l -> nth i (splits pre l) dp = (pre ++ firstn i l, nth i l d).
  Proof.
    induction l as [|b l IH]; intros pre i dp d L; [inversion L|]. destruct i as [|i]; cbn; [rewrite app_nil_r; reflexivity|]. cbn in L. rewrite (IH _ i dp d) by lia. rewrite <- app_assoc. reflexivity.
  Qed.

  (** The calls that a function with a state is applied in: [Tr tr st] if [st] is a state after calls for
      the arrays [tr]; [call tr v o] if a call for [v] after these returns [o]. *)
  Section Traced.
    Context {St : Type}.
    Variable method : St -> array A -> St * result (array A).
    Variable Tr : list (array A) -> St -> Prop.
    Variable call : list (array A) -> array A -> array A -> Prop.
    Hypothesis traced : forall tr st v st' o, Tr tr st -> method st v = (st', Ok o) -> Tr (tr ++ [v]) st' /\ call tr v o.
    Variable out_dims : list string.
    Variable n : list nat.

    Lemma loop_ok slice known idxs : List.length n = List.length out_dims -> forall tr pre done st st' sh fs,
      Tr (tr ++ map slice pre) st -> (forall tr v o, call tr v o -> shape o = n) ->
      loop method slice known out_dims idxs (Some n) done st = (st', Ok (sh, fs)) ->
      sh = Some n /\ Tr (tr ++ map slice (pre ++ idxs)) st' /\ exists more, fs = done ++ more /\
        Forall2 (fun p f => exists v, call (tr ++ map slice (fst p)) (slice (snd p)) v /\ forall c, valid n c -> f c = item v c) (splits pre idxs) more.
    Proof using traced.
      intros L. induction idxs as [|b idxs IH]; intros tr pre done st st' sh fs T R E; cbn [loop] in E.
      - injection E as <- <- <-. split; [reflexivity|]. rewrite app_nil_r. split; [exact T|]. exists []. rewrite app_nil_r. split; [reflexivity|constructor].
      - destruct (method st (slice b)) as [st1 r] eqn:M. destruct r as [v|e|]; [|discriminate E..]. destruct (traced _ _ _ _ _ T M) as [T1 C].
        pose proof (R _ _ _ C) as Sv. destruct (assign_same v) as (f & As & F). rewrite Sv in As. cbn [bind] in E. rewrite As in E. cbn [bind] in E.
        rewrite <- app_assoc in T1. change [slice b] with (map slice [b]) in T1. rewrite <- map_app in T1.
        destruct (IH tr (pre ++ [b]) (done ++ [f]) st1 st' sh fs T1 R E) as (-> & T2 & more & -> & H).
        split; [reflexivity|]. rewrite <- app_assoc in T2. split; [exact T2|]. exists (f :: more). rewrite <- app_assoc. split; [reflexivity|]. constructor; [|exact H]. exists v. split; [exact C|]. rewrite <- Sv. exact F.
    Qed.
    Lemma loop_first slice known idxs : List.length n = List.length out_dims -> idxs <> [] -> forall tr st st' sh fs,
      Tr tr st -> (forall tr v o, call tr v o -> shape o = n) ->
      loop method slice known out_dims idxs None [] st = (st', Ok (sh, fs)) ->
      sh = Some n /\ Tr (tr ++ map slice idxs) st' /\ Forall2 (fun p f => exists v, call (tr ++ map slice (fst p)) (slice (snd p)) v /\ forall c, valid n c -> f c = item v c) (splits [] idxs) fs /\
      (forall d k m, In (d, k) (combine out_dims n) -> alookup d known = Some m -> k = m).
    Proof using traced.
      intros L NE tr st st' sh fs T R E. destruct idxs as [|b idxs]; [destruct (NE eq_refl)|]. cbn [loop] in E.
      destruct (method st (slice b)) as [st1 r] eqn:M. destruct r as [v|e|]; [|discriminate E..]. destruct (traced _ _ _ _ _ T M) as [T1 C].
      pose proof (R _ _ _ C) as Sv. destruct (assign_same v) as (f & As & F). rewrite Sv in As. rewrite Sv, L, Nat.ltb_irrefl, Nat.sub_diag in E. cbn [skipn] in E.
      destruct (forallb _ (combine out_dims n)) eqn:FB; [|discriminate E]. cbn [bind] in E. rewrite As in E. cbn [bind app] in E.
      destruct (loop_ok slice known idxs L tr [b] [f] st1 st' sh fs T1 R E) as (-> & T2 & more & -> & H).
      split; [reflexivity|]. split; [exact T2|]. split.
      - constructor; [|exact H]. exists v. cbn [fst snd map]. rewrite app_nil_r. split; [exact C|]. rewrite <- Sv. exact F.
      - intros d k m I K. rewrite forallb_forall in FB. specialize (FB _ I). cbn in FB. rewrite K in FB. apply Nat.eqb_eq. exact FB.
    Qed.
  End Traced.

  Section Loop.
    Context {St : Type}.
    Variable method : St -> array A -> St * result (array A).
    Variable call : array A -> result (array A).
    Hypothesis stateless : forall st v, snd (method st v) = call v.
    Variable out_dims : list string.
    Variable n : list nat.

    (** The calls made. *)
    Lemma loop_total slice known idxs : List.length n = List.length out_dims ->
      (forall b, In b idxs -> exists v, call (slice b) = Ok v /\ shape v = n) ->
      forallb (fun p => match alookup (fst p) known with Some m => snd p =? m | None => true end) (combine out_dims n) = true ->
      forall o done st, (o = None \/ o = Some n) -> exists st' fs, loop method slice known out_dims idxs o done st = (st', Ok (match idxs with [] => o | _ => Some n end, fs)).
    Proof using stateless.
      intros L R FB. induction idxs as [|b idxs IH]; intros o done st O; cbn [loop]; [eauto|].
      pose proof (stateless st (slice b)) as M. destruct (method st (slice b)) as [st1 r]. cbn [snd] in M. subst r. destruct (R b (or_introl eq_refl)) as (v & C & Sv). rewrite C.
      destruct (assign_same v) as (f & As & _). rewrite Sv in As.
      assert (E : (match o with Some sh => Ok sh | None => if List.length (shape v) <? List.length out_dims then Raise ValueError else
        let sh := skipn (List.length (shape v) - List.length out_dims) (shape v) in
        if forallb (fun p => match alookup (fst p) known with Some m => snd p =? m | None => true end) (combine out_dims sh) then Ok sh else Raise ValueError end) = Ok n).
      { destruct O as [->| ->]; [|reflexivity]. rewrite Sv, L, Nat.ltb_irrefl, Nat.sub_diag. cbn [skipn]. cbv zeta. rewrite FB. reflexivity. }
      cbv zeta in *. rewrite E. cbn [bind]. rewrite As. cbn [bind].
      destruct (IH (fun b' I => R b' (or_intror I)) (Some n) (done ++ [f]) st1 (or_intror eq_refl)) as (st' & fs & G). rewrite G. destruct idxs; eauto.
    Qed.
  End Loop.

  Lemma firstn_app_len {X} (a b : list X) : firstn (List.length a) (a ++ b) = a.
  Proof. rewrite firstn_app, Nat.sub_diag, firstn_all, firstn_O, app_nil_r. reflexivity. Qed.
  Lemma skipn_app_len {X} (a b : list X) : skipn (List.length a) (a ++ b) = b.
  Proof. rewrite skipn_app, Nat.sub_diag, skipn_all. reflexivity. Qed.
  Lemma Forall2_nth {X Y} (P : X -> Y -> Prop) l m i dx dy : Forall2 P l m -> i < List.length l -> P (nth i l dx) (nth i m dy).
  Proof. intros F. revert i. induction F as [|x y l m H F IH]; intros [|i] L; cbn in *; try lia; [exact H|]. apply IH. lia. Qed.

  Lemma combine_lookup_sized a ds d : well_formed a -> In d ds -> alookup d (combine ds (map (size a) ds)) = Some (size a d).
  Proof. intros W I. apply lookup_map. exact I. Qed.

  Lemma apply_traced {St} (method : St -> array A -> St * result (array A)) (Tr : list (array A) -> St -> Prop) (call : list (array A) -> array A -> array A -> Prop) (traced : forall tr st v st' o, Tr tr st -> method st v = (st', Ok o) -> Tr (tr ++ [v]) st' /\ call tr v o)
    in_dims out_dims exclude a tr st st' r n :
    well_formed a -> NoDup out_dims -> List.length n = List.length out_dims ->
    (forall tr v o, call tr v o -> shape o = n) -> Tr tr st ->
    (forall d, In d (others a in_dims) -> ~ sized a d 0) ->
    apply_ufunc cast method in_dims out_dims exclude a st = (st', Ok r) ->
    exists l, Tr (tr ++ l) st' /\ listing a in_dims l /\
    sliced cast (fun v o => exists l1 l2, l = l1 ++ v :: l2 /\ call (tr ++ l1) v o) in_dims out_dims n a r /\ NoDup in_dims /\ incl in_dims (da_dims a) /\
    (forall d, In d (others a in_dims) -> ~ In d out_dims) /\ da_grid r = None /\
    da_coords r = filter (fun p => disjoint (c_dims (snd p)) (filter (fun d => negb (mem d out_dims)) in_dims ++ exclude)) (da_coords a).
  Proof.
    intros W ND L R T NZ E. unfold apply_ufunc in E. set (bdims := filter (fun d => negb (mem d in_dims || mem d out_dims)) (da_dims a)) in *.
    destruct (nodup (da_dims a)) eqn:N1; [|discriminate E]. destruct (nodup in_dims) eqn:N2; [|discriminate E].
    destruct (forallb (fun d => mem d (da_dims a)) in_dims) eqn:F1; [|discriminate E].
    destruct (forallb (fun d => mem d (bdims ++ in_dims)) (da_dims a)) eqn:F2; [|discriminate E]. cbn [negb orb] in E.
    apply nodup_NoDup in N1, N2. rewrite forallb_forall in F1, F2.
    assert (I1 : incl in_dims (da_dims a)) by (intros d I; apply mem_in, F1, I).
    assert (DJ : forall d, In d (others a in_dims) -> ~ In d out_dims).
    { intros d I O. apply others_in in I. destruct I as [I NI]. specialize (F2 d I). apply mem_in, in_app_or in F2. destruct F2 as [F2|F2]; [|exact (NI F2)].
      unfold bdims in F2. apply filter_In in F2. destruct F2 as [_ F2]. apply mem_in in O. rewrite O, Bool.orb_true_r in F2. discriminate F2. }
    assert (BO : bdims = others a in_dims).
    { rewrite others_filter. unfold bdims. apply filter_ext_in. intros d I. destruct (mem d in_dims) eqn:M1; [reflexivity|]. destruct (mem d out_dims) eqn:M2; [|reflexivity].
      apply mem_in in M2. apply mem_not in M1. destruct (DJ d); [apply others_in; auto|exact M2]. }
    rewrite BO in E. clear bdims BO F1 F2. set (bd := others a in_dims) in *.
    set (slice := fun b => mkArr (map (size a) in_dims) (fun c => item (da_data a) (reorder (da_dims a) (bd ++ in_dims) (b ++ c)))) in *.
    set (known := filter (fun p => negb (mem (fst p) exclude)) (combine in_dims (map (size a) in_dims))) in *.
    destruct (loop method slice known out_dims (indices (map (size a) bd)) None [] st) as [st1 rr] eqn:LP. injection E as -> E.
    destruct rr as [[sh fs]|e|]; [|discriminate E..]. cbn [bind fst snd] in E.
    assert (NE : indices (map (size a) bd) <> []).
    { intros Z. assert (P0 : prod (map (size a) bd) = 0) by (rewrite <- indices_length, Z; reflexivity).
      assert (X : exists d, In d bd /\ size a d = 0).
      { clear - P0. induction bd as [|d l IH]; [discriminate P0|]. cbn in P0. apply Nat.eq_mul_0 in P0. destruct P0 as [P0|P0]; [exists d; split; [left; reflexivity|exact P0]|].
        destruct (IH P0) as (d' & I & Z). exists d'. split; [right; exact I|exact Z]. }
      destruct X as (d & I & Z0). apply (NZ d I). apply size_sized; [exact W|]. split; [|exact Z0]. apply others_in in I. exact (proj1 I). }
    destruct (loop_first method Tr call traced out_dims n slice known (indices (map (size a) bd)) L NE tr st st' sh fs T R LP) as (-> & T2 & F & K).
    cbn [bind] in E. injection E as <-. cbn [da_dims da_data da_type da_coords da_grid shape item]. 
    assert (NB : NoDup bd). { unfold bd. rewrite others_filter. apply NoDup_filter. exact N1. }
    assert (NDr : NoDup (bd ++ out_dims)).
    { clear - NB ND DJ. induction bd as [|d l IH]; [exact ND|]. inversion NB as [|? ? X1 X2]; subst. cbn. constructor.
      - rewrite in_app_iff. intros [H|H]; [exact (X1 H)|]. exact (DJ d (or_introl eq_refl) H).
      - apply IH; [|exact X2]. intros x I. apply DJ. right. exact I. }
    assert (SZ : forall ds, incl ds (da_dims a) -> Forall2 (sized a) ds (map (size a) ds)).
    { induction ds as [|d ds IH]; intros I; [constructor|]. cbn. constructor; [apply size_sized; [exact W|]; split; [apply I; left; reflexivity|reflexivity]|]. apply IH. intros x X. apply I. right. exact X. }
    assert (VBP : forall p, (forall d k, In d bd -> sized a d k -> p d < k) -> valid (map (size a) bd) (map p bd)).
    { intros p PR. unfold valid. assert (X : forall l, incl l bd -> Forall2 (fun n i => i < n) (map (size a) l) (map p l)).
      { induction l as [|d l IH]; intros I; [constructor|]. cbn. constructor; [|apply IH; intros x X; apply I; right; exact X].
        apply (PR d); [apply I; left; reflexivity|]. apply size_sized; [exact W|]. split; [|reflexivity]. specialize (I d (or_introl eq_refl)). apply others_in in I. exact (proj1 I). }
      apply X. intros x X'. exact X'. }
    assert (SPP : forall p, same_array (slice (map p bd)) (part a p in_dims (map (size a) in_dims))).
    { intros p. split; [reflexivity|]. cbn [slice shape item part]. intros c V. unfold value_at. f_equal. unfold reorder. apply map_ext_in. intros d I.
      assert (LC : List.length in_dims = List.length c) by (apply Forall2_length in V; rewrite map_length in V; exact V).
      rewrite combine_app' by (rewrite map_length; reflexivity). rewrite lookup_app. destruct (in_dec string_dec d in_dims) as [J|J].
      - rewrite (lookup_out bd (map p bd) d) by (intros X; apply others_in in X; exact (proj2 X J)). destruct (place_in p in_dims c d LC J) as (i & G & <-). rewrite G. reflexivity.
      - rewrite lookup_map by (apply others_in; auto). rewrite place_out by exact J. reflexivity. }
    exists (map slice (indices (map (size a) bd))). split; [exact T2|]. split.
    { exists (map (size a) bd), (map (size a) in_dims). fold bd. split; [apply SZ; intros d I; apply others_in in I; exact (proj1 I)|]. split; [apply SZ; exact I1|]. split; [rewrite map_length; apply indices_length|].
      intros p PR. specialize (VBP p PR). exists (slice (map p bd)). split; [|apply SPP]. apply map_nth_error. pose proof (offset_lt _ _ VBP) as LT. rewrite <- indices_length in LT.
      rewrite (nth_error_nth' _ [] LT), (nth_indices _ _ _ VBP). reflexivity. }
    split; [|split; [exact N2|split; [exact I1|split; [exact DJ|split; reflexivity]]]].
    unfold sliced. cbn [da_dims da_data da_type shape item]. fold bd.
    assert (WR : well_formed (mkDA (other := other) (spec := spec) (bd ++ out_dims)
      (mkArr (map (size a) bd ++ n) (fun idx => cast (da_type a) (nth (offset (map (size a) bd) (firstn (List.length (map (size a) bd)) idx)) fs (fun _ => item (da_data a) []) (skipn (List.length (map (size a) bd)) idx))))
      (da_type a) (filter (fun p => disjoint (c_dims (snd p)) (filter (fun d => negb (mem d out_dims)) in_dims ++ exclude)) (da_coords a)) None)).
    { split; cbn [da_dims da_data shape]; [exact NDr|]. rewrite !app_length, map_length, L. reflexivity. }
    split; [reflexivity|]. split; [reflexivity|]. split; [exact WR|]. split; [|split].
    - intros d k I. rewrite (size_sized a _ _ W). unfold sized. cbn [da_dims da_data shape]. rewrite combine_app' by (rewrite map_length; reflexivity). rewrite in_app_iff. split.
      + intros [H|H]; [|destruct (DJ d I); exact (in_combine_l _ _ _ _ H)].
        apply in_lookup in H; [|exact NB]. rewrite lookup_map in H by exact I. injection H as <-. split; [|reflexivity]. apply others_in in I. exact (proj1 I).
      + intros [_ <-]. left. apply lookup_in. apply lookup_map. exact I.
    - unfold sized. cbn [da_dims da_data shape]. rewrite combine_app' by (rewrite map_length; reflexivity).
      clear - L ND. assert (G : forall (l0 : list (string * nat)) ds m, List.length m = List.length ds -> Forall2 (fun d k => In (d, k) (l0 ++ combine ds m)) ds m).
      { intros l0 ds m LM. assert (X : forall l1, incl (combine ds m) l1 -> Forall2 (fun d k => In (d, k) l1) ds m).
        { revert m LM. induction ds as [|d ds IH]; intros m LM l1 I; destruct m as [|k m]; try discriminate; [constructor|]. constructor; [apply I; left; reflexivity|].
          apply IH; [cbn in LM; lia|]. intros x X. apply I. right. exact X. }
        apply X. intros x I. apply in_or_app. right. exact I. }
      apply G. exact L.
    - exists (map (size a) in_dims). split; [apply SZ; exact I1|].
      intros p PR. set (b := map p bd).
      pose proof (VBP p PR : valid (map (size a) bd) b) as VB.
      pose proof (Forall2_nth _ _ _ (offset (map (size a) bd) b) ([], []) (fun _ => item (da_data a) []) F) as X. rewrite splits_length, indices_length in X. specialize (X (offset_lt _ _ VB)).
      rewrite (splits_nth _ _ _ _ []) in X by (rewrite indices_length; apply (offset_lt _ _ VB)). rewrite (nth_indices _ _ _ VB) in X. destruct X as (v & C & Fv). cbn [fst snd app] in C.
      exists (slice b), v. split; [|split; [|split; [exact (R _ _ _ C)|]]]; [| |].
      2:{ exists (map slice (firstn (offset (map (size a) bd) b) (indices (map (size a) bd)))), (map slice (skipn (S (offset (map (size a) bd) b)) (indices (map (size a) bd)))). split; [|exact C].
        change (slice b :: ?l) with (map slice [b] ++ l). rewrite <- (nth_indices (map (size a) bd) b [] VB) at 2. rewrite <- !map_app. f_equal.
        pose proof (offset_lt _ _ VB) as LT. rewrite <- indices_length in LT. clear - LT. revert LT. generalize (offset (map (size a) bd) b) as i. generalize (indices (map (size a) bd)) as l.
        induction l as [|x l IH]; intros [|i] LT; cbn in *; try lia; [reflexivity|]. f_equal. apply IH. lia. }
      + apply SPP.
      + intros c V. unfold value_at. cbn [da_dims da_data item]. rewrite map_app. assert (LC : List.length out_dims = List.length c) by (apply Forall2_length in V; congruence).
        rewrite (map_place p out_dims c ND LC). assert (MB : map (place p out_dims c) bd = b). { unfold b. apply map_ext_in. intros d I. apply place_out, DJ, I. }
        rewrite MB. assert (LB : List.length (map (size a) bd) = List.length b) by (unfold b; rewrite !map_length; reflexivity). rewrite LB, firstn_app_len, skipn_app_len. f_equal. apply Fv. exact V.
  Qed.
  Lemma apply_sliced {St} (method : St -> array A -> St * result (array A)) (call : array A -> result (array A)) (stateless : forall st v, snd (method st v) = call v)
    in_dims out_dims exclude a st st' r n :
    well_formed a -> NoDup out_dims -> List.length n = List.length out_dims ->
    (forall v o, call v = Ok o -> shape o = n) ->
    (forall d, In d (others a in_dims) -> ~ sized a d 0) ->
    apply_ufunc cast method in_dims out_dims exclude a st = (st', Ok r) ->
    sliced cast (fun v o => call v = Ok o) in_dims out_dims n a r /\ NoDup in_dims /\ incl in_dims (da_dims a) /\
    (forall d, In d (others a in_dims) -> ~ In d out_dims) /\ da_grid r = None /\
    da_coords r = filter (fun p => disjoint (c_dims (snd p)) (filter (fun d => negb (mem d out_dims)) in_dims ++ exclude)) (da_coords a).
  Proof.
    intros W ND L R NZ E.
    destruct (apply_traced method (fun _ _ => True) (fun _ v o => call v = Ok o)) with (in_dims := in_dims) (out_dims := out_dims) (exclude := exclude) (a := a) (tr := @nil (array A)) (st := st) (st' := st') (r := r) (n := n)
      as (l & _ & _ & S1 & S2); auto.
    - intros tr st0 v st1 o _ M. split; [exact Logic.I|]. rewrite <- (stateless st0 v), M. reflexivity.
    - split; [|exact S2]. destruct S1 as (H1 & H2 & H3 & H4 & H5 & sh & H6 & H7). repeat (split; [assumption|]). exists sh. split; [exact H6|]. intros p Q. destruct (H7 p Q) as (v & vals & V1 & (l1 & l2 & _ & V2) & V3 & V4).
      exists v, vals. auto.
  Qed.
  Context {St : Type}.
  Variable method : St -> array A -> St * result (array A).
  Variable call : array A -> result (array A).
  Hypothesis stateless : forall st v, snd (method st v) = call v.
  Lemma apply_total in_dims out_dims exclude a st n :
    well_formed a -> NoDup in_dims -> incl in_dims (da_dims a) -> (forall d, In d (others a in_dims) -> ~ In d out_dims) ->
    List.length n = List.length out_dims -> (forall d, In d (others a in_dims) -> ~ sized a d 0) ->
    (forall d k, In (d, k) (combine out_dims n) -> ~ In d in_dims \/ In d exclude) ->
    (forall v, Forall2 (sized a) in_dims (shape v) -> exists o, call v = Ok o /\ shape o = n) ->
    exists st' r, apply_ufunc cast method in_dims out_dims exclude a st = (st', Ok r).
  Proof using stateless.
    intros W N2 I1 DJ L NZ K R. unfold apply_ufunc. set (bdims := filter (fun d => negb (mem d in_dims || mem d out_dims)) (da_dims a)).
    assert (BO : bdims = others a in_dims).
    { rewrite others_filter. unfold bdims. apply filter_ext_in. intros d I. destruct (mem d in_dims) eqn:M1; [reflexivity|]. destruct (mem d out_dims) eqn:M2; [|reflexivity].
      apply mem_in in M2. apply mem_not in M1. destruct (DJ d); [apply others_in; auto|exact M2]. }
    assert (G : negb (nodup (da_dims a)) || negb (nodup in_dims) || negb (forallb (fun d => mem d (da_dims a)) in_dims) || negb (forallb (fun d => mem d (bdims ++ in_dims)) (da_dims a)) = false).
    { rewrite (proj2 (nodup_NoDup _) (proj1 W)), (proj2 (nodup_NoDup _) N2). cbn [negb orb]. apply Bool.orb_false_iff. split; apply Bool.negb_false_iff, forallb_forall; intros d I; apply mem_in.
      - apply I1, I.
      - apply in_or_app. rewrite BO, others_in. destruct (in_dec string_dec d in_dims); auto. }
    rewrite G. rewrite BO. clear G BO bdims. set (bd := others a in_dims) in *.
    set (slice := fun b => mkArr (map (size a) in_dims) (fun c => item (da_data a) (reorder (da_dims a) (bd ++ in_dims) (b ++ c)))).
    set (known := filter (fun p => negb (mem (fst p) exclude)) (combine in_dims (map (size a) in_dims))).
    destruct (loop_total method call stateless out_dims n slice known (indices (map (size a) bd)) L) with (o := @None (list nat)) (done := @nil (list nat -> A)) (st := st) as (st' & fs & E).
    - intros b _. apply R. cbn [slice shape]. clear - I1 W. assert (X : forall ds, incl ds (da_dims a) -> Forall2 (sized a) ds (map (size a) ds)).
      { induction ds as [|d ds IH]; intros I; [constructor|]. cbn. constructor; [apply size_sized; [exact W|]; split; [apply I; left; reflexivity|reflexivity]|]. apply IH. intros x X. apply I. right. exact X. }
      apply X. exact I1.
    - apply forallb_forall. intros [d k] I. cbn [fst snd]. destruct (alookup d known) as [m|] eqn:AL; [|reflexivity]. apply lookup_in, filter_In in AL. destruct AL as [AL M]. cbn [fst] in M. apply Bool.negb_true_iff, mem_not in M.
      destruct (K d k I) as [X|X]; [destruct (X (in_combine_l _ _ _ _ AL))|destruct (M X)].
    - left. reflexivity.
    - rewrite E. destruct (indices (map (size a) bd)) as [|b0 l] eqn:IX.
      + exfalso. assert (P0 : prod (map (size a) bd) = 0) by (rewrite <- indices_length, IX; reflexivity).
        assert (X : exists d, In d bd /\ size a d = 0).
        { clear - P0. induction bd as [|d l IH]; [discriminate P0|]. cbn in P0. apply Nat.eq_mul_0 in P0. destruct P0 as [P0|P0]; [exists d; split; [left; reflexivity|exact P0]|].
          destruct (IH P0) as (d' & I & Z). exists d'. split; [right; exact I|exact Z]. }
        destruct X as (d & I & Z0). apply (NZ d I). apply size_sized; [exact W|]. split; [|exact Z0]. apply others_in in I. exact (proj1 I).
      + cbn [bind fst]. eexists _, _. reflexivity.
  Qed.
End Apply.
