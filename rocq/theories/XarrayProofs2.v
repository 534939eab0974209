(** Lemmas about xarray objects: coordinates, Datasets, whole calls. *)
From Verif Require Import PyBase ListLemmas PyStr Float64 GridSpec GridProofs Regrid RegridSpec RegridProofs Dispatch Props_Dispatch Xarray XarraySpec XarrayProofs.
Set Default Proof Using "Type".
Local Open Scope string_scope.
Local Open Scope list_scope.
Local Open Scope nat_scope.

Section Coords.
  Context {spec other : Type}.
  Notation coords := (coords (spec := spec) (other := other)).
  Implicit Type g : geometry spec.

  Lemma nth_error_nth' {X} (l : list X) i x d : nth_error l i = Some x -> nth i l d = x.
  Proof. revert i. induction l as [|y l IH]; intros [|i] H; try discriminate; cbn in *; [injection H as ->; reflexivity|]. apply IH, H. Qed.
  Lemma nth_error_some {X} (l : list X) i d : i < List.length l -> nth_error l i = Some (nth i l d).
  Proof. revert i. induction l as [|y l IH]; intros [|i] H; cbn in *; try lia; [reflexivity|]. apply IH. lia. Qed.

  Lemma constant_rows (f : nat -> nat -> f64) r c : 2 <= c -> (forall i j, i < r -> j < c -> f i j = f i 0 /\ finite (f i 0) = true) -> 1 <= r ->
    distinct (map (fun i => map (f i) (seq 0 c)) (seq 0 r)) = Ok (Some (map (fun i => f i 0) (seq 0 r))).
  Proof.
    intros C H R. destruct c as [|[|c]]; [lia|lia|]. set (rows := map (fun i => (f i 0, c)) (seq 0 r)).
    assert (E : map (fun i => map (f i) (seq 0 (S (S c)))) (seq 0 r) = map (fun p => repeat (fst p) (S (S (snd p)))) rows).
    { unfold rows. rewrite map_map. apply map_ext_in. intros i I. apply in_seq in I. cbn [fst snd].
      transitivity (map (fun _ => f i 0) (seq 0 (S (S c)))); [apply map_ext_in; intros j J; apply in_seq in J; apply H; lia|].
      clear. assert (X : forall k s, map (fun _ : nat => f i 0) (seq s k) = repeat (f i 0) k) by (induction k as [|k IH]; intros s; [reflexivity|cbn; rewrite IH; reflexivity]). apply X. }
    rewrite E, C60_constant_partial.
    - f_equal. f_equal. unfold rows. rewrite map_map. reflexivity.
    - unfold rows. destruct r; [lia|discriminate].
    - apply Forall_forall. intros p I. unfold rows in I. apply in_map_iff in I. destruct I as (i & <- & I). apply in_seq in I. cbn [fst]. apply (H i 0); lia.
  Qed.

  Lemma offset2 r c i j : offset [r; c] [i; j] = i * c + j.
  Proof. cbn. rewrite Nat.mul_1_r. lia. Qed.
  Lemma valid2 r c idx : valid [r; c] idx -> exists i j, idx = [i; j] /\ i < r /\ j < c.
  Proof. intros V. inversion V as [|? i ? l H V']; subst. inversion V' as [|? j ? l' H' V'']; subst. inversion V''; subst. eauto. Qed.

  Lemma coords_regular g r c : regular g r c ->
    exists cs, coords g = Ok ([("latitude", r); ("longitude", c)], cs) /\ located g ["latitude"; "longitude"] cs /\
      forall d k n, In (d, k) cs -> In n (combine (c_dims k) (shape (c_data k))) -> n = ("latitude", r) \/ n = ("longitude", c).
  Proof.
    intros (Sh & R & C & (lat & lon & LL & L1 & L2) & HA & HO). rewrite Sh in L1, L2. cbn in L1, L2. rewrite Nat.mul_1_r in L1, L2.
    assert (LA : forall i j, i < r -> j < c -> lat_of g [i; j] (nth (i * c + j) lat (of_Z 0))).
    { intros i j I J. exists lat, lon. split; [exact LL|]. rewrite Sh, offset2. apply nth_error_some. rewrite L1. nia. }
    assert (LO : forall i j, i < r -> j < c -> lon_of g [i; j] (nth (i * c + j) lon (of_Z 0))).
    { intros i j I J. exists lat, lon. split; [exact LL|]. rewrite Sh, offset2. apply nth_error_some. rewrite L2. nia. }
    assert (DA : distinct (rows_of r c lat) = Ok (Some (map (fun i => nth (i * c + 0) lat (of_Z 0)) (seq 0 r)))).
    { unfold rows_of. apply (constant_rows (fun i j => nth (i * c + j) lat (of_Z 0))); [exact C| |lia]. intros i j I J. cbv beta.
      destruct (HA i j 0 _ _ I J ltac:(lia) (LA i j I J) (LA i 0 I ltac:(lia))) as [E F]. rewrite <- E. auto. }
    assert (DO : distinct (cols_of r c lon) = Ok (Some (map (fun j => nth (0 * c + j) lon (of_Z 0)) (seq 0 c)))).
    { unfold cols_of. apply (constant_rows (fun j i => nth (i * c + j) lon (of_Z 0))); [exact R| |lia]. intros j i J I. cbv beta.
      destruct (HO i 0 j _ _ I ltac:(lia) J (LO i j I J) (LO 0 j ltac:(lia) J)) as [E F]. rewrite <- E. auto. }
    unfold Xarray.coords. rewrite Sh. unfold to_distinct_latlons. rewrite Sh, LL. cbn [bind fst snd]. rewrite L1, L2, Nat.eqb_refl. cbn [andb]. rewrite DA. cbn [bind]. rewrite DO. cbn [bind].
    rewrite !map_length, !seq_length, !Nat.eqb_refl. cbn [andb]. eexists. split; [reflexivity|]. split.
    - eexists _, _. split; [reflexivity|]. split; [reflexivity|]. cbn [c_dims c_data]. split; [|split]; [intros d I; cbn in *; tauto..|].
      intros p idx V. rewrite Sh in V. destruct (valid2 _ _ _ V) as (i & j & -> & I & J). unfold coord_at. cbn [c_dims c_data]. cbn [map place String.eqb Ascii.eqb Bool.eqb andb]. unfold floats. cbn [item offset prod]. rewrite !Nat.mul_1_r, !Nat.add_0_r.
      split; eexists; (split; [first [apply LA|apply LO]; eassumption|]); f_equal.
      + rewrite (nth_indep _ _ (nth (0 * c + 0) lat (of_Z 0))) by (rewrite map_length, seq_length; exact I). rewrite (map_nth (fun i => nth (i * c + 0) lat (of_Z 0)) (seq 0 r) 0 i), seq_nth by exact I.
        cbn [Nat.add]. destruct (HA i 0 j _ _ I ltac:(lia) J (LA i 0 I ltac:(lia)) (LA i j I J)) as [E _]. exact E.
      + rewrite (nth_indep _ _ (nth (0 * c + 0) lon (of_Z 0))) by (rewrite map_length, seq_length; exact J). rewrite (map_nth (fun j => nth (0 * c + j) lon (of_Z 0)) (seq 0 c) 0 j), seq_nth by exact J.
        cbn [Nat.add]. destruct (HO 0 i j _ _ ltac:(lia) I J (LO 0 j ltac:(lia) J) (LO i j I J)) as [E _]. exact E.
    - intros d k n I J. cbn in I. destruct I as [I|[I|[]]]; injection I as <- <-; cbn in J; destruct J as [<-|[]]; auto.
  Qed.
  Lemma coords_values g n : g_shape g = [n] -> listed g ->
    exists cs, coords g = Ok ([("values", n)], cs) /\ located g ["values"] cs /\
      forall d k m, In (d, k) cs -> In m (combine (c_dims k) (shape (c_data k))) -> m = ("values", n).
  Proof.
    intros Sh (lat & lon & LL & L1 & L2). rewrite Sh in L1, L2. cbn in L1, L2. rewrite Nat.mul_1_r in L1, L2. unfold Xarray.coords. rewrite Sh, LL, L1, L2, Nat.eqb_refl. cbn [andb].
    eexists. split; [reflexivity|]. split.
    - eexists _, _. split; [reflexivity|]. split; [reflexivity|]. cbn [c_dims c_data]. split; [|split]; [intros d I; cbn in *; tauto..|].
      intros p idx V. rewrite Sh in V. inversion V as [|? i ? l H V']; subst. inversion V'; subst. unfold coord_at. cbn [c_dims c_data map place String.eqb Ascii.eqb Bool.eqb andb]. unfold floats. cbn [item offset prod].
      split; eexists; (split; [exists lat, lon; split; [exact LL|]; rewrite Sh; apply nth_error_some; cbn; lia|reflexivity]).
    - intros d k m I J. cbn in I. destruct I as [I|[I|[]]]; injection I as <- <-; cbn in J; destruct J as [<-|[]]; reflexivity.
  Qed.
  (** Two-dimensional grids that are not recognised as regular get coordinates along y and x. *)
  Lemma coords_curved g r c ds cs : g_shape g = [r; c] -> (forall p, to_distinct_latlons g <> Ok (Some p)) -> coords g = Ok (ds, cs) ->
    exists lat lon, cs = [("latitude", mkCoord ["y"; "x"] lat); ("longitude", mkCoord ["y"; "x"] lon)] /\ shape lat = [r; c] /\ shape lon = [r; c].
  Proof.
    intros Sh N E. unfold Xarray.coords in E. rewrite Sh in E. destruct (to_distinct_latlons g) as [[p|]|e|]; [destruct (N p eq_refl)| | |discriminate E];
      (destruct (g_latlons g) as [ll|e'|]; [|discriminate E..]; cbn [bind] in E; destruct (_ && _); [|discriminate E]; injection E as <- <-; eexists _, _; split; [reflexivity|split; reflexivity]).
  Qed.
End Coords.

Section Calls.
  Context {A dtype spec other : Type}.
  Variable cast : dtype -> A -> A.
  Notation dataarray := (dataarray A dtype spec other).
  Notation dataset := (dataset A dtype spec other).
  Notation coord := (coord other).
  Implicit Types (a : dataarray) (s : dataset).

  Lemma fold_raise {X Y} (f : result X -> Y -> result X) l e : (forall y e, f (Raise e) y = Raise e) -> fold_left f l (Raise e) = Raise e.
  Proof. intros H. induction l as [|y l IH]; [reflexivity|]. cbn. rewrite H. exact IH. Qed.
  Lemma set_coords_array_ok cs : forall a a', set_coords_array a cs = Ok a' ->
    da_dims a' = da_dims a /\ da_data a' = da_data a /\ da_type a' = da_type a /\ da_grid a' = da_grid a /\
    (forall k, alookup k (da_coords a') = match alookup k (rev cs) with Some c => Some c | None => alookup k (da_coords a) end) /\
    Forall (fun p => fits (sizes_of a) true (snd p) = true) cs.
  Proof.
    induction cs as [|[k c] cs IH]; intros a a' E.
    - injection E as <-. repeat split; constructor.
    - unfold set_coords_array in E. cbn [fold_left bind] in E. cbn [fst snd] in E. destruct (fits (sizes_of a) true c) eqn:F; [|rewrite fold_raise in E by reflexivity; discriminate E].
      apply IH in E. cbn [da_dims da_data da_type da_grid da_coords] in E. destruct E as (E1 & E2 & E3 & E4 & E5 & E6). repeat split; try assumption.
      + intros k'. rewrite E5. cbn [rev]. rewrite lookup_app. destruct (alookup k' (rev cs)); [reflexivity|]. cbn [alookup]. rewrite alookup_aset, (String.eqb_sym k k'). destruct (k' =? k)%string; reflexivity.
      + constructor; [exact F|]. exact E6.
  Qed.
  Lemma set_coords_array_total cs : forall a, Forall (fun p => fits (sizes_of a) true (snd p) = true) cs -> exists a', set_coords_array a cs = Ok a'.
  Proof.
    induction cs as [|[k c] cs IH]; intros a F; [exists a; reflexivity|]. inversion F as [|? ? F1 F2]; subst. cbn [snd] in F1. unfold set_coords_array. cbn [fold_left bind fst snd]. rewrite F1.
    apply (IH (mkDA (da_dims a) (da_data a) (da_type a) (aset k c (da_coords a)) (da_grid a))). exact F2.
  Qed.
  Lemma set_coords_ds_ok cs : forall s s', set_coords_ds s cs = Ok s' ->
    ds_vars s' = ds_vars s /\ ds_grid s' = ds_grid s /\
    (forall k, alookup k (ds_coords s') = match alookup k (rev cs) with Some c => Some c | None => alookup k (ds_coords s) end).
  Proof.
    induction cs as [|[k c] cs IH]; intros s s' E.
    - injection E as <-. repeat split.
    - unfold set_coords_ds in E. cbn [fold_left bind] in E. cbn [fst snd] in E. destruct (fits (sizes_ds s) false c) eqn:F; [|rewrite fold_raise in E by reflexivity; discriminate E].
      apply IH in E. cbn [ds_vars ds_grid ds_coords] in E. destruct E as (E1 & E2 & E3). repeat split; try assumption.
      intros k'. rewrite E3. cbn [rev]. rewrite lookup_app. destruct (alookup k' (rev cs)); [reflexivity|]. cbn [alookup]. rewrite alookup_aset, (String.eqb_sym k k'). destruct (k' =? k)%string; reflexivity.
  Qed.

  Section Method.
    Context {St : Type}.
    Variable method : St -> array A -> St * result (array A).
    Variable P : St -> Prop.
    Hypothesis method_P : forall st v st' o, method st v = (st', Ok o) -> P st'.
    Lemma loop_state slice known out_dims idxs : forall n done st st' x, idxs <> [] \/ P st ->
      loop method slice known out_dims idxs n done st = (st', Ok x) -> P st'.
    Proof using method_P.
      induction idxs as [|b idxs IH]; intros n done st st' x H E; cbn [loop] in E.
      - injection E as <- _. destruct H as [H|H]; [destruct (H eq_refl)|exact H].
      - destruct (method st (slice b)) as [st1 r] eqn:M. destruct r as [v|e|]; [|discriminate E..]. pose proof (method_P _ _ _ _ M) as P1.
        match type of E with context [bind ?c _] => destruct c as [sh|e|]; cbn [bind] in E; [|discriminate E..] end.
        destruct (assign sh v) as [f|e|]; cbn [bind] in E; [|discriminate E..]. exact (IH _ _ _ _ _ (or_intror P1) E).
    Qed.
    Lemma apply_state in_dims out_dims exclude a st st' r : indices (map (size a) (filter (fun d => negb (mem d in_dims || mem d out_dims)) (da_dims a))) <> [] \/ P st ->
      apply_ufunc cast method in_dims out_dims exclude a st = (st', Ok r) -> P st'.
    Proof using method_P.
      intros H E. unfold apply_ufunc in E. destruct (_ || _); [discriminate E|].
      match type of E with context [loop method ?s ?k ?o ?i None [] st] => destruct (loop method s k o i None [] st) as [st1 rr] eqn:L end. injection E as -> E.
      destruct rr as [x|e|]; [|discriminate E..]. exact (loop_state _ _ _ _ _ _ _ _ _ H L).
    Qed.
  End Method.

  Lemma add_var_ok s n a s' : add_var s n a = Ok s' -> ds_vars s' = aset n a (ds_vars s) /\ ds_grid s' = ds_grid s.
  Proof. unfold add_var. destruct (forallb _ _); intros E; [|discriminate E]. injection E as <-. auto. Qed.
  Lemma aset_new {V} k (v : V) l : ~ In k (akeys l) -> aset k v l = l ++ [(k, v)].
  Proof. induction l as [|[k' w] l IH]; intros N; [reflexivity|]. cbn in *. destruct (String.eqb_spec k k') as [->|_]; [destruct N; left; reflexivity|]. rewrite IH by tauto. reflexivity. Qed.
  Lemma akeys_map {V} (l : list (string * V)) : akeys l = map fst l.
  Proof. induction l as [|[k v] l IH]; [reflexivity|]. cbn. rewrite IH. reflexivity. Qed.

  Lemma all_vars_ok {St} (m : St -> array A -> St * result (array A)) sh ind outd ex vars : forall s st st' s', NoDup (akeys (ds_vars s) ++ akeys vars) ->
    all_vars cast m sh ind outd ex vars s st = (st', Ok s') ->
    ds_grid s' = ds_grid s /\
    exists rs, ds_vars s' = ds_vars s ++ rs /\ Forall2 (fun v r => fst r = fst v /\ exists st1 st2, one cast m sh ind outd ex (snd v) st1 = (st2, Ok (snd r))) vars rs.
  Proof.
    induction vars as [|[n a] vars IH]; intros s st st' s' N E; cbn [all_vars] in E.
    - injection E as <- <-. split; [reflexivity|]. exists []. rewrite app_nil_r. split; [reflexivity|constructor].
    - destruct (one cast m sh ind outd ex a st) as [st1 r] eqn:O. destruct r as [o|e|]; cbn [bind] in E; [|discriminate E..].
      destruct (add_var s n o) as [s1|e|] eqn:AV; [|discriminate E..]. apply add_var_ok in AV. destruct AV as [V1 G1].
      assert (NN : ~ In n (akeys (ds_vars s))). { cbn [akeys] in N. apply NoDup_remove_2 in N. intros I. apply N. apply in_or_app. left. exact I. }
      rewrite (aset_new _ _ _ NN) in V1. apply IH in E.
      + destruct E as (G2 & rs & -> & F). split; [congruence|]. exists ((n, o) :: rs). rewrite V1, <- app_assoc. split; [reflexivity|]. constructor; [|exact F]. split; [reflexivity|]. eauto.
      + rewrite V1, !akeys_map, map_app, <- app_assoc. cbn. rewrite !akeys_map in N. exact N.
  Qed.
End Calls.
