(** C52, C85: the cache policy, the cache directory and the manager follow the configuration. *)
From Verif Require Import PyBase ListLemmas Config ConfigSpec ConfigProofs Policy PolicyProofs.

Local Open Scope string_scope.
Local Open Scope list_scope.
Local Open Scope nat_scope.
Set Default Proof Using "All".

Section Props.
Context {Obj : Type} (obj_eqb : Obj -> Obj -> bool) (expand : string -> string).
Context (mkdir : string -> result unit) (mkdtemp : option string -> result unit).
Context (check : policy Obj -> bool * result unit).
Notation value := (value Obj).
Notation reader := (string -> result value).
Notation config_changed := (config_changed Obj obj_eqb expand mkdir mkdtemp check).
Notation get_policy := (get_policy Obj expand mkdir mkdtemp check).
Notation directory := (directory Obj expand mkdir mkdtemp check).
Notation database := (database Obj expand mkdir mkdtemp check).
Notation after := (after Obj obj_eqb expand mkdir mkdtemp check).
Notation event_reader := (event_reader Obj).
Notation lim_size := (maximum_cache_size Obj).
Notation lim_usage := (maximum_cache_disk_usage Obj).
Notation wf := (wf Obj expand).
Notation good := (good Obj expand).
Implicit Types (g : reader) (c : cache Obj).

(** The options can be read. *)
Definition readable g : Prop := forall k,
  In k ["cache-policy"; "user-cache-directory"; "temporary-cache-directory-root"; "temporary-directory-root";
        "maximum-cache-disk-usage"; "maximum-cache-size"] -> exists v, g k = Ok v.
(** The limits read as numbers or None (they do: see [C52_options_read]). *)
Definition sizes g : Prop := forall k v,
  In k ["maximum-cache-size"; "maximum-cache-disk-usage"] -> g k = Ok v -> v = VNone \/ exists z, v = VInt z.

(** The directory below which a temporary directory is asked for by option value [v]. *)
Definition below (v : value) : option string :=
  match v with VStr s => Some (expand s) | _ => None end.

(** The cache is as the options say. *)
Definition configured g c : Prop :=
  (exists p, get_policy g c = (c, Ok p) /\ g "cache-policy" = Ok (VStr (pname p)) /\
     (pname p <> "off" -> managed p = true /\ g "maximum-cache-size" = Ok (lim_size p) /\
                          g "maximum-cache-disk-usage" = Ok (lim_usage p)) /\
     (pname p = "off" -> managed p = false /\ lim_size p = VNone /\ lim_usage p = VNone)) /\
  (g "cache-policy" = Ok (VStr "user") ->
     exists s, g "user-cache-directory" = Ok (VStr s) /\ directory g c = (c, Ok (At (expand s)))) /\
  (g "cache-policy" = Ok (VStr "temporary") ->
     exists v n, g "temporary-cache-directory-root" = Ok v /\ directory g c = (c, Ok (Temp (below v) n))) /\
  (* whatever temporary-directory-root says *)
  (g "cache-policy" = Ok (VStr "off") ->
     database g c = (c, Ok None) /\ forall c' d, directory g c = (c', Ok d) -> exists n, d = Temp None n).

Lemma get_policy_some g c p : cpolicy c = Some p -> get_policy g c = (c, Ok p).
Proof. intros H. unfold Policy.get_policy, Policy.make_policy. rewrite H, H. reflexivity. Qed.
Lemma same_policy c p : cpolicy c = Some p -> with_policy Obj c (Some p) = c.
Proof. destruct c; cbn. intros ->. reflexivity. Qed.
Lemma directory_home g c p d : cpolicy c = Some p -> home_of Obj p = Some d -> directory g c = (c, Ok d).
Proof.
  intros HC HD. unfold Policy.directory. rewrite (get_policy_some _ _ _ HC).
  assert (E : policy_directory Obj expand mkdir mkdtemp p c = (c, p, Ok d)).
  { unfold Policy.policy_directory, home_of in *. destruct (pk p).
    - destruct (pdir p) as [[x n]|]; cbn in HD; inversion HD. reflexivity.
    - destruct (pdir p) as [[x n]|]; cbn in HD; inversion HD. reflexivity.
    - destruct (ppath p) as [x|]; cbn in HD; inversion HD. reflexivity. }
  rewrite E, (same_policy _ _ HC). reflexivity.
Qed.
(** After [directory] the policy has its directory. *)
Lemma directory_settles g c c' d : wf c -> directory g c = (c', Ok d) ->
  exists p, cpolicy c' = Some p /\ home_of Obj p = Some d /\ wf c' /\ (cpolicy c <> None -> forall q, cpolicy c = Some q ->
    pk p = pk q /\ pconf p = pconf q /\ cmanager c' = cmanager c).
Proof.
  intros W H. unfold Policy.directory in H. destruct (get_policy g c) as [c1 r1] eqn:EP.
  apply (get_policy_cases Obj obj_eqb) in EP; [|exact W]. destruct EP as (A1 & A2 & A3 & A4 & A5).
  destruct r1 as [p|e|]; [|discriminate|discriminate]. pose proof (A3 _ eq_refl) as HC.
  destruct (policy_directory _ _ _ _ p c1) as [[c2 p'] r] eqn:E.
  destruct (policy_directory_cases Obj obj_eqb expand mkdir mkdtemp check _ _ _ _ _ E A1 HC) as (B1 & B2 & B3 & B4 & B5 & B6 & B7 & B8).
  inversion H; subst. exists p'. split; [reflexivity|]. split; [|split; [exact B1|]].
  - destruct (managed p) eqn:M.
    + destruct (B6 eq_refl) as (-> & -> & d' & X & Y). inversion X; subst. exact Y.
    + destruct (B7 eq_refl d eq_refl) as (n & -> & X). unfold home_of. rewrite B2. unfold managed in M.
      destruct (pk p); try discriminate. rewrite X. reflexivity.
  - intros N q HQ. destruct (A4 N) as [-> _]. rewrite HC in HQ. inversion HQ; subst q. cbn. auto.
Qed.
Lemma home_some p : wf_policy Obj expand p -> managed p = true -> exists d, home_of Obj p = Some d.
Proof.
  intros [_ W] M. unfold managed, home_of in *. destruct (pk p); [discriminate| |].
  - destruct W as (d & n & -> & _). cbn. eauto.
  - destruct W as (_ & s & _ & ->). cbn. eauto.
Qed.

Lemma good_configured g c p : cpolicy c = Some p -> wf c -> good g p -> configured g c.
Proof.
  intros HC W (G1 & G2 & G3). unfold configured. pose proof (get_policy_some g _ _ HC) as GP.
  split; [|split; [|split]].
  - exists p. split; [exact GP|]. split; [exact G1|]. unfold maximum_cache_size, maximum_cache_disk_usage, pname, managed in *.
    destruct (pk p); (split; [|try (intros X; discriminate X)]); intros X; try contradiction; auto.
    all: split; auto.
  - intros X. rewrite G1 in X. inversion X as [Y]. unfold pname in Y. destruct (pk p) eqn:EK; try discriminate.
    destruct G3 as (s & S1 & S2 & _). exists s. split; [exact S1|]. apply (directory_home _ _ p); auto.
    unfold home_of. rewrite EK, S2. reflexivity.
  - intros X. rewrite G1 in X. inversion X as [Y]. unfold pname in Y. destruct (pk p) eqn:EK; try discriminate.
    destruct G3 as (v & d & n & V1 & V2 & V3 & _). exists v, n. split; [exact V1|].
    apply (directory_home _ _ p); auto.
    unfold home_of. rewrite EK, V3. cbn. destruct v; cbn in *; congruence.
  - intros X. rewrite G1 in X. inversion X as [Y]. unfold pname in Y. destruct (pk p) eqn:EK; try discriminate.
    assert (M : managed p = false) by (unfold managed; rewrite EK; reflexivity).
    split; [unfold Policy.database; rewrite GP, M; reflexivity|].
    intros c' d HD. unfold Policy.directory in HD. rewrite GP in HD.
    destruct (policy_directory _ _ _ _ p c) as [[c2 p'] r] eqn:E.
    destruct (policy_directory_cases Obj obj_eqb expand mkdir mkdtemp check _ _ _ _ _ E W HC) as (_ & _ & _ & _ & _ & _ & B & _).
    inversion HD; subst. destruct (B M d eq_refl) as (n & -> & _). eauto.
Qed.

(** C52: after every configuration change that is processed without an exception, whatever
    happened before (any changes, uses, failures), the policy, the directory and the limits are
    the configured ones.  Partial: with cache-policy off the directory is a temporary one below
    the system's, whatever temporary-directory-root says (refuted below). *)
Theorem C52_follows_partial : forall h g c,
  config_changed g (after h) = (c, Ok tt) -> configured g c.
Proof.
  intros h g c H. destruct (changed_cases Obj obj_eqb expand mkdir mkdtemp check _ _ _ _ H (after_wf _ _ _ _ _ _ h)) as [W G].
  destruct (G eq_refl) as (p & P1 & P2). eapply good_configured; eassumption.
Qed.

(** C52: and the size of the cache is managed exactly when a policy other than off is configured
    with one of the two limits. *)
Theorem C52_size_managed_partial : forall h g c,
  config_changed g (after h) = (c, Ok tt) ->
  exists p, get_policy g c = (c, Ok p) /\
    (is_cache_size_managed Obj p = true <->
     g "cache-policy" <> Ok (VStr "off") /\
     (g "maximum-cache-size" <> Ok VNone \/ g "maximum-cache-disk-usage" <> Ok VNone)).
Proof.
  intros h g c H. destruct (C52_follows_partial _ _ _ H) as [(p & GP & PN & ON & OFF) _]. exists p. split; [exact GP|].
  unfold is_cache_size_managed. rewrite PN.
  destruct (string_dec (pname p) "off") as [E|E].
  - destruct (OFF E) as (_ & -> & ->). cbn. split; [discriminate|]. intros [K _]. exfalso. apply K. rewrite E. reflexivity.
  - destruct (ON E) as (_ & -> & ->). split.
    + intros Q0. split; [congruence|]. apply Bool.orb_prop in Q0. destruct Q0 as [Q0|Q0]; [left|right]; intros K; injection K as K; rewrite K in Q0; discriminate Q0.
    + intros [_ [K|K]]; apply Bool.orb_true_iff; [left|right];
        [destruct (lim_size p); try reflexivity; exfalso; apply K; reflexivity|destruct (lim_usage p); try reflexivity; exfalso; apply K; reflexivity].
Qed.

Lemma readable_iff g : readable g -> PolicyProofs.readable Obj g.
Proof. intros H k K. apply H. cbn in *. tauto. Qed.

Lemma database_told g c p : cpolicy c = Some p -> managed p = true -> told Obj p (cmanager c) ->
  exists c', database g c = (c', Ok (home_of Obj p)).
Proof.
  intros HC M T. destruct (T M) as (q & conn & E1 & E2 & E3 & E4 & E5 & E6 & E7).
  unfold Policy.database. rewrite (get_policy_some _ _ _ HC), M, E1.
  assert (HQ : home_of Obj q = home_of Obj p) by (unfold home_of; rewrite E2, E3, E4; reflexivity).
  assert (MQ : managed q = true) by (unfold managed in *; rewrite E2; exact M).
  unfold connection. cbn [mpolicy mconn]. destruct conn as [d|].
  - destruct E7 as [X|X]; [discriminate|]. rewrite <- HQ, <- X. eauto.
  - rewrite MQ, HQ. eauto.
Qed.

(** The manager works on the database in the configured directory and enforces the configured
    limits (unless caching is off). *)
Definition manager_follows g c : Prop :=
  g "cache-policy" <> Ok (VStr "off") -> exists d vs vu,
  snd (directory g c) = Ok d /\ snd (database g c) = Ok (Some d) /\
  enforced c = Some (vs, vu) /\ g "maximum-cache-size" = Ok vs /\ g "maximum-cache-disk-usage" = Ok vu.

Lemma touch_follows g c p : wf c -> cpolicy c = Some p -> good g p -> in_touch Obj c -> manager_follows g c.
Proof.
  intros W P1 (P2 & P3 & P4) T HP.
  assert (M : managed p = true).
  { unfold managed. unfold pname in P2. destruct (pk p); auto. }
  destruct (home_some p (proj2 (proj2 W) _ P1) M) as (d & D).
  rewrite (directory_home g _ _ _ P1 D).
  destruct (database_told g _ _ P1 M (T _ P1)) as (c' & ->). rewrite D.
  destruct (T _ P1 M) as (q & conn & E1 & E2 & E3 & E4 & E5 & E6 & E7).
  assert (MQ : managed q = true) by (unfold managed in *; rewrite E2; exact M).
  destruct (P3 M) as [L1 L2].
  exists d, (lim_size q), (lim_usage q). unfold enforced. rewrite E1, MQ. do 3 (split; [reflexivity|]).
  unfold maximum_cache_size, maximum_cache_disk_usage. rewrite MQ, E5, E6. auto.
Qed.

(** C52: provided options can always be read (the other failures do not matter), the manager
    works on the database in the configured directory and enforces the configured limits. *)
Theorem C52_manager_partial : forall h g c,
  (forall e, In e h -> readable (event_reader e) /\ sizes (event_reader e)) -> readable g -> sizes g ->
  config_changed g (after h) = (c, Ok tt) -> manager_follows g c.
Proof.
  intros h g c HH R S H.
  pose proof (after_wf Obj obj_eqb expand mkdir mkdtemp check h) as W0.
  destruct (after_touch Obj obj_eqb expand mkdir mkdtemp check h) as [N0 T0].
  { intros e I. destruct (HH e I) as [X Y]. split; [apply readable_iff; exact X|exact Y]. }
  destruct (changed_touch Obj obj_eqb expand mkdir mkdtemp check _ _ _ _ H W0 (or_introl (readable_iff _ R)) S N0 T0) as [N T].
  destruct (changed_cases Obj obj_eqb expand mkdir mkdtemp check _ _ _ _ H W0) as [W G].
  destruct (G eq_refl) as (p & P1 & P2). eapply touch_follows; eassumption.
Qed.

(** C52: the directory reported and the database in use are never at odds, at any time. *)
Theorem C52_agree_partial : forall h g c d,
  (forall e, In e h -> readable (event_reader e) /\ sizes (event_reader e)) ->
  directory g (after h) = (c, Ok d) ->
  snd (database g c) = Ok (Some d) \/
  (snd (database g c) = Ok None /\ exists p, cpolicy c = Some p /\ pname p = "off").
Proof.
  intros h g c d HH H.
  pose proof (after_wf Obj obj_eqb expand mkdir mkdtemp check h) as W0.
  destruct (after_touch Obj obj_eqb expand mkdir mkdtemp check h) as [N0 T0].
  { intros e I. destruct (HH e I) as [X Y]. split; [apply readable_iff; exact X|exact Y]. }
  destruct (directory_wf Obj obj_eqb expand mkdir mkdtemp check _ _ _ _ H W0) as [W T]. specialize (T T0).
  unfold Policy.directory in H. destruct (get_policy g (after h)) as [c1 r1] eqn:EP.
  apply (get_policy_cases Obj obj_eqb) in EP; [|exact W0]. destruct EP as (A1 & A2 & A3 & A4 & A5).
  destruct r1 as [p|e|]; [|discriminate|discriminate]. pose proof (A3 _ eq_refl) as HC.
  destruct (policy_directory _ _ _ _ p c1) as [[c2 p'] r] eqn:E.
  destruct (policy_directory_cases Obj obj_eqb expand mkdir mkdtemp check _ _ _ _ _ E A1 HC) as (B1 & B2 & B3 & B4 & B5 & B6 & B7 & B8).
  assert (HP : cpolicy c = Some p') by (inversion H; reflexivity).
  destruct (managed p') eqn:M.
  - left. destruct (database_told g _ _ HP M (T _ HP)) as (c' & ->). cbn.
    assert (Mp : managed p = true) by (unfold managed in *; rewrite <- B2; exact M).
    destruct (B6 Mp) as (-> & -> & d' & -> & D'). inversion H; subst. rewrite D'. reflexivity.
  - right. split; [|exists p'; split; [exact HP|unfold managed, pname in *; destruct (pk p'); try discriminate; reflexivity]].
    unfold Policy.database. rewrite (get_policy_some _ _ _ HP), M. reflexivity.
Qed.

(** C52: a change of other options keeps the directory (with cache-policy off: provided
    temporary-directory-root is not set). *)
Theorem C52_kept_partial : forall h g1 c1 c1' d g2 c2,
  config_changed g1 (after h) = (c1, Ok tt) -> directory g1 c1 = (c1', Ok d) ->
  config_changed g2 c1' = (c2, Ok tt) ->
  g2 "cache-policy" = g1 "cache-policy" ->
  (g1 "cache-policy" = Ok (VStr "user") -> g2 "user-cache-directory" = g1 "user-cache-directory") ->
  (g1 "cache-policy" = Ok (VStr "temporary") ->
     g2 "temporary-cache-directory-root" = g1 "temporary-cache-directory-root") ->
  (g1 "cache-policy" = Ok (VStr "off") -> g2 "temporary-directory-root" = Ok VNone) ->
  directory g2 c2 = (c2, Ok d).
Proof.
  intros h g1 c1 c1' d g2 c2 H1 HD H2 K1 K2 K3 K4.
  destruct (changed_cases Obj obj_eqb expand mkdir mkdtemp check _ _ _ _ H1 (after_wf _ _ _ _ _ _ h)) as [W1 G].
  destruct (G eq_refl) as (p & P1 & G1 & _ & G3). clear G H1.
  destruct (directory_settles _ _ _ _ W1 HD) as (pa & HC & HH & B1 & B). clear HD.
  destruct (B ltac:(congruence) p P1) as (B2 & B4 & _). clear B.
  pose proof (proj2 (proj2 B1) _ HC) as WP. pose proof WP as [WA WB].
  assert (NA : pname pa = pname p) by (unfold pname; rewrite B2; reflexivity).
  (* the policy is not outdated *)
  assert (HO : outdated Obj obj_eqb g2 pa = Ok false).
  { unfold Policy.outdated. assert (E1 : g2 "cache-policy" = Ok (VStr (pname pa))) by (rewrite NA; congruence).
    assert (E2 : py_eq Obj obj_eqb (cget Obj (pconf pa) "cache-policy") (VStr (pname pa)) = true)
      by (rewrite WA; cbn; apply String.eqb_refl).
    rewrite <- B2 in G3. rewrite <- NA in G1. rewrite <- B4 in G3. unfold pname in G1. destruct (pk pa) eqn:EK.
    - cbn [outdated_keys any_differs]. rewrite E1. cbn [bind]. rewrite E2.
      rewrite (K4 G1). cbn [bind]. destruct WB as [-> _]. reflexivity.
    - cbn [outdated_keys any_differs]. rewrite E1. cbn [bind]. rewrite E2. rewrite (K3 G1).
      destruct G3 as (v & x & n & V1 & V2 & V3 & V4). rewrite V1. cbn [bind]. rewrite V4.
      destruct v; try discriminate; cbn; rewrite ?String.eqb_refl; reflexivity.
    - cbn [outdated_keys any_differs]. rewrite E1. cbn [bind]. rewrite E2. rewrite (K2 G1).
      destruct G3 as (s & V1 & V2 & V3). rewrite V1. cbn [bind]. rewrite V3. cbn. rewrite String.eqb_refl. reflexivity. }
  unfold Policy.config_changed in H2. rewrite (get_policy_some _ _ _ HC), HO in H2.
  destruct (update Obj obj_eqb g2 pa) as [p' r] eqn:EU. apply (update_cases Obj obj_eqb expand mkdir mkdtemp check) in EU; [|exact WP].
  destruct EU as (U1 & U2 & U3 & U4 & _).
  assert (HP : home_of Obj p' = Some d) by (unfold home_of in *; rewrite U1, U2, U3; exact HH).
  apply (directory_home _ _ p'); [|exact HP].
  destruct (g2 "cache-policy") as [v|e|]; [|discriminate|discriminate]. destruct v; try discriminate.
  destruct r as [ch|e|]; [|discriminate|discriminate].
  destruct (ch && managed p'); [|inversion H2; reflexivity].
  unfold Policy.call_manager_config_changed in H2. cbn [cpolicy cmanager with_policy] in H2.
  destruct (cmanager c1') as [m|]; [|discriminate].
  destruct (manager_config_changed Obj check p') as [m' r']. inversion H2. reflexivity.
Qed.

(** C52: at any time at most one temporary directory made by the cache exists, and it is the
    directory reported; with a user cache directory there is none. *)
Theorem C52_one_temporary_directory : forall h,
  (List.length (live (after h)) <= 1) /\
  (forall g c d n, directory g (after h) = (c, Ok (Temp d n)) -> live c = [(d, n)]) /\
  (forall g c s, directory g (after h) = (c, Ok (At s)) -> live c = []).
Proof.
  intros h. pose proof (after_wf Obj obj_eqb expand mkdir mkdtemp check h) as W.
  assert (X : forall g c d, directory g (after h) = (c, Ok d) -> exists p, live c = dirs Obj (Some p) /\ wf_policy Obj expand p /\ home_of Obj p = Some d).
  { intros g c d H. destruct (directory_settles _ _ _ _ W H) as (p & P1 & P2 & P3 & _).
    exists p. destruct P3 as (Q1 & Q2 & Q3). rewrite P1 in Q1. split; [exact Q1|]. split; [apply Q3; exact P1|exact P2]. }
  split; [|split].
  - destruct W as (W1 & _). rewrite W1. unfold dirs. destruct (cpolicy (after h)) as [p|]; [|cbn; lia].
    destruct (pdir p); cbn; lia.
  - intros g c d n H. destruct (X _ _ _ H) as (p & -> & [_ WP] & P2). unfold home_of in P2. cbn. destruct (pk p).
    + destruct (pdir p) as [[x m]|]; cbn in P2; inversion P2; reflexivity.
    + destruct (pdir p) as [[x m]|]; cbn in P2; inversion P2; reflexivity.
    + destruct (ppath p); discriminate.
  - intros g c s H. destruct (X _ _ _ H) as (p & -> & [_ WP] & P2). unfold home_of in P2. cbn. destruct (pk p).
    + destruct (pdir p) as [[x m]|]; discriminate.
    + destruct (pdir p) as [[x m]|]; discriminate.
    + destruct WP as [-> _]. reflexivity.
Qed.

(** C85: while cache-policy is off the user's cache directory is neither looked at nor made. *)
Theorem C85_off_leaves_user_directory : forall h,
  (forall e, In e h -> event_reader e "cache-policy" = Ok (VStr "off")) -> needed (after h) = [].
Proof.
  intros h HO. unfold PolicyProofs.after.
  assert (MK : forall g c, g "cache-policy" = Ok (VStr "off") -> needed (fst (make_policy Obj expand mkdir mkdtemp check g c)) = needed c).
  { intros g c HG. unfold Policy.make_policy. destruct (cpolicy c); [reflexivity|]. unfold Policy.from_config. rewrite HG.
    unfold construct. destruct (read Obj g cache_keys); reflexivity. }
  assert (GP : forall g c, g "cache-policy" = Ok (VStr "off") -> needed (fst (get_policy g c)) = needed c).
  { intros g c HG. rewrite <- (MK g c HG). unfold Policy.get_policy.
    destruct (make_policy Obj expand mkdir mkdtemp check g c) as [x [u|e|]]; reflexivity. }
  assert (TD : forall v c, needed (fst (temp_directory Obj expand mkdir mkdtemp v c)) = needed c).
  { intros v c. destruct (temp_directory Obj expand mkdir mkdtemp v c) as [c1 r] eqn:E.
    apply (temp_directory_cases Obj obj_eqb expand mkdir mkdtemp check) in E.
    destruct E as [(d & _ & _ & ->)|[(-> & _)|(-> & _)]]; reflexivity. }
  assert (G : forall c, needed c = [] -> needed (fold_left (step Obj obj_eqb expand mkdir mkdtemp check) h c) = []).
  { induction h as [|e h IH]; intros c N; cbn; [exact N|]. apply IH; [intros e' I; apply HO; cbn; auto|].
    pose proof (HO e (or_introl eq_refl)) as HG. rewrite <- N. clear IH HO N. destruct e as [g|g|g|g]; cbn in *.
    - unfold Policy.config_changed. rewrite HG. pose proof (GP g c HG) as X.
      destruct (get_policy g c) as [c1 [p|e|]]; cbn in X; [|exact X|exact X].
      destruct (outdated Obj obj_eqb g p) as [[|]|e|]; [|..|exact X|exact X].
      + rewrite (MK g _ HG). rewrite <- X. unfold drop_policy.
        destruct (cpolicy c1) as [[k cf pa [[d n]|]]|]; reflexivity.
      + destruct (update Obj obj_eqb g p) as [p' [ch|e|]]; [|exact X|exact X].
        destruct (ch && managed p'); [|exact X]. unfold Policy.call_manager_config_changed.
        cbn [cpolicy cmanager with_policy]. destruct (cmanager c1); [|exact X].
        destruct (manager_config_changed Obj check p'). exact X.
    - apply GP. exact HG.
    - unfold Policy.directory. pose proof (GP g c HG) as X.
      destruct (get_policy g c) as [c1 [p|e|]]; cbn in X; [|exact X|exact X].
      assert (Y : needed (fst (fst (policy_directory Obj expand mkdir mkdtemp p c1))) = needed c1).
      { unfold Policy.policy_directory. destruct (pk p); [|reflexivity|reflexivity]. destruct (pdir p) as [[d n]|]; [reflexivity|].
        pose proof (TD (cget Obj (pconf p) "temporary-directory-root") c1) as T.
        destruct (temp_directory _ _ _ _ _ c1) as [c2 [[d n]|e|]]; exact T. }
      destruct (policy_directory Obj expand mkdir mkdtemp p c1) as [[c2 p'] r]. cbn in *. congruence.
    - unfold Policy.database. pose proof (GP g c HG) as X.
      destruct (get_policy g c) as [c1 [p|e|]]; cbn in X; [|exact X|exact X].
      destruct (managed p); [|exact X]. destruct (cmanager c1) as [m|]; [|exact X].
      destruct (connection Obj m). exact X. }
  apply G. reflexivity.
Qed.

(** ** Programs that use the configuration (Config.v) and the cache. *)
Context (obj_str : Obj -> string) (obj_bool : Obj -> bool) (obj_yaml : Obj -> bool).
Context (home : string) (writable : string -> bool) (version : string).
(** The other observers: they do nothing to this cache, but they may raise. *)
Context (other : nat -> reader -> result unit).

(** caching.py:1065: observer 0 is CACHE._config_changed. *)
Definition cache_obs (cb : nat) g c : cache Obj * result unit :=
  match cb with O => config_changed g c | S n => (c, other n g) end.
Definition forget {A} (x : cache Obj * result A) : cache Obj * result unit :=
  (fst x, match snd x with Ok _ => Ok tt | Raise e => Raise e | OutOfFuel => OutOfFuel end).
Definition use_policy g c := forget (get_policy g c).
Definition use_directory g c := forget (directory g c).
Definition use_database g c := forget (database g c).

Notation st := (st Obj (cache Obj)).
Notation cmd := (cmd Obj (cache Obj)).
Notation exec := (exec Obj obj_str obj_bool home writable version (cache Obj) cache_obs).
Notation get := (get Obj obj_str home (cache Obj)).
Notation notify_loop := (notify_loop Obj obj_str home (cache Obj) cache_obs).

(** Any mixture of configuration commands and uses of the cache that neither alters the
    environment nor hides exceptions. *)
Fixpoint steady (c : cmd) : Prop :=
  match c with
  | CSkip | CSet _ | CReset _ | COnChange _ | CAutosave _ | CSaveAs _ | CFail _ => True
  | CSeq a b => steady a /\ steady b
  | CTemp _ _ body => steady body
  | CAct f => f = use_policy \/ f = use_directory \/ f = use_database
  | CEnv _ _ | CTry _ => False
  end.

(** Importing the module: the cache is created and observes the configuration. *)
Definition boot (p : string) files env : st :=
  let s := start Obj obj_yaml home writable version (cache Obj) p files env fresh in
  mkSt (base s) (stack s) [0] (autosave s) (Config.files s) (environ s) (ostate s) (seen s) (failed s).

(** Options do read as [sizes] says. *)
Lemma get_sizes (s : st) : sizes (get s).
Proof.
  intros k v HK H. unfold Config.get, get_in in H.
  assert (O : exists o gt, alookup k (options Obj home) = Some o /\ o_getter Obj o = Some gt /\ (gt = GBytes \/ gt = GPercent)).
  { destruct HK as [<-|[<-|[]]]; eexists; eexists; (split; [reflexivity|]); (split; [reflexivity|]); auto. }
  destruct O as (o & gt & O1 & O2 & O3). rewrite O1, O2 in H. clear O1 O2. unfold bind at 1 in H.
  match type of H with context [match ?m with _ => _ end] => destruct m as [a|e|]; [|discriminate|discriminate] end.
  destruct O3 as [-> | ->]; unfold run_getter, lift_num, bind in H;
    match type of H with context [match ?m with _ => _ end] => destruct m as [[z|]|e|]; inversion H; eauto end.
Qed.

Definition inv c : Prop := wf c /\ numbers Obj c /\ in_touch Obj c.
Definition fits g c : Prop := forall p, cpolicy c = Some p -> good g p.
Lemma good_ext g g' p : (forall k, g k = g' k) -> good g p -> good g' p.
Proof. intros E H. unfold PolicyProofs.good in *. rewrite <- !E. exact H. Qed.
Lemma fits_ext g g' c : (forall k, g k = g' k) -> fits g c -> fits g' c.
Proof. intros E H p HP. eapply good_ext; [exact E|]. apply H. exact HP. Qed.

Lemma notify_loop_inv cbs : forall s s', notify_loop cbs s = (s', Ok tt) -> inv (ostate s) ->
  (In 0 cbs \/ fits (get s) (ostate s)) -> inv (ostate s') /\ fits (get s') (ostate s').
Proof.
  induction cbs as [|cb cbs IH]; intros s s' H HI HF; cbn [Config.notify_loop] in H.
  - inversion H; subst. destruct HF as [[]|HF]. auto.
  - destruct (cache_obs cb (get s) (ostate s)) as [o' res] eqn:EO.
    destruct res as [u|e|]; [|discriminate|discriminate].
    assert (inv o' /\ (In 0 cbs \/ fits (get s) o')) as [G1 R1].
    { destruct cb as [|cb]; cbn in EO.
      - destruct u. destruct HI as (W & N & T).
        destruct (changed_cases Obj obj_eqb expand mkdir mkdtemp check _ _ _ _ EO W) as [W' G].
        destruct (changed_touch Obj obj_eqb expand mkdir mkdtemp check _ _ _ _ EO W (or_intror eq_refl) (get_sizes s) N T) as [N' T'].
        split; [split; [exact W'|split; assumption]|]. right. destruct (G eq_refl) as (p & P1 & P2).
        intros q HQ. rewrite P1 in HQ. inversion HQ; subst. exact P2.
      - inversion EO; subst. split; [exact HI|]. destruct HF as [[X|X]|X]; [discriminate|auto|auto]. }
    eapply IH; [exact H|exact G1|]. exact R1.
Qed.

Lemma changed_inv n : forall s s', changed Obj obj_str home writable version (cache Obj) cache_obs (S n) s = (s', Ok tt) ->
  In 0 (callbacks s) -> inv (ostate s) -> inv (ostate s') /\ fits (get s') (ostate s').
Proof.
  induction n as [|n IH]; intros s s' H HI HG; cbn [Config.changed] in H;
    (destruct (changed1 _ _ _ _ _ _ _ s) as [s1 r1] eqn:E1; destruct r1 as [[]|e|]; [|discriminate|discriminate]);
    pose proof E1 as E2; apply changed1_same in E2; destruct E2 as [(_ & _ & HC & _) _];
    unfold changed1, Config.notify in E1;
    apply notify_loop_inv in E1; try (destruct (autosave s); exact HG);
      try (left; destruct (autosave s); exact HI).
  - inversion H; subst. exact E1.
  - apply (IH _ _ H); [rewrite HC; exact HI|apply E1].
Qed.
Lemma set_vals_count a v w n : set_vals Obj obj_str obj_bool home a v = (w, Ok n) -> exists m, n = S m.
Proof.
  destruct a as [kvs|kvs|name args k]; cbn [Config.set_vals].
  - destruct kvs; [discriminate|]. destruct (set_many _ _ _ _ _ _) as [x [u|e|]]; intros H; inversion H; eauto.
  - destruct (set_many _ _ _ _ _ _) as [x [u|e|]]; intros H; inversion H; eauto.
  - destruct (set_one _ _ _ _ _ _ _ _) as [x [u|e|]]; intros H; inversion H; eauto.
Qed.
Lemma with_top_rest (s : st) cf : ostate (with_top Obj (cache Obj) s cf) = ostate s /\ callbacks (with_top Obj (cache Obj) s cf) = callbacks s.
Proof. unfold Config.with_top. destruct (stack s); auto. Qed.

Lemma use_inv f g c c' : f = use_policy \/ f = use_directory \/ f = use_database ->
  f g c = (c', Ok tt) -> sizes g -> inv c -> fits g c -> inv c' /\ fits g c'.
Proof.
  intros HF H S (W & N & T) HG. destruct HF as [->|[->| ->]]; unfold use_policy, use_directory, use_database, forget in H.
  - destruct (get_policy g c) as [c1 r1] eqn:EP. cbn in H. inversion H; subst c'. clear H.
    pose proof (get_policy_numbers Obj obj_eqb expand mkdir mkdtemp check _ _ _ _ EP W S N) as N1.
    apply (get_policy_cases Obj obj_eqb) in EP; [|exact W]. destruct EP as (A1 & A2 & A3 & A4 & A5).
    split; [split; [exact A1|split; [exact N1|auto]]|]. intros p HP. destruct (cpolicy c) as [q|] eqn:EC.
    + destruct A4 as [-> _]; [discriminate|]. apply HG. exact HP.
    + apply (born_good Obj obj_eqb expand mkdir mkdtemp check). apply A5; [reflexivity|exact HP].
  - destruct (directory g c) as [c1 r1] eqn:ED. cbn in H. inversion H; subst c'.
    destruct r1 as [d|e|]; [|discriminate|discriminate].
    pose proof (directory_numbers Obj obj_eqb expand mkdir mkdtemp check _ _ _ _ ED W S N) as N1.
    destruct (directory_wf Obj obj_eqb expand mkdir mkdtemp check _ _ _ _ ED W) as [W1 T1].
    split; [split; [exact W1|split; [exact N1|auto]]|].
    unfold Policy.directory in ED. destruct (get_policy g c) as [c2 r2] eqn:EP.
    apply (get_policy_cases Obj obj_eqb) in EP; [|exact W]. destruct EP as (A1 & A2 & A3 & A4 & A5).
    destruct r2 as [p|e|]; [|discriminate|discriminate]. pose proof (A3 _ eq_refl) as HC.
    destruct (policy_directory _ _ _ _ p c2) as [[c3 p'] r] eqn:E. inversion ED; subst.
    destruct (policy_directory_cases Obj obj_eqb expand mkdir mkdtemp check _ _ _ _ _ E A1 HC) as (B1 & B2 & B3 & B4 & B5 & B6 & B7 & B8).
    assert (GP : good g p).
    { destruct (cpolicy c) as [q|] eqn:EC.
      - destruct A4 as [-> _]; [discriminate|]. apply HG. congruence.
      - apply (born_good Obj obj_eqb expand mkdir mkdtemp check). apply A5; [reflexivity|exact HC]. }
    intros q HQ. cbn in HQ. inversion HQ; subst q. destruct (managed p) eqn:M.
    + destruct (B6 eq_refl) as (_ & -> & _). exact GP.
    + destruct GP as (G1 & G2 & G3). destruct (B7 eq_refl d eq_refl) as (n & -> & B).
      unfold PolicyProofs.good, pname, managed in *. rewrite B2. destruct (pk p); try discriminate.
      split; [exact G1|]. split; [discriminate|]. right. exists n. exact B.
  - destruct (database g c) as [c1 r1] eqn:ED. cbn in H. inversion H; subst c'.
    pose proof (database_numbers Obj obj_eqb expand mkdir mkdtemp check _ _ _ _ ED W S N) as N1.
    destruct (database_wf Obj obj_eqb expand mkdir mkdtemp check _ _ _ _ ED W) as [W1 T1].
    split; [split; [exact W1|split; [exact N1|auto]]|].
    unfold Policy.database in ED. destruct (get_policy g c) as [c2 r2] eqn:EP.
    apply (get_policy_cases Obj obj_eqb) in EP; [|exact W]. destruct EP as (A1 & A2 & A3 & A4 & A5).
    assert (GP : fits g c2).
    { destruct (cpolicy c) as [q|] eqn:EC.
      - destruct A4 as [-> _]; [discriminate|]. exact HG.
      - intros p HP. apply (born_good Obj obj_eqb expand mkdir mkdtemp check). apply A5; [reflexivity|exact HP]. }
    destruct r2 as [p|e|]; try (inversion ED; subst; exact GP).
    destruct (managed p); [|inversion ED; subst; exact GP].
    destruct (cmanager c2) as [m|]; [|inversion ED; subst; exact GP].
    destruct (connection Obj m) as [m' d]. inversion ED; subst. exact GP.
Qed.

Lemma exec_inv (c : cmd) : forall s s', exec c s = (s', Ok tt) -> steady c ->
  In 0 (callbacks s) -> inv (ostate s) -> fits (get s) (ostate s) ->
  inv (ostate s') /\ fits (get s') (ostate s') /\ In 0 (callbacks s').
Proof.
  assert (ASSOC : forall A B C : Prop, (A /\ B) -> C -> A /\ B /\ C) by tauto.
  induction c; intros s s' H HS HI HY HF; cbn [Config.exec steady] in *; try contradiction.
  - inversion H; subst. auto.
  - destruct (exec c1 s) as [s1 [[]|e|]] eqn:E1; try discriminate.
    destruct (IHc1 _ _ E1 (proj1 HS) HI HY HF) as (A & B & C). eapply IHc2; [exact H|apply HS|assumption|assumption|assumption].
  - unfold Config.do_set in H. destruct (set_vals _ _ _ _ _ _) as [v [n|e|]] eqn:EV; try discriminate.
    destruct (set_vals_count _ _ _ _ EV) as (m & ->).
    pose proof H as H2. apply changed_same in H2. destruct H2 as [(_ & _ & HC & _) _].
    destruct (with_top_rest s (mkConf v (path (top s)))) as [R1 R2].
    apply ASSOC; [|rewrite HC, R2; exact HI]. eapply changed_inv; [exact H|rewrite R2; exact HI|rewrite R1; exact HY].
  - unfold Config.do_reset in H. destruct n as [n|].
    + destruct (alookup n _) as [d|]; [|discriminate].
      pose proof H as H2. apply changed_same in H2. destruct H2 as [(_ & _ & HC & _) _].
      match type of H with Config.changed _ _ _ _ _ _ _ _ (Config.with_top _ _ _ ?c) = _ =>
        destruct (with_top_rest s c) as [R1 R2] end.
      apply ASSOC; [|rewrite HC, R2; exact HI]. eapply changed_inv; [exact H|rewrite R2; exact HI|rewrite R1; exact HY].
    + pose proof H as H2. apply changed_same in H2. destruct H2 as [(_ & _ & HC & _) _].
      match type of H with Config.changed _ _ _ _ _ _ _ _ (Config.with_top _ _ _ ?c) = _ =>
        destruct (with_top_rest s c) as [R1 R2] end.
      apply ASSOC; [|rewrite HC, R2; exact HI]. eapply changed_inv; [exact H|rewrite R2; exact HI|rewrite R1; exact HY].
  - destruct (make_temp _ _ _ _ _ _ _ p a s) as [s0 [cf|e|]] eqn:E0; try discriminate.
    apply make_temp_same in E0. destruct E0 as ((_ & _ & A3 & _) & _ & _ & _ & _ & A9).
    destruct (enter _ _ _ _ _ cf s0) as [s1 [[]|e|]] eqn:E1; try discriminate.
    assert (Y1 : (inv (ostate s1) /\ fits (get s1) (ostate s1)) /\ In 0 (callbacks s1)).
    { pose proof E1 as E1'. apply (enter_same _ _ _) in E1'. destruct E1' as (_ & _ & B3 & _).
      split; [|rewrite B3, A3; exact HI].
      unfold Config.enter, Config.notify in E1.
      destruct (notify_loop _ _) as [s1' [[]|e|]] eqn:EN; try discriminate. inversion E1; subst s1'.
      eapply notify_loop_inv; [exact EN|cbn; rewrite A9; exact HY|]. left. cbn. rewrite A3. exact HI. }
    destruct (exec c s1) as [s2 r2] eqn:E2. pose proof H as HL.
    apply (leave_same _ _ _) in HL. destruct HL as (_ & _ & C3 & _).
    unfold Config.leave, Config.notify in H.
    destruct (notify_loop _ _) as [s3 [[]|e|]] eqn:EN; try discriminate. inversion H; subst s3 r2.
    destruct (IHc _ _ E2 HS (proj2 Y1) (proj1 (proj1 Y1)) (proj2 (proj1 Y1))) as (Y2 & F2 & I2).
    apply ASSOC; [|rewrite C3; exact I2].
    eapply notify_loop_inv; [exact EN|exact Y2|]. left. exact I2.
  - inversion H; subst. split; [exact HY|]. split; [exact HF|]. cbn. apply in_or_app. auto.
  - inversion H; subst. split; [exact HY|]. split; [exact HF|]. exact HI.
  - inversion H; subst. split; [exact HY|]. split; [exact HF|]. exact HI.
  - discriminate.
  - destruct (f (get s) (ostate s)) as [o' rr] eqn:EF. inversion H; subst.
    destruct (use_inv _ _ _ _ HS EF (get_sizes s) HY HF) as [A B]. split; [exact A|]. split; [exact B|exact HI].
Qed.

(** C52 for programs: as long as no call raises, whatever is set, reset and temporarily changed
    and however the cache is used meanwhile, in any order and nesting, the cache has not been
    used yet or it and its manager are as the visible configuration says. *)
Theorem C52_programs_partial : forall p files env (c : cmd) s,
  steady c -> exec c (boot p files env) = (s, Ok tt) ->
  cpolicy (ostate s) = None \/ (configured (get s) (ostate s) /\ manager_follows (get s) (ostate s)).
Proof.
  intros p files env c s HS H.
  assert (HO : ostate (boot p files env) = fresh).
  { unfold boot, Config.start. destruct (load _ _ _ _ _). reflexivity. }
  apply exec_inv in H; [|exact HS|cbn; auto| |].
  - destruct H as ((W & N & T) & F & _). destruct (cpolicy (ostate s)) as [q|] eqn:EC; [right|auto].
    pose proof (F _ EC) as G. split; [eapply good_configured; eassumption|eapply touch_follows; eassumption].
  - rewrite HO. split; [|split].
    + split; [reflexivity|]. split; [intros ? []|discriminate].
    + intros q HQ. discriminate.
    + intros q HQ. discriminate.
  - rewrite HO. intros q HQ. discriminate.
Qed.
End Props.

(** ** A concrete system *)
Definition all_ok (_ : string) : result unit := Ok tt.
Definition tmp_ok (_ : option string) : result unit := Ok tt.
Definition no_check (_ : policy unit) : bool * result unit := (false, Ok tt).
Definition tilde (s : string) : string := match s with String "~" r => ("/h" ++ r)%string | _ => s end.
Notation dchanged := (config_changed unit (fun _ _ => true) tilde all_ok tmp_ok no_check).
Notation ddirectory := (directory unit tilde all_ok tmp_ok no_check).
Notation ddatabase := (database unit tilde all_ok tmp_ok no_check).
Notation dafter := (after unit (fun _ _ => true) tilde all_ok tmp_ok no_check).
Definition defaults_of (kvs : list (string * value unit)) (k : string) : result (value unit) :=
  match alookup k kvs with
  | Some v => Ok v
  | None => Ok (if String.eqb k "user-cache-directory" then VStr "~/.cache" else
                if String.eqb k "cache-policy" then VStr "user" else
                if String.eqb k "maximum-cache-size" then VInt 5 else VNone)
  end.
Lemma defaults_readable kvs : readable (defaults_of kvs).
Proof. intros k _. unfold defaults_of. destruct (alookup k kvs); eauto. Qed.
Definition gu := defaults_of [].
Definition gt := defaults_of [("cache-policy", VStr "temporary"); ("temporary-cache-directory-root", VStr "~/tmp")].
Definition gt2 := defaults_of [("cache-policy", VStr "temporary"); ("temporary-cache-directory-root", VStr "~/tmp"); ("maximum-cache-size", VNone)].
Definition go := defaults_of [("cache-policy", VStr "off"); ("temporary-directory-root", VStr "/scratch")].

(** C52 refuted for cache-policy off: temporary-directory-root is not honoured ... *)
Theorem C52_off_root_refuted :
  go "cache-policy" = Ok (VStr "off") /\ go "temporary-directory-root" = Ok (VStr "/scratch") /\
  snd (dchanged go fresh) = Ok tt /\
  snd (ddirectory go (fst (dchanged go fresh))) = Ok (Temp None 0).
Proof. vm_compute. repeat split. Qed.
(** ... and once it is set, each change of any option, even one that changes nothing, throws
    away the directory and the files in it. *)
Theorem C52_off_lost_refuted :
  let c1 := fst (ddirectory go (fst (dchanged go fresh))) in
  let c2 := fst (ddirectory go (fst (dchanged go c1))) in
  snd (ddirectory go c1) = Ok (Temp None 0) /\ live c1 = [(None, 0)] /\
  snd (dchanged go c1) = Ok tt /\ snd (ddirectory go c2) = Ok (Temp None 1) /\ live c2 = [(None, 1)].
Proof. vm_compute. repeat split. Qed.
(** C52 refuted for the manager when an option cannot be read at some time (an environment
    variable with a bad value): the limit set then is stored in the policy, but the manager is
    not told, not even by the next change. *)
Definition g50 := defaults_of [("maximum-cache-disk-usage", VInt 50)].
Definition g50bad (k : string) := if String.eqb k "maximum-cache-size" then Raise ValueError else g50 k.
Theorem C52_manager_refuted :
  snd (dchanged g50bad (dafter [EChanged _ gu])) = Raise ValueError /\
  let h := [EChanged _ gu; EChanged _ g50bad] in
  snd (dchanged g50 (dafter h)) = Ok tt /\
  enforced (fst (dchanged g50 (dafter h))) = Some (VInt 5, VNone) /\
  g50 "maximum-cache-disk-usage" = Ok (VInt 50).
Proof. vm_compute. repeat split. Qed.
(** A root that expands to nothing is refused, with either policy that makes temporary
    directories, and leaves no directory behind: with "temporary" the change of the option
    itself is refused, with "off" each use of the cache is. *)
Definition ge := defaults_of [("cache-policy", VStr "temporary"); ("temporary-cache-directory-root", VStr "")].
Theorem C52_empty_root_refused :
  (forall expand mkdir mkdtemp s (c : cache unit), expand s = ""%string ->
     temp_directory unit expand mkdir mkdtemp (VStr s) c = (c, Raise ValueError)) /\
  snd (dchanged ge fresh) = Raise ValueError /\ live (fst (dchanged ge fresh)) = [].
Proof.
  split; [|vm_compute; repeat split]. intros expand mkdir mkdtemp s c E. unfold temp_directory. rewrite E. reflexivity.
Qed.
(** C85 refuted for cache-policy temporary: the user's cache directory is made although it is
    not used, and if it cannot be made there is no temporary cache either. *)
Definition home_full (s : string) : result unit := if String.eqb s "/h/.cache" then Raise (UserError 28) else Ok tt.
Theorem C85_temporary_refuted :
  needed (fst (dchanged gt fresh)) = ["/h/.cache"] /\
  snd (ddirectory gt (fst (dchanged gt fresh))) = Ok (Temp (Some "/h/tmp") 0) /\
  snd (config_changed unit (fun _ _ => true) tilde home_full tmp_ok no_check gt fresh) = Raise (UserError 28) /\
  snd (directory unit tilde home_full tmp_ok no_check gt fresh) = Raise (UserError 28).
Proof. vm_compute. repeat split. Qed.

(** The hypotheses of the theorems above are met by histories going through all policies. *)
Definition hist := [EDirectory unit gu; EChanged _ gt; EDatabase _ gt; EChanged _ go; EDirectory _ go; EChanged _ gt].
Example C52_hyp : snd (dchanged gt2 (dafter hist)) = Ok tt /\
  snd (ddirectory gt2 (fst (dchanged gt2 (dafter hist)))) = Ok (Temp (Some "/h/tmp") 2) /\
  snd (ddatabase gt2 (fst (dchanged gt2 (dafter hist)))) = Ok (Some (Temp (Some "/h/tmp") 2)) /\
  enforced (fst (dchanged gt2 (dafter hist))) = Some (VNone, VNone) /\
  live (fst (dchanged gt2 (dafter hist))) = [(Some "/h/tmp", 2)].
Proof. vm_compute. repeat split. Qed.
Example C52_hyp_readable : (forall e, In e hist -> readable (event_reader unit e) /\ sizes (event_reader unit e)) /\
  readable gt2 /\ sizes gt2.
Proof.
  assert (S : forall kvs, (forall k v, In (k, v) kvs -> k = "maximum-cache-size" -> v = VNone) ->
              alookup "maximum-cache-disk-usage" kvs = None -> sizes (defaults_of kvs)).
  { intros kvs H1 H2 k v HK H. unfold defaults_of in H. destruct HK as [<-|[<-|[]]].
    - destruct (alookup "maximum-cache-size" kvs) as [w|] eqn:E; cbn in H; inversion H; subst; eauto.
      apply alookup_In in E. left. eapply H1; [exact E|reflexivity].
    - rewrite H2 in H. cbn in H. inversion H. auto. }
  split; [|split; [apply defaults_readable|apply S; [cbn; intuition congruence|reflexivity]]].
  intros e I. cbn in I.
  repeat (destruct I as [<-|I]; [split; [apply defaults_readable|apply S; [cbn; intuition congruence|reflexivity]]|]).
  destruct I.
Qed.
Example C52_kept_hyp :
  let c1 := fst (dchanged gt (dafter hist)) in
  snd (dchanged gt (dafter hist)) = Ok tt /\ snd (ddirectory gt c1) = Ok (Temp (Some "/h/tmp") 2) /\
  snd (dchanged gt2 (fst (ddirectory gt c1))) = Ok tt /\
  gt2 "temporary-cache-directory-root" = gt "temporary-cache-directory-root" /\
  gt2 "maximum-cache-size" <> gt "maximum-cache-size".
Proof. vm_compute. repeat split. discriminate. Qed.
Example C85_hyp : needed (dafter [EDirectory unit go; EChanged _ go; EDatabase _ go]) = [].
Proof. vm_compute. reflexivity. Qed.

Notation dexec := (exec unit (fun _ => "o") (fun _ => true) "/h" (fun _ => true) "1" (cache unit)
  (cache_obs (fun _ _ => true) tilde all_ok tmp_ok no_check (fun _ _ => Ok tt))).
Notation dget := (get unit (fun _ => "o") "/h" (cache unit)).
Definition dboot := boot (Obj := unit) (fun _ => true) "/h" (fun _ => true) "1" "/c" [] [].
Definition prog : cmd unit (cache unit) :=
  CSeq (CAct (use_directory tilde all_ok tmp_ok no_check))
  (CSeq (CTemp None (Some (SetPos "cache-policy" [VStr "temporary"] 0))
          (CSeq (CAct (use_database tilde all_ok tmp_ok no_check))
                (CSet (SetDict [("cache-policy", VStr "off"); ("maximum-cache-size", VInt 10)]))))
        (CSet (SetDict [("maximum-cache-disk-usage", VStr "80%")]))).
Example C52_programs_hyp :
  steady tilde all_ok tmp_ok no_check prog /\ snd (dexec prog dboot) = Ok tt /\
  snd (ddirectory (dget (fst (dexec prog dboot))) (ostate (fst (dexec prog dboot)))) = Ok (At "/h/.cache/earthkit-regrid") /\
  enforced (ostate (fst (dexec prog dboot))) = Some (VInt (5 * 1024 * 1024 * 1024), VInt 80).
Proof. split; [cbn; tauto|]. vm_compute. repeat split. Qed.

Print Assumptions C52_follows_partial.
Print Assumptions C52_size_managed_partial.
Print Assumptions C52_manager_partial.
Print Assumptions C52_agree_partial.
Print Assumptions C52_kept_partial.
Print Assumptions C52_one_temporary_directory.
Print Assumptions C52_programs_partial.
Print Assumptions C85_off_leaves_user_directory.
Print Assumptions C52_off_root_refuted.
Print Assumptions C52_off_lost_refuted.
Print Assumptions C52_manager_refuted.
Print Assumptions C85_temporary_refuted.
Print Assumptions C52_empty_root_refused.
