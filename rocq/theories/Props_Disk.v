(** C45-C48, C54, C77, C78: the disk cache's book-keeping. *)
From Verif Require Import PyBase ListLemmas Disk DiskSpec DiskProofs DiskProofs2.
Set Default Proof Using "Type".
Local Open Scope string_scope.
Local Open Scope list_scope.
Local Open Scope Z_scope.

Section Props.
  Context {json : Type}.
  Variable jnull : json.
  Notation row := (row json).
  Notation disk := (disk json).
  Notation paths l := (map (@r_path json) l).
  Variable dir : string.
  Implicit Types d h : disk.

  (** ** Histories *)
  (** What can happen to a cache: the calls of cache_file (caching.py:1003, 1013-1014, 1027-1028),
      the user's calls, and files coming and going (cache_file's own temporary and final files,
      and anybody else's). *)
  Inductive op :=
  | ORegister (t : Z) (name owner : string) (args : json)
  | OUpdate (name : string) (data : json)
  | ODecacheFile (e : env) (name : string)
  | OCheck (e : env) (max usage : option Z)
  | OHousekeeping (e : env) (clean : bool)
  | OPurge (e : env) (latest : Z)
  | OPurgeMatching (e : env) (matcher : row -> bool)
  | OAppear (name : string) (n : node)
  | OVanish (path : string).
  Definition apply (o : op) (d : disk) : result disk :=
    match o with
    | ORegister t name owner args => register dir t (join dir name) owner args None d
    | OUpdate name data => update_entry dir (join dir name) data d
    | ODecacheFile e name => decache_file dir e (join dir name) d
    | OCheck e max usage => check_cache_size jnull dir e max usage d
    | OHousekeeping e clean => housekeeping jnull dir e clean d
    | OPurge e latest => purge jnull dir e latest d
    | OPurgeMatching e matcher => purge_matching dir e matcher d
    | OAppear name n => Ok (mkDisk (rows d) (aset (join dir name) n (files d)))
    | OVanish path => Ok (mkDisk (rows d) (aremove path (files d)))
    end.
  (** Names as cache_file makes them: not empty, no slash; files have sizes. *)
  Definition possible (o : op) : Prop :=
    match o with
    | ORegister _ n _ _ | OUpdate n _ | ODecacheFile _ n => has_slash n = false /\ n <> ""
    | OAppear n nd => 0 <= n_size nd
    | _ => True
    end.
  (** A call that raises leaves what it found (it raises before the first change). *)
  Definition after (o : op) (d : disk) : disk := match apply o d with Ok d' => d' | _ => d end.
  Inductive reachable : disk -> Prop :=
  | r_start fs : NoDup (akeys fs) -> (forall p n, In (p, n) fs -> 0 <= n_size n) -> reachable (mkDisk [] fs)
  | r_step o d : reachable d -> possible o -> reachable (after o d).

  Lemma aset_NoDup {A} k (v : A) l : NoDup (akeys l) -> NoDup (akeys (aset k v l)).
  Proof using. clear. intros N. rewrite akeys_aset. destruct (amem k l) eqn:M; [exact N|]. apply NoDup_snoc; [exact N|]. unfold amem in M. destruct (alookup k l) eqn:L; [discriminate M|]. apply alookup_None. exact L. Qed.
  Lemma aset_In {A} k (v : A) l x a : In (x, a) (aset k v l) -> a = v \/ In (x, a) l.
  Proof using. clear. induction l as [|[k' a'] l IH]; cbn; [intros [E|[]]; inversion E; auto|]. destruct (String.eqb k k'); cbn; intros [E|I]; try (inversion E; subst); auto. destruct (IH I); auto. Qed.
  Lemma purge_matching_spec e m d : tidy dir d -> exists d', purge_matching dir e m d = Ok d' /\ cut (locked e) d (paths (dump m d)) d'.
  Proof using.
    intros T. unfold purge_matching. set (f := fun (acc : result disk) (r : row) => d <- acc ;; x <- delete_entry dir (depth d) e d (r_path r) (size_of r) ;; Ok (fst x)).
    assert (G : forall l done d1, (forall r, In r l -> In r (rows d)) -> cut (locked e) d done d1 -> exists d', fold_left f l (Ok d1) = Ok d' /\ cut (locked e) d (done ++ paths l) d').
    { induction l as [|r l IH]; intros done d1 S C; cbn [fold_left]; [exists d1; cbn; rewrite app_nil_r; auto|].
      destruct (visit dir e d done d1 r T C (S r (or_introl eq_refl))) as (d2 & t & E & _ & C2 & _).
      assert (F : f (Ok d1) r = Ok d2) by (unfold f; cbn [bind]; rewrite E; reflexivity). rewrite F.
      destruct (IH (done ++ [r_path r]) d2) as (d' & E' & C'); [intros; apply S; right; assumption|exact C2|]. exists d'. split; [exact E'|]. rewrite <- app_assoc in C'. exact C'. }
    destruct (G (dump m d) [] d) as (d' & E & C); [intros r I; apply filter_In in I; tauto|apply cut_nil|]. exists d'. auto.
  Qed.
  Lemma decache_any e latest bytes d : tidy dir d -> exists d' r, decache dir e latest bytes d = Ok (d', r) /\ (d' = d \/ trimmed e latest bytes d d').
  Proof using.
    intros T. destruct (Z.leb_spec bytes 0) as [L|L].
    - exists d, (Some 0). unfold decache. destruct (Z.leb_spec bytes 0); [auto|lia].
    - destruct (decache_spec dir e latest bytes d T L) as (d' & r & E & TR & _). eauto.
  Qed.
  (** Every operation but the update of an entry whose file is missing succeeds on a tidy cache,
      leaves it tidy, and what it deletes was in the directory. *)
  Lemma apply_spec o d : tidy dir d -> possible o ->
    (exists d', apply o d = Ok d' /\ tidy dir d' /\ (forall x, In x (akeys (files d)) -> ~ In x (akeys (files d')) -> (exists p, o = OVanish p) \/ inside dir x)) \/
    (apply o d = Raise FileNotFoundError /\ exists n j, o = OUpdate n j /\ ~ In (join dir n) (akeys (files d))).
  Proof using.
    intros T P. assert (BI : forall q x, inside dir q -> below (rows d) q x -> inside dir x).
    { intros q x Q B. destruct B as [|r q' I E B]; [exact Q|]. exact (t_inside _ _ T _ I). }
    assert (TRM : forall e latest bytes (h d' : disk), files h = files d -> tidy dir h -> (d' = h \/ trimmed e latest bytes h d') -> tidy dir d' /\ (forall x, In x (akeys (files d)) -> ~ In x (akeys (files d')) -> inside dir x)).
    { intros e latest bytes h d' F TH [->|TR]; [split; [exact TH|rewrite F; tauto]|]. split; [exact (trimmed_tidy dir _ _ _ _ _ TH TR)|]. destruct TR as [(ev & C & EV & _) _]. rewrite <- F. intros x I N.
      destruct (c_deleted _ _ _ _ C x I N) as (_ & q & Q & B). apply in_map_iff in Q. destruct Q as (r & <- & Q). destruct B as [|r' q' I' E B]; [exact (t_inside _ _ TH _ (proj1 (EV r Q)))|exact (t_inside _ _ TH _ I')]. }
    destruct o as [t n ow a|n j|e n|e mx us|e cl|e la|e m|n nd|p]; cbn [apply possible] in *.
    - left. destruct P as [P1 P2]. destruct (register_tidy dir t (join dir n) ow a None d T (join_inside dir n P1 P2)) as (d' & E & T' & F & _); [discriminate|].
      exists d'. split; [exact E|]. split; [exact T'|]. rewrite F. tauto.
    - destruct P as [P1 P2]. unfold update_entry. rewrite (inside_in_cache dir _ (join_inside dir n P1 P2)). cbn [negb]. destruct (alookup (join dir n) (files d)) as [nd|] eqn:A.
      + left. eexists. split; [reflexivity|]. split; [|cbn [files]; tauto].
        set (g := fun r : row => if String.eqb (r_path r) (join dir n) then set_data j (set_size (n_size nd) (n_dir nd) r) else r).
        assert (G1 : forall r : row, r_path (g r) = r_path r) by (intros r; unfold g; destruct (String.eqb _ _); reflexivity).
        assert (G2 : forall r : row, r_parent (g r) = r_parent r) by (intros r; unfold g; destruct (String.eqb _ _); reflexivity).
        split; cbn [rows files].
        * rewrite map_map. rewrite (map_ext _ (@r_path json) G1). apply T.
        * apply T.
        * intros r q I E. apply in_map_iff in I. destruct I as (y & <- & I). fold (g y) in *. rewrite G2 in E. rewrite G1. exact (t_parents _ _ T _ _ I E).
        * intros r s I E. apply in_map_iff in I. destruct I as (y & <- & I). unfold g in E. destruct (String.eqb _ _); [cbn in E; inversion E; subst; apply alookup_In in A; exact (t_nodes _ _ T _ _ A)|exact (t_sizes _ _ T _ _ I E)].
        * apply T.
        * intros r I. apply in_map_iff in I. destruct I as (y & <- & I). fold (g y). rewrite G1. exact (t_inside _ _ T _ I).
      + right. split; [reflexivity|]. exists n, j. split; [reflexivity|]. apply alookup_None. exact A.
    - left. destruct P as [P1 P2]. pose proof (join_inside dir n P1 P2) as IN. unfold decache_file.
      destruct (delete_entry_spec dir e (depth d) d (join dir n) (match alookup (join dir n) (files d) with Some nd => n_size nd | None => 0 end) T IN (fun x J => depth_bound d x _ J)) as (d' & t & E & C & _); [unfold depth; lia|].
      exists d'. rewrite E. split; [reflexivity|]. split; [exact (cut_tidy dir _ _ _ _ C T)|]. intros x I N. right. destruct (c_deleted _ _ _ _ C x I N) as (_ & q & [<-|[]] & B). exact (BI _ _ IN B).
    - left. unfold check_cache_size.
      assert (S1 : exists d1, (match mx with Some m => if cache_size d >? m then h <- housekeeping jnull dir e false d ;; r <- decache dir e (latest_date (now e) h) (cache_size d - m) h ;; Ok (fst r) else Ok d | None => Ok d end) = Ok d1 /\ tidy dir d1 /\ (forall x, In x (akeys (files d)) -> ~ In x (akeys (files d1)) -> inside dir x)).
      { destruct mx as [m|]; [|exists d; tauto]. destruct (cache_size d >? m); [|exists d; tauto]. destruct (housekeeping_spec jnull dir e false d T) as (h & E & TH & F & _). rewrite E. cbn [bind].
        destruct (decache_any e (latest_date (now e) h) (cache_size d - m) h TH) as (d' & r & E' & R). rewrite E'. cbn [bind fst]. exists d'. split; [reflexivity|]. exact (TRM _ _ _ _ _ F TH R). }
      destruct S1 as (d1 & E1 & T1 & F1). rewrite E1. cbn [bind]. destruct us as [u|]; [|exists d1; auto]. destruct (percent e >? u); [|exists d1; auto].
      destruct (housekeeping_spec jnull dir e false d1 T1) as (h & E & TH & F & _). rewrite E. cbn [bind].
      destruct (decache_any e (latest_date (now e) h) (delta (percent e) u (disk_total e)) h TH) as (d' & r & E' & R). rewrite E'. cbn [bind fst]. exists d'. split; [reflexivity|].
      assert (TI : tidy dir d' /\ forall x, In x (akeys (files d1)) -> ~ In x (akeys (files d')) -> inside dir x).
      { destruct R as [->|TR]; [split; [exact TH|rewrite F; tauto]|]. split; [exact (trimmed_tidy dir _ _ _ _ _ TH TR)|]. destruct TR as [(ev & C & EV & _) _]. rewrite <- F. intros x I N.
        destruct (c_deleted _ _ _ _ C x I N) as (_ & q & Q & B). apply in_map_iff in Q. destruct Q as (r0 & <- & Q). destruct B as [|r' q' I' E0 B]; [exact (t_inside _ _ TH _ (proj1 (EV r0 Q)))|exact (t_inside _ _ TH _ I')]. }
      split; [exact (proj1 TI)|]. intros x I N. right. destruct (in_dec string_dec x (akeys (files d1))) as [K|K]; [exact (proj2 TI x K N)|exact (F1 x I K)].
    - left. destruct (housekeeping_spec jnull dir e cl d T) as (h & E & TH & F & _). exists h. split; [exact E|]. split; [exact TH|]. rewrite F. tauto.
    - left. unfold purge. destruct (housekeeping_spec jnull dir e true d T) as (h & E & TH & F & _). rewrite E. cbn [bind].
      destruct (decache_any e la (cache_size h) h TH) as (d' & r & E' & R). rewrite E'. cbn [bind fst]. exists d'. split; [reflexivity|]. destruct (TRM _ _ _ _ _ F TH R) as [A B]. split; [exact A|auto].
    - left. destruct (purge_matching_spec e m d T) as (d' & E & C). exists d'. split; [exact E|]. split; [exact (cut_tidy dir _ _ _ _ C T)|]. intros x I N. right.
      destruct (c_deleted _ _ _ _ C x I N) as (_ & q & Q & B). apply in_map_iff in Q. destruct Q as (r & <- & Q). apply filter_In in Q. exact (BI _ _ (t_inside _ _ T _ (proj1 Q)) B).
    - left. eexists. split; [reflexivity|]. split.
      + destruct T as [A B C D E F]. split; cbn [rows files]; auto; [apply aset_NoDup, B|]. intros p0 n0 I. apply aset_In in I. destruct I as [->|I]; [exact P|exact (E _ _ I)].
      + cbn [files]. intros x I N. exfalso. apply N. rewrite akeys_aset. destruct (amem _ _); [exact I|apply in_or_app; auto].
    - left. eexists. split; [reflexivity|]. split; [|eauto]. destruct T as [A B C D E F]. split; cbn [rows files]; auto; [apply aremove_NoDup, B|]. intros p0 n0 I. apply aremove_In in I. apply (E p0 n0). tauto.
  Qed.
  Lemma reach_tidy d : reachable d -> tidy dir d.
  Proof using.
    induction 1 as [fs N S|o d R IH P].
    - split; cbn; auto; try (constructor; fail); try (intros r q []); try (intros r []).
    - unfold after. destruct (apply_spec o d IH P) as [(d' & E & T & _)|(E & _)]; rewrite E; assumption.
  Qed.

  (** ** C77: the manager never fails *)
  Theorem C77_never_fails o d : reachable d -> possible o ->
    (exists d', apply o d = Ok d') \/ (apply o d = Raise FileNotFoundError /\ exists n j, o = OUpdate n j /\ ~ In (join dir n) (akeys (files d))).
  Proof using. intros R P. destruct (apply_spec o d (reach_tidy d R) P) as [(d' & E & _)|H]; [left; eauto|right; exact H]. Qed.
  (** One row per path, parents shorter than their children, everything inside. *)
  Theorem C77_tidy d : reachable d -> tidy dir d.
  Proof using. apply reach_tidy. Qed.

  (** ** C48: only files of the directory are deleted *)
  Theorem C48_inside o d x : reachable d -> possible o -> (forall p, o <> OVanish p) ->
    In x (akeys (files d)) -> ~ In x (akeys (files (after o d))) -> inside dir x.
  Proof using.
    intros R P V I N. unfold after in N. destruct (apply_spec o d (reach_tidy d R) P) as [(d' & E & _ & F)|(E & _)]; rewrite E in N; [|contradiction].
    destruct (F x I N) as [[p X]|X]; [destruct (V p X)|exact X].
  Qed.

  (** ** C46: order of eviction *)
  (** Which date protects: the creation of the oldest entry in progress, else of the newest entry. *)
  Definition in_progress (r : row) : Prop := r_size r = None.
  Definition protected_since (l : Z) (d : disk) : Prop :=
    (exists r, In r (rows d) /\ in_progress r /\ r_created r = l /\ forall x, In x (rows d) -> in_progress x -> l <= r_created x) \/
    ((forall x, In x (rows d) -> ~ in_progress x) /\ exists r, In r (rows d) /\ r_created r = l /\ forall x, In x (rows d) -> r_created x <= l) \/
    rows d = [].
  Lemma minimum_spec l : match minimum l with Some x => In x l /\ forall y, In y l -> x <= y | None => l = [] end.
  Proof using. clear. induction l as [|a l IH]; cbn; [reflexivity|]. destruct (minimum l) as [x|]; [|subst; split; [auto|intros y [<-|[]]; lia]]. destruct IH as [I M]. split; [destruct (Z.min_spec a x) as [[_ ->]|[_ ->]]; auto|]. intros y [<-|J]; [lia|]. specialize (M y J). lia. Qed.
  Lemma maximum_spec l : match maximum l with Some x => In x l /\ forall y, In y l -> y <= x | None => l = [] end.
  Proof using. clear. induction l as [|a l IH]; cbn; [reflexivity|]. destruct (maximum l) as [x|]; [|subst; split; [auto|intros y [<-|[]]; lia]]. destruct IH as [I M]. split; [destruct (Z.max_spec a x) as [[_ ->]|[_ ->]]; auto|]. intros y [<-|J]; [lia|]. specialize (M y J). lia. Qed.
  Lemma null_spec (r : row) : is_null r = true <-> in_progress r.
  Proof using. clear. unfold is_null, in_progress. destruct (r_size r); split; congruence. Qed.
  Theorem C46_protected t d : protected_since (latest_date t d) d.
  Proof using.
    clear. unfold latest_date, protected_since. pose proof (minimum_spec (map r_created (filter is_null (rows d)))) as M. destruct (minimum _) as [x|].
    - left. destruct M as [I M]. apply in_map_iff in I. destruct I as (r & E & I). apply filter_In in I. destruct I as [I N]. exists r. split; [exact I|]. split; [apply null_spec, N|]. split; [exact E|].
      intros y Y P. apply M, in_map, filter_In. split; [exact Y|apply null_spec, P].
    - right. assert (NN : forall x, In x (rows d) -> ~ in_progress x). { intros x I P. apply null_spec in P. assert (J : In (r_created x) (map r_created (filter is_null (rows d)))) by (apply in_map, filter_In; auto). rewrite M in J. destruct J. }
      pose proof (maximum_spec (map r_created (filter (fun r => negb (is_null r)) (rows d)))) as X. destruct (maximum _) as [x|].
      + left. split; [exact NN|]. destruct X as [I X]. apply in_map_iff in I. destruct I as (r & E & I). apply filter_In in I. exists r. split; [tauto|]. split; [exact E|].
        intros y Y. apply X, in_map, filter_In. split; [exact Y|]. apply negb_true_iff, not_true_is_false. intros Z0. apply (NN y Y), null_spec, Z0.
      + right. destruct (rows d) as [|r l] eqn:E; [reflexivity|exfalso]. assert (F : In r (filter (fun r => negb (is_null r)) (r :: l))) by (apply filter_In; split; [left; reflexivity|]; apply negb_true_iff, not_true_is_false; intros Z0; apply (NN r (or_introl eq_refl)), null_spec, Z0).
        apply (in_map r_created) in F. rewrite X in F. destruct F.
  Qed.
  (** Trimming evicts complete entries created before the protected date, orphans before all others and these in
      order of last access, with everything below the evicted ones and nothing else; when it
      frees enough, leaving out the last one evicted would not have been enough; else nothing evictable is left. *)
  Definition may_go (latest : Z) (r : row) : Prop := ~ in_progress r /\ r_created r < latest.
  Lemma may_go_spec latest r : evictable latest r = true <-> may_go latest r.
  Proof using. clear. unfold evictable, may_go. rewrite andb_true_iff, negb_true_iff, Z.ltb_lt. rewrite <- null_spec. destruct (is_null r); split; intros [A B]; split; congruence. Qed.
  Theorem C46_order e latest bytes d : reachable d -> 0 < bytes -> exists d' r evicted,
    decache dir e latest bytes d = Ok (d', r) /\ without (locked e) d (paths evicted) d' /\
    (forall x, In x evicted -> In x (rows d) /\ may_go latest x) /\
    (forall x y, In x evicted -> r_owner x <> "orphans" -> In y (rows d') -> may_go latest y -> r_owner y <> "orphans" /\ r_access x <= r_access y) /\
    (unlocked e -> bytes <= freed d d' -> exists l0 x d'', evicted = l0 ++ [x] /\ without (locked e) d (paths l0) d'' /\ freed d d'' < bytes) /\
    (unlocked e -> bytes <= freed d d' \/ forall x, In x (rows d') -> ~ may_go latest x).
  Proof using.
    intros R B. pose proof (reach_tidy d R) as T. destruct (decache_spec dir e latest bytes d T B) as (d' & r & E & [(ev & C & EV & ORD & MIN) EN] & _). exists d', r, ev.
    assert (OR : forall x : row, is_orphan x = false <-> r_owner x <> "orphans") by (intros x; unfold is_orphan; apply String.eqb_neq).
    split; [exact E|]. split; [exact (cut_without _ _ _ _ (t_rows _ _ T) C)|]. split; [intros x I; rewrite <- may_go_spec; apply EV, I|]. split; [|split].
    - intros x y I O J V. rewrite <- OR. apply (ORD x y I); [apply OR, O|exact J|apply may_go_spec, V].
    - intros U L. destruct (MIN U L) as (l0 & x & d'' & A & C0 & F). exists l0, x, d''. split; [exact A|]. split; [exact (cut_without _ _ _ _ (t_rows _ _ T) C0)|exact F].
    - intros U. destruct (EN U) as [L|N]; [left; exact L|right]. intros x I V. apply may_go_spec in V. rewrite (N x I) in V. discriminate V.
  Qed.
  Lemma newest_stays e t bytes d d' r res : tidy dir d -> In r (rows d) -> r_parent r = None -> (forall x, In x (rows d) -> r_created x <= r_created r) ->
    decache dir e (latest_date t d) bytes d = Ok (d', res) -> In r (rows d') /\ (In (r_path r) (akeys (files d)) -> In (r_path r) (akeys (files d'))).
  Proof using.
    intros T I P M E. destruct (Z.leb_spec bytes 0) as [B|B].
    - unfold decache in E. destruct (Z.leb_spec bytes 0); [|lia]. inversion E; subst. auto.
    - destruct (decache_spec dir e (latest_date t d) bytes d T B) as (d1 & r1 & E1 & [(ev & C & EV & _) _] & _). rewrite E in E1. inversion E1; subst d1 r1. clear E1.
      assert (NO : forall p, In p (paths ev) -> below (rows d) p (r_path r) -> False).
      { intros p Q BL. destruct (below_inv d p r (t_rows _ _ T) I BL) as [X|(q & X & _)]; [|congruence]. apply in_map_iff in Q. destruct Q as (x & Q1 & Q2). destruct (EV x Q2) as [A B'].
        assert (x = r) by (apply (row_unique d); [apply T|exact A|exact I|congruence]). subst x. apply may_go_spec in B'. destruct B' as [_ L].
        destruct (C46_protected t d) as [(y & Y & _ & Y2 & _)|[(_ & y & Y & Y2 & _)|Y]]; [specialize (M y Y); lia|specialize (M y Y); lia|rewrite Y in I; destruct I]. }
      split.
      + destruct (c_rows _ _ _ _ C) as [f F]. destruct (f r) eqn:FR; [rewrite F; apply filter_In; auto|exfalso].
        destruct (c_gone _ _ _ _ C r I) as (p & Q & BL); [rewrite F, filter_In; intros [_ X]; congruence|]. exact (NO p Q BL).
      + intros FI. destruct (in_dec string_dec (r_path r) (akeys (files d'))) as [K|K]; [exact K|exfalso]. destruct (c_deleted _ _ _ _ C _ FI K) as (_ & p & Q & BL). exact (NO p Q BL).
  Qed.
  Theorem C46_newest e t bytes d d' r res : reachable d -> In r (rows d) -> r_parent r = None -> (forall x, In x (rows d) -> r_created x <= r_created r) ->
    decache dir e (latest_date t d) bytes d = Ok (d', res) -> In r (rows d') /\ (In (r_path r) (akeys (files d)) -> In (r_path r) (akeys (files d'))).
  Proof using. intros R. apply newest_stays, reach_tidy, R. Qed.

  (** ** C45: the maximum size *)
  (** With [h] the table after looking for orphans. *)
  Lemma size_eq (d : disk) : cache_size d = total_size d.
  Proof using. clear. reflexivity. Qed.
  Theorem C45_bound_partial e m usage d h d' : reachable d -> unlocked e -> (forall u, usage = Some u -> percent e <= u) ->
    housekeeping jnull dir e false d = Ok h -> check_cache_size jnull dir e (Some m) usage d = Ok d' ->
    total_size d' <= m + (total_size h - total_size d) \/
    (protected_since (latest_date (now e) h) h /\ forall r, In r (rows d') -> in_progress r \/ latest_date (now e) h <= r_created r).
  Proof using.
    intros R U US H E. pose proof (reach_tidy d R) as T. destruct (housekeeping_spec jnull dir e false d T) as (h' & H' & TH & F & SZ & _). rewrite H in H'. inversion H'; subst h'. clear H'.
    unfold check_cache_size in E. rewrite H in E. cbn [bind] in E. rewrite Z.gtb_ltb in E. rewrite size_eq in E. destruct (Z.ltb_spec m (total_size d)) as [L|L].
    - destruct (decache_spec dir e (latest_date (now e) h) (total_size d - m) h TH ltac:(lia)) as (d1 & r1 & E1 & TR & _). rewrite E1 in E. cbn [bind fst] in E.
      assert (d' = d1) as ->. { destruct usage as [u|]; [|inversion E; reflexivity]. rewrite Z.gtb_ltb in E. destruct (Z.ltb_spec u (percent e)); [specialize (US u eq_refl); lia|inversion E; reflexivity]. }
      destruct TR as [(ev & C & _) EN]. destruct (EN U) as [G|N].
      + left. pose proof (freed_bound dir h _ _ _ TH C). lia.
      + right. split; [apply C46_protected|]. intros r I. specialize (N r I). unfold evictable in N. destruct (is_null r) eqn:NR; [left; apply null_spec, NR|right]. cbn in N. apply Z.ltb_ge in N. exact N.
    - left. assert (d' = d) as ->. { cbn [bind] in E. destruct usage as [u|]; [|inversion E; reflexivity]. rewrite Z.gtb_ltb in E. destruct (Z.ltb_spec u (percent e)); [specialize (US u eq_refl); lia|inversion E; reflexivity]. }
      lia.
  Qed.
  (** When there is nothing to find, the maximum holds or only protected entries are left. *)
  Theorem C45_no_orphans_partial e m usage d d' : reachable d -> unlocked e -> (forall u, usage = Some u -> percent e <= u) -> nothing_new dir e d ->
    check_cache_size jnull dir e (Some m) usage d = Ok d' ->
    total_size d' <= m \/ (protected_since (latest_date (now e) d) d /\ forall r, In r (rows d') -> in_progress r \/ latest_date (now e) d <= r_created r).
  Proof using.
    intros R U US NN E. destruct (C45_bound_partial e m usage d d d' R U US (housekeeping_nothing jnull dir e d NN) E) as [H|H]; [left; lia|right; exact H].
  Qed.

  (** ** C47: purge *)
  Theorem C47_matching e m d : reachable d -> exists d', purge_matching dir e m d = Ok d' /\ without (locked e) d (paths (filter m (rows d))) d'.
  Proof using. intros R. pose proof (reach_tidy d R) as T. destruct (purge_matching_spec e m d T) as (d' & E & C). exists d'. split; [exact E|]. exact (cut_without _ _ _ _ (t_rows _ _ T) C). Qed.
  (** purge(): what is left of before the call is empty files. *)
  Theorem C47_all_partial e latest d : reachable d -> unlocked e -> exists d', purge jnull dir e latest d = Ok d' /\
    forall r, In r (rows d') -> r_created r < latest -> r_size r = Some 0.
  Proof using.
    intros R U. pose proof (reach_tidy d R) as T. unfold purge. destruct (housekeeping_spec jnull dir e true d T) as (h & E & TH & F & _ & NN). rewrite E. cbn [bind].
    assert (ZERO : forall d', total_size d' <= 0 -> tidy dir d' -> (forall r, In r (rows d') -> In r (rows h)) -> forall r, In r (rows d') -> r_size r = Some 0).
    { intros d' S T' SUB r I. destruct (r_size r) as [s|] eqn:SR; [|specialize (NN r (SUB r I)); unfold is_null in NN; rewrite SR in NN; specialize (NN eq_refl); discriminate NN].
      f_equal. pose proof (t_sizes _ _ T' _ _ I SR) as P. enough (s <= 0) by lia. unfold total_size in S. clear - S I SR T'.
      assert (W : forall x, In x (rows d') -> 0 <= match r_size x with Some s => s | None => 0 end) by (intros x J; destruct (r_size x) eqn:X; [exact (t_sizes _ _ T' _ _ J X)|lia]).
      clear T'. induction (rows d') as [|x l IH]; [destruct I|]. cbn [map zsum] in S. assert (0 <= zsum (map (fun r => match r_size r with Some s => s | None => 0 end) l)).
      { apply zsum_nonneg. apply Forall_forall. intros z Z0. apply in_map_iff in Z0. destruct Z0 as (y & <- & Y). apply W. right. exact Y. }
      destruct I as [->|I]; [rewrite SR in S; lia|]. apply IH; [specialize (W x (or_introl eq_refl)); lia|exact I|intros; apply W; right; assumption]. }
    destruct (Z.leb_spec (cache_size h) 0) as [L|L].
    - exists h. unfold decache. destruct (Z.leb_spec (cache_size h) 0); [|lia]. split; [reflexivity|]. intros r I _. apply (ZERO h); auto.
    - destruct (decache_spec dir e latest (cache_size h) h TH L) as (d' & r & E' & TR & _). rewrite E'. cbn [bind fst]. exists d'. split; [reflexivity|].
      destruct TR as [(ev & C & _) EN]. intros r0 I LT. destruct (EN U) as [G|N].
      + pose proof (freed_bound dir h _ _ _ TH C) as FB. apply (ZERO d'); [rewrite size_eq in G; lia|exact (cut_tidy dir _ _ _ _ C TH)|apply (cut_incl _ _ _ _ C)|exact I].
      + specialize (N r0 I). unfold evictable in N. destruct (is_null r0) eqn:NR; [specialize (NN r0 (cut_incl _ _ _ _ C _ I) NR); discriminate NN|]. cbn in N. apply Z.ltb_ge in N. lia.
  Qed.

  (** ** C54: statistics *)
  Theorem C54_summary_partial m d : (forall r, In r (rows d) -> m r = true -> r_size r <> None) ->
    summary m d = Ok (List.length (filter m (rows d)), zsum (map (fun r => match r_size r with Some s => s | None => 0 end) (filter m (rows d)))).
  Proof using.
    clear. intros H. unfold summary, dump. assert (S : forall l s, (forall r, In r l -> r_size r <> None) -> sum_sizes l s = Ok (s + zsum (map (fun r : row => match r_size r with Some s => s | None => 0 end) l))).
    { induction l as [|r l IH]; intros s K; cbn [sum_sizes map zsum]; [f_equal; lia|]. destruct (r_size r) as [x|] eqn:E; [|destruct (K r (or_introl eq_refl) E)]. rewrite IH by (intros; apply K; right; assumption). f_equal. lia. }
    rewrite S; [reflexivity|]. intros r I. apply filter_In in I. apply H; tauto.
  Qed.
  Theorem C54_refuted m d r : In r (rows d) -> m r = true -> r_size r = None -> summary m d = Raise TypeError.
  Proof using.
    clear. intros I M E. unfold summary, dump. assert (S : forall l s, In r l -> sum_sizes l s = Raise TypeError).
    { induction l as [|x l IH]; intros s J; [destruct J|]. cbn. destruct J as [->|J]; [rewrite E; reflexivity|]. destruct (r_size x); [apply IH, J|reflexivity]. }
    rewrite S; [reflexivity|]. apply filter_In. auto.
  Qed.
  (** ** C104: the listed entries *)
  (** Every entry of the table whose file is there is listed, once, as it is in the table; nothing
      else is listed. *)
  Theorem C104_entries d : reachable d -> NoDup (map r_path (cache_entries d)) /\ forall r, In r (cache_entries d) <-> In r (rows d) /\ In (r_path r) (akeys (files d)).
  Proof.
    intros R. pose proof (t_rows _ _ (C77_tidy d R)) as N. unfold cache_entries. split.
    - clear R. revert N. generalize (fun r : row => file_exists d (r_path r)). intros f. induction (rows d) as [|r l IH]; cbn [filter map]; intros N; [constructor|]. inversion N as [|? ? NI N']; subst.
      destruct (f r); [|exact (IH N')]. cbn [map]. constructor; [|exact (IH N')]. intros I. apply NI. apply in_map_iff in I. destruct I as (x & <- & I). apply filter_In in I. apply in_map, (proj1 I).
    - intros r. rewrite filter_In. pose proof (exists_spec d (r_path r)) as X. tauto.
  Qed.
  (** ** C78: created files are accounted for *)
  Theorem C78_accounted_partial name n j d : In (join dir name) (paths (rows d)) -> alookup (join dir name) (files d) = Some n ->
    exists d', update_entry dir (join dir name) j d = Ok d' /\ files d' = files d /\
      (forall r, In r (rows d') -> r_path r = join dir name -> r_size r = Some (n_size n) /\ r_data r = Some j) /\ paths (rows d') = paths (rows d) /\
      (forall r, In r (rows d) -> r_path r <> join dir name -> In r (rows d')).
  Proof using.
    clear. intros P A. unfold update_entry. assert (IC : in_cache dir (join dir name) = true) by (unfold in_cache; apply prefix_iff; eexists; reflexivity). rewrite IC. cbn [negb]. rewrite A.
    eexists. split; [reflexivity|]. split; [reflexivity|]. split; [|split]; cbn [rows].
    - intros r I E. apply in_map_iff in I. destruct I as (x & <- & I). destruct (String.eqb_spec (r_path x) (join dir name)); [split; reflexivity|contradiction].
    - rewrite map_map. apply map_ext. intros r. destruct (String.eqb _ _); reflexivity.
    - intros r I N. apply in_map_iff. exists r. split; [|exact I]. destruct (String.eqb_spec (r_path r) (join dir name)); [contradiction|reflexivity].
  Qed.
End Props.

(** ** Concrete histories *)
Definition no_recent : string -> bool := fun _ => false.
Definition env0 (t : Z) : env := mkEnv t no_recent no_recent 0 100.
Fixpoint run (l : list (op (json := unit))) (d : disk unit) : disk unit := match l with [] => d | o :: r => run r (after tt "/c" o d) end.
Definition nd (s : Z) : node := mkNode s false.
(** Create three files, then trim: the least recently used goes. *)
Definition create (t : Z) (name : string) (s : Z) : list (op (json := unit)) := [ORegister t name "url" tt; OAppear name (nd s); OUpdate name tt].
Definition three : disk unit := run (create 1 "a" 40 ++ create 2 "b" 40 ++ create 3 "c" 40 ++ [ORegister 4 "a" "url" tt]) (mkDisk [] []).
Example C46_example : reachable tt "/c" three /\ map r_path (rows (run [OCheck (env0 5) (Some 100) None] three)) = ["/c/a"; "/c/c"].
Proof.
  split; [|vm_compute; reflexivity]. assert (S : forall l d, reachable tt "/c" d -> Forall (@possible unit) l -> reachable tt "/c" (run l d)).
  { induction l as [|o l IH]; intros d R F; [exact R|]. inversion F; subst. cbn [run]. apply IH; [constructor; assumption|assumption]. }
  unfold three. apply S; [constructor; [constructor|intros p n []]|]. cbn. repeat constructor; cbn; try lia; intros H; discriminate H.
Qed.
Example C45_example : nothing_new "/c" (env0 5) three /\ total_size three = 120 /\ total_size (run [OCheck (env0 5) (Some 100) None] three) = 80.
Proof.
  split; [|vm_compute; auto]. split.
  - intros p I _. right. left. vm_compute in I. vm_compute. tauto.
  - intros r I E. vm_compute in I. repeat (destruct I as [<-|I]; [discriminate E|]). destruct I.
Qed.
(** The excess is computed before orphans are looked for: 120 bytes are registered and the maximum
    is 100, so that 20 are to be freed; an orphan of 50 is then found, one entry of 40 goes, and 130 bytes
    stay although two of the entries left could go. *)
Theorem C45_orphans_refuted : let d := run [OAppear "x" (nd 50)] three in
  reachable tt "/c" d /\ total_size d = 120 /\ exists h d', housekeeping tt "/c" (env0 5) false d = Ok h /\ check_cache_size tt "/c" (env0 5) (Some 100) None d = Ok d' /\ total_size d' = 130 /\
    List.length (filter (fun r => match r_size r with Some _ => r_created r <? latest_date 5 h | None => false end) (rows d')) = 2%nat.
Proof.
  split; [unfold three|]; [|split; [vm_compute; reflexivity|]].
  - apply (r_step tt "/c" (OAppear "x" (nd 50))); [apply C46_example|cbn; lia].
  - do 2 eexists. split; [vm_compute; reflexivity|]. split; [vm_compute; reflexivity|]. split; vm_compute; reflexivity.
Qed.
(** The newest entry goes when it is a child: here it is a file found beside the entry of a path
    that begins alike, and goes with it. *)
Theorem C46_child_refuted : let d := run (create 1 "a" 40 ++ [OAppear "a.x" (nd 7); OHousekeeping (env0 5) false]) (mkDisk [] []) in
  reachable tt "/c" d /\ map (fun r => (r_path r, r_created r)) (rows d) = [("/c/a", 1); ("/c/a.x", 5)] /\
  exists d' r, decache "/c" (env0 6) (latest_date 6 d) 10 d = Ok (d', r) /\ rows d' = [] /\ files d' = [].
Proof.
  split; [|split; [vm_compute; reflexivity|]].
  - assert (S : forall l d, reachable tt "/c" d -> Forall (@possible unit) l -> reachable tt "/c" (run l d)).
    { induction l as [|o l IH]; intros d R F; [exact R|]. inversion F; subst. cbn [run]. apply IH; [constructor; assumption|assumption]. }
    apply S; [constructor; [constructor|intros p n []]|]. cbn. repeat constructor; cbn; try lia; intros H; discriminate H.
  - do 2 eexists. split; [vm_compute; reflexivity|]. split; reflexivity.
Qed.
(** Files that cannot be deleted are forgotten, and counted as freed. *)
Theorem C45_undeletable_refuted : exists d', check_cache_size tt "/c" (mkEnv 5 no_recent (fun _ => true) 0 100) (Some 100) None three = Ok d' /\
  total_size d' = 80 /\ List.length (files d') = 3%nat.
Proof. eexists. split; [vm_compute; reflexivity|]. split; reflexivity. Qed.
(** purge() keeps empty files, and everything if all are empty; it forgets downloads in progress. *)
Theorem C47_empty_refuted : let d := run (create 1 "a" 0 ++ create 2 "b" 0) (mkDisk [] []) in
  exists d', purge tt "/c" (env0 5) 9 d = Ok d' /\ rows d' = rows d.
Proof. eexists. split; vm_compute; reflexivity. Qed.
Theorem C78_purged_refuted : let d := run [ORegister 1 "a" "url" tt; OPurge (env0 5) 9; OAppear "a" (nd 40); OUpdate "a" tt] (mkDisk [] []) in
  rows d = [] /\ akeys (files d) = ["/c/a"].
Proof. vm_compute. auto. Qed.
Example C47_example : exists d', purge tt "/c" (env0 5) 9 three = Ok d' /\ rows d' = [] /\ files d' = [].
Proof. eexists. split; [vm_compute; reflexivity|]. split; reflexivity. Qed.
Example C47_matching_example : exists d', purge_matching "/c" (env0 5) (fun r => String.eqb (r_path r) "/c/b") three = Ok d' /\ map r_path (rows d') = ["/c/a"; "/c/c"].
Proof. eexists. split; [vm_compute; reflexivity|]. reflexivity. Qed.
(** A family: the temporary file of a failed download goes with its entry. *)
Example C48_example : let d := run [ORegister 1 "a" "url" tt; OAppear "a.tmp" (nd 7); OHousekeeping (env0 2) false; OAppear "a" (nd 9); OUpdate "a" tt] (mkDisk [] []) in
  map r_parent (rows d) = [None; Some "/c/a"] /\ files (run [OPurgeMatching (env0 3) (fun r => String.eqb (r_path r) "/c/a")] d) = [].
Proof. vm_compute. auto. Qed.
Example C54_example : summary (fun _ => true) three = Ok (3%nat, 120) /\ summary (fun _ => true) (run [ORegister 9 "z" "url" tt] three) = Raise TypeError.
Proof. vm_compute. auto. Qed.
(** The statistics count a file that is gone, which is not listed. *)
Theorem C104_refuted : let d := run [OVanish "/c/b"] three in
  reachable tt "/c" d /\ map r_path (cache_entries d) = ["/c/a"; "/c/c"] /\ summary (fun _ => true) d = Ok (3%nat, 120) /\ cache_size d = 120.
Proof. split; [apply (r_step tt "/c" (OVanish "/c/b")); [apply C46_example|exact I]|vm_compute; auto]. Qed.

Print Assumptions C104_entries.
Print Assumptions C104_refuted.
Print Assumptions C77_never_fails.
Print Assumptions C77_tidy.
Print Assumptions C48_inside.
Print Assumptions C46_protected.
Print Assumptions C46_order.
Print Assumptions C46_newest.
Print Assumptions C46_child_refuted.
Print Assumptions C45_bound_partial.
Print Assumptions C45_no_orphans_partial.
Print Assumptions C45_orphans_refuted.
Print Assumptions C45_undeletable_refuted.
Print Assumptions C47_matching.
Print Assumptions C47_all_partial.
Print Assumptions C47_empty_refuted.
Print Assumptions C54_summary_partial.
Print Assumptions C54_refuted.
Print Assumptions C78_accounted_partial.
Print Assumptions C78_purged_refuted.
