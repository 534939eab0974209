(** C79-C81: housekeeping, registration and the limit on the use of the disk. *)
From Verif Require Import PyBase ListLemmas Disk DiskSpec DiskProofs DiskProofs2 Props_Disk.
Set Default Proof Using "Type".
Local Open Scope string_scope.
Local Open Scope list_scope.
Local Open Scope Z_scope.

Section Props.
  Context {json : Type}.
  Variable jnull : json.
  Notation row := (row json).
  Notation disk := (disk json).
  Notation paths l := (map (@r_path json) l).
  Variable dir : string.
  Implicit Types d h : disk.

  (** A file nobody registered: in the directory, not the database, not modified lately. *)
  Definition stray (e : env) (d : disk) (p : string) : Prop :=
    exists n, p = join dir n /\ has_slash n = false /\ n <> "" /\ n <> CACHE_DB /\ recent e p = false /\ In p (akeys (files d)) /\ ~ In p (paths (rows d)).

  Lemma orphans_full e names : forall d, tidy dir d -> Forall (fun n => has_slash n = false /\ n <> "") names ->
    exists d' new, fold_left (register_orphan jnull dir e) names (Ok d) = Ok d' /\ tidy dir d' /\ files d' = files d /\ rows d' = rows d ++ new /\
      (forall r, In r new -> exists n q, In n names /\ n <> CACHE_DB /\ recent e (join dir n) = false /\ ~ In (join dir n) (paths (rows d)) /\ r = new_row (join dir n) "orphans" jnull (now e) q /\
         forall x, q = Some x -> extends (join dir n) x /\ exists y, In y (rows d ++ new) /\ r_path y = x /\ r_parent y = None) /\
      (forall n, In n names -> n <> CACHE_DB -> recent e (join dir n) = false -> In (join dir n) (paths (rows d'))).
  Proof using.
    induction names as [|n names IH]; intros d T F; cbn [fold_left].
    - exists d, []. rewrite app_nil_r. repeat (split; [reflexivity||assumption|]). split; [intros r []|intros n []].
    - inversion F as [|? ? [F1 F2] F3]; subst. unfold register_orphan at 2. cbn [bind].
      assert (NOP : n = CACHE_DB \/ recent e (join dir n) = true \/ In (join dir n) (paths (rows d)) -> exists d' new, fold_left (register_orphan jnull dir e) names (Ok d) = Ok d' /\ tidy dir d' /\ files d' = files d /\ rows d' = rows d ++ new /\
        (forall r, In r new -> exists n0 q, In n0 (n :: names) /\ n0 <> CACHE_DB /\ recent e (join dir n0) = false /\ ~ In (join dir n0) (paths (rows d)) /\ r = new_row (join dir n0) "orphans" jnull (now e) q /\
           forall x, q = Some x -> extends (join dir n0) x /\ exists y, In y (rows d ++ new) /\ r_path y = x /\ r_parent y = None) /\
        (forall n0, In n0 (n :: names) -> n0 <> CACHE_DB -> recent e (join dir n0) = false -> In (join dir n0) (paths (rows d')))).
      { intros W. destruct (IH d T F3) as (d' & new & A & B & C & D & E & G). exists d', new. repeat (split; [assumption|]). split.
        - intros r I. destruct (E r I) as (n0 & q & X1 & X2). exists n0, q. split; [right; exact X1|exact X2].
        - intros n0 [->|I] X Y; [|apply G; assumption]. destruct W as [W|[W|W]]; [contradiction|congruence|]. rewrite D, map_app. apply in_or_app. auto. }
      destruct (String.eqb_spec n CACHE_DB) as [Q|Q]; [apply NOP; auto|]. destruct (find_row d (join dir n)) as [r|] eqn:FR.
      { apply NOP. right. right. unfold find_row in FR. apply find_some in FR. destruct FR as [I EQ]. apply String.eqb_eq in EQ. rewrite <- EQ. apply in_map, I. }
      destruct (recent e (join dir n)) eqn:RC; [apply NOP; auto|]. clear NOP.
      destruct (register_tidy dir (now e) (join dir n) "orphans" jnull (find_parent d (join dir n)) d T (join_inside dir n F1 F2)) as (d1 & R & T1 & FF & RN & _); [intros x X; exact (parent_extends _ _ _ FR X)|].
      rewrite R. destruct (IH d1 T1 F3) as (d' & new & A & B & C & D & E & G). exists d', (new_row (join dir n) "orphans" jnull (now e) (find_parent d (join dir n)) :: new).
      split; [exact A|]. split; [exact B|]. split; [congruence|]. split; [rewrite D, (RN FR), <- app_assoc; reflexivity|]. split.
      + intros r [<-|I].
        * exists n, (find_parent d (join dir n)). split; [left; reflexivity|]. split; [exact Q|]. split; [exact RC|]. split; [apply find_row_None, FR|]. split; [reflexivity|].
          intros x X. split; [exact (parent_extends _ _ _ FR X)|]. unfold find_parent in X. destruct (find _ (rows d)) as [y|] eqn:FY; [|discriminate X]. inversion X; subst x. apply find_some in FY. destruct FY as [Y1 Y2].
          exists y. split; [apply in_or_app; auto|]. split; [reflexivity|]. apply andb_prop in Y2. destruct Y2 as [Y2 _]. apply andb_prop in Y2. destruct Y2 as [Y2 _]. unfold no_parent in Y2. destruct (r_parent y); [discriminate Y2|reflexivity].
        * destruct (E r I) as (n0 & q & X1 & X2 & X3 & X4 & X5 & X6). exists n0, q. split; [right; exact X1|]. split; [exact X2|]. split; [exact X3|]. split; [|split; [exact X5|]].
          -- intros K. apply X4. rewrite (RN FR), map_app. apply in_or_app. auto.
          -- intros x X. destruct (X6 x X) as (Z1 & y & Z2 & Z3). split; [exact Z1|]. exists y. split; [|exact Z3]. rewrite (RN FR), <- app_assoc in Z2. exact Z2.
      + intros n0 [<-|I] X Y; [|apply G; assumption]. rewrite D, (RN FR), map_app, map_app. apply in_or_app. left. apply in_or_app. right. left. reflexivity.
  Qed.
  Lemma str_app_assoc a b c : ((a ++ b) ++ c)%string = (a ++ (b ++ c))%string.
  Proof using. clear. induction a as [|x a IH]; cbn; [reflexivity|]. rewrite IH. reflexivity. Qed.
  Lemma listdir_In d n : has_slash n = false -> n <> "" -> In (join dir n) (akeys (files d)) -> In n (listdir dir d).
  Proof using.
    intros S N I. rewrite akeys_map in I. apply in_map_iff in I. destruct I as ([k nd] & K & I). cbn in K. subst k. unfold listdir. apply in_flat_map. exists (join dir n, nd). split; [exact I|]. cbn [fst].
    unfold strip. assert (P : prefix (dir ++ "/") (join dir n) = true) by (apply prefix_iff; exists n; unfold join; rewrite str_app_assoc; reflexivity). rewrite P.
    assert (L : (String.length (dir ++ "/") = String.length dir + 1)%nat) by (rewrite str_len_app; reflexivity). rewrite <- L.
    assert (J : join dir n = ((dir ++ "/") ++ n)%string) by (unfold join; rewrite str_app_assoc; reflexivity). rewrite J.
    assert (LL : (String.length ((dir ++ "/") ++ n) - String.length (dir ++ "/") = String.length n)%nat) by (rewrite str_len_app; lia). rewrite LL, substring_after, S.
    cbn [orb]. destruct (String.eqb_spec n ""); [contradiction|]. left. reflexivity.
  Qed.
  Lemma listdir_inv d n : In n (listdir dir d) -> In (join dir n) (akeys (files d)) /\ has_slash n = false /\ n <> "".
  Proof using.
    intros I. apply in_flat_map in I. destruct I as ([p nd] & I & J). cbn [fst] in J. destruct (strip dir p) as [m|] eqn:S; [|destruct J]. destruct J as [<-|[]].
    apply strip_join in S. destruct S as (-> & S1 & S2). split; [eapply In_akeys; exact I|auto].
  Qed.

  (** ** C79: housekeeping *)
  (** Every stray file gets an entry and nothing else does; the new entries are orphans created now;
      entries with a size are as before; entries without get the size of their file, and without
      file they stay, or go when cleaning. *)
  Theorem C79_housekeeping e clean d : reachable jnull dir d -> exists d', housekeeping jnull dir e clean d = Ok d' /\ files d' = files d /\
    (forall p, In p (paths (rows d')) <-> stray e d p \/ exists r, In r (rows d) /\ r_path r = p /\ (r_size r <> None \/ clean = false \/ In p (akeys (files d)))) /\
    (forall r, In r (rows d) -> r_size r <> None -> In r (rows d')) /\
    (forall r, In r (rows d) -> r_size r = None -> forall n, alookup (r_path r) (files d) = Some n -> In (set_size (n_size n) (n_dir n) r) (rows d')) /\
    (forall r', In r' (rows d') -> ~ In (r_path r') (paths (rows d)) -> r_owner r' = "orphans" /\ r_created r' = now e /\
       (exists n, alookup (r_path r') (files d) = Some n /\ r_size r' = Some (n_size n)) /\
       forall q, r_parent r' = Some q -> extends (r_path r') q /\ ((exists y, In y (rows d) /\ r_path y = q /\ r_parent y = None) \/ exists y, In y (rows d') /\ r_path y = q /\ r_parent y = None)).
  Proof using.
    intros R. pose proof (reach_tidy jnull dir d R) as T. unfold housekeeping. destruct (orphans_full e (listdir dir d) d T (listdir_names dir d)) as (d1 & new & E & T1 & F & RW & NW & ALL). rewrite E. cbn [bind].
    exists (update_cache clean d1). split; [reflexivity|]. split; [exact F|].
    assert (NS : forall r, In r new -> stray e d (r_path r) /\ r_size r = None /\ r_owner r = "orphans" /\ r_created r = now e).
    { intros r I. destruct (NW r I) as (n & q & A & B & C & D & -> & _). cbn. destruct (listdir_inv d n A) as (X & Y & Z0). split; [|auto]. exists n. auto 10. }
    assert (LOOK : forall p, In p (akeys (files d)) -> exists nd, alookup p (files d) = Some nd).
    { intros p I. destruct (alookup p (files d)) as [x|] eqn:A; [eauto|]. apply alookup_None in A. contradiction. }
    assert (MEM : forall x y, In x (rows d1) -> In y (update_row d1 clean x) -> In y (rows (update_cache clean d1))) by (intros x y I J; apply in_flat_map; eauto).
    split; [|split; [|split]].
    - intros p. split.
      + intros I. apply in_map_iff in I. destruct I as (r & <- & I). apply in_flat_map in I. destruct I as (x & I & J). rewrite RW in I. apply in_app_or in I.
        assert (PX : r_path r = r_path x) by (apply update_row_cases in J; destruct J as [->|(_ & n & _ & ->)]; reflexivity). rewrite PX. destruct I as [I|I]; [right|left; apply (NS x I)].
        exists x. split; [exact I|]. split; [reflexivity|]. unfold update_row, is_null in J. destruct (r_size x) eqn:SX; [left; discriminate|right]. rewrite F in J.
        destruct (alookup (r_path x) (files d)) as [nd|] eqn:A; [right; eapply alookup_Some_key; exact A|]. destruct clean; [destruct J|left; reflexivity].
      + intros [S|(r & I & <- & H)].
        * destruct S as (n & -> & A & B & C & D & G & _). assert (K : In (join dir n) (paths (rows d1))) by (apply ALL; auto using listdir_In).
          apply in_map_iff in K. destruct K as (x & K & I). destruct (LOOK _ G) as [nd L]. apply in_map_iff. unfold update_row in MEM. pose proof (MEM x) as M. rewrite K, F, L in M.
          destruct (is_null x) eqn:NX; [exists (set_size (n_size nd) (n_dir nd) x); split; [exact K|apply M; [exact I|left; reflexivity]]|exists x; split; [exact K|apply M; [exact I|left; reflexivity]]].
        * assert (I1 : In r (rows d1)) by (rewrite RW; apply in_or_app; auto). pose proof (MEM r) as M. unfold update_row, is_null in M. apply in_map_iff. destruct (r_size r) eqn:SR; [exists r; split; [reflexivity|apply M; [exact I1|left; reflexivity]]|].
          rewrite F in M. destruct (alookup (r_path r) (files d)) as [nd|] eqn:A; [exists (set_size (n_size nd) (n_dir nd) r); split; [reflexivity|apply M; [exact I1|left; reflexivity]]|].
          destruct H as [H|[H|H]]; [contradiction|subst clean; exists r; split; [reflexivity|apply M; [exact I1|left; reflexivity]]|]. apply alookup_None in A. contradiction.
    - intros r I S. apply (MEM r); [rewrite RW; apply in_or_app; auto|]. unfold update_row, is_null. destruct (r_size r); [left; reflexivity|contradiction].
    - intros r I S n A. apply (MEM r); [rewrite RW; apply in_or_app; auto|]. unfold update_row, is_null. rewrite S, F, A. left. reflexivity.
    - intros r' I N. apply in_flat_map in I. destruct I as (x & I & J). pose proof (update_row_cases d1 clean x r' J) as CS.
      assert (PX : r_path r' = r_path x) by (destruct CS as [->|(_ & n & _ & ->)]; reflexivity). rewrite PX in N. rewrite RW in I. apply in_app_or in I. destruct I as [I|I]; [destruct N; apply in_map, I|].
      destruct (NS x I) as ((n & PN & _ & _ & _ & _ & G & _) & S & O & C). destruct (LOOK _ G) as [nd L]. unfold update_row, is_null in J. rewrite S, F, L in J. destruct J as [<-|[]]. cbn. split; [exact O|]. split; [exact C|]. split; [exists nd; auto|].
      intros q Q. destruct (NW x I) as (n1 & q1 & _ & _ & _ & _ & EX & PA). rewrite EX in Q. cbn in Q. destruct (PA q Q) as (P1 & y & P2 & P3 & P4). rewrite EX. cbn. split; [exact P1|]. apply in_app_or in P2. destruct P2 as [P2|P2]; [left; eauto|right].
      destruct (NS y P2) as ((n2 & _ & _ & _ & _ & _ & G2 & _) & S2 & _). destruct (LOOK _ G2) as [nd2 L2]. exists (set_size (n_size nd2) (n_dir nd2) y). split; [|auto].
      apply (MEM y); [rewrite RW; apply in_or_app; auto|]. unfold update_row, is_null. rewrite S2, F, L2. left. reflexivity.
  Qed.

  (** ** C80: registration *)
  Theorem C80_new t name owner args d : has_slash name = false -> name <> "" -> ~ In (join dir name) (paths (rows d)) ->
    exists r, register dir t (join dir name) owner args None d = Ok (mkDisk (rows d ++ [r]) (files d)) /\
      r_path r = join dir name /\ r_owner r = owner /\ r_args r = args /\ r_created r = t /\ r_access r = t /\ r_accesses r = 1 /\ r_size r = None /\ r_parent r = None.
  Proof using.
    intros S N I. unfold register. rewrite (inside_in_cache dir _ (join_inside dir name S N)). cbn [negb]. destruct (find_row d (join dir name)) as [x|] eqn:F.
    - unfold find_row in F. apply find_some in F. destruct F as [J E]. apply String.eqb_eq in E. destruct I. rewrite <- E. apply in_map, J.
    - eexists. split; [reflexivity|]. cbn. auto 10.
  Qed.
  (** Again: the creation date, the owner, the arguments and the size stay; time and count of the access do not. *)
  Theorem C80_again t name owner args d : reachable jnull dir d -> has_slash name = false -> name <> "" -> In (join dir name) (paths (rows d)) ->
    exists d', register dir t (join dir name) owner args None d = Ok d' /\ files d' = files d /\ paths (rows d') = paths (rows d) /\
      (forall r, In r (rows d) -> r_path r <> join dir name -> In r (rows d')) /\
      (forall r, In r (rows d) -> r_path r = join dir name -> exists r', In r' (rows d') /\ r_path r' = r_path r /\ r_access r' = t /\ r_accesses r' = r_accesses r + 1 /\
         r_created r' = r_created r /\ r_owner r' = r_owner r /\ r_args r' = r_args r /\ r_size r' = r_size r /\ r_kind r' = r_kind r /\ r_data r' = r_data r /\ r_parent r' = r_parent r).
  Proof using.
    intros R S N I. unfold register. rewrite (inside_in_cache dir _ (join_inside dir name S N)). cbn [negb]. destruct (find_row d (join dir name)) as [x|] eqn:F; [|apply find_row_None in F; contradiction].
    eexists. split; [reflexivity|]. split; [reflexivity|]. cbn [rows]. split; [|split].
    - rewrite map_map. apply map_ext. intros r. destruct (String.eqb _ _); reflexivity.
    - intros r J D. apply in_map_iff. exists r. split; [|exact J]. destruct (String.eqb_spec (r_path r) (join dir name)); [contradiction|reflexivity].
    - intros r J D. exists (touch t r). split; [apply in_map_iff; exists r; split; [rewrite D, String.eqb_refl; reflexivity|exact J]|]. cbn. auto 12.
  Qed.
  (** An entry just used outlives the others: it goes only after all older complete entries that are no orphans. *)
  Theorem C80_recent_last e latest bytes d d' res r x : reachable jnull dir d -> 0 < bytes -> decache dir e latest bytes d = Ok (d', res) ->
    In r (rows d) -> r_parent r = None -> r_owner r <> "orphans" -> ~ In r (rows d') -> In x (rows d') -> may_go latest x -> r_owner x <> "orphans" /\ r_access r <= r_access x.
  Proof using.
    intros R B E I P O NI X M. pose proof (reach_tidy jnull dir d R) as T. destruct (C46_order jnull dir e latest bytes d R B) as (d1 & r1 & ev & E1 & W & EV & ORD & _). rewrite E in E1. inversion E1; subst d1 r1.
    destruct (proj1 (w_gone _ _ _ _ W r I) NI) as (p & Q & BL). destruct (below_inv d p r (t_rows _ _ T) I BL) as [Y|(q & Y & _)]; [|congruence].
    apply in_map_iff in Q. destruct Q as (y & Q1 & Q2). destruct (EV y Q2) as [A _]. assert (y = r) by (apply (row_unique d); [apply T|exact A|exact I|congruence]). subst y. exact (ORD r x Q2 O X M).
  Qed.

  (** ** C81: the limit on the use of the disk *)
  Theorem C81_usage e u d h d' : reachable jnull dir d -> unlocked e -> u < percent e -> 0 < disk_total e ->
    housekeeping jnull dir e false d = Ok h -> check_cache_size jnull dir e None (Some u) d = Ok d' ->
    (percent e - u) * disk_total e <= 100 * freed h d' \/
    (protected_since (latest_date (now e) h) h /\ forall r, In r (rows d') -> in_progress r \/ latest_date (now e) h <= r_created r).
  Proof using.
    intros R U L D H E. pose proof (reach_tidy jnull dir d R) as T. destruct (housekeeping_spec jnull dir e false d T) as (h' & H' & TH & F & SZ & _). rewrite H in H'. inversion H'; subst h'. clear H'.
    unfold check_cache_size in E. cbn [bind] in E. rewrite Z.gtb_ltb in E. destruct (Z.ltb_spec u (percent e)) as [_|G]; [|lia]. rewrite H in E. cbn [bind] in E. unfold delta in E.
    assert (DM : (percent e - u) * disk_total e <= 100 * (((percent e - u) * disk_total e + 99) / 100)) by (pose proof (Z.div_mod ((percent e - u) * disk_total e + 99) 100 ltac:(lia)); pose proof (Z.mod_pos_bound ((percent e - u) * disk_total e + 99) 100 ltac:(lia)); lia).
    assert (PO : 0 < (percent e - u) * disk_total e) by (apply Z.mul_pos_pos; lia).
    destruct (decache_spec dir e (latest_date (now e) h) (((percent e - u) * disk_total e + 99) / 100) h TH ltac:(lia)) as (d1 & r1 & E1 & [_ EN] & _). rewrite E1 in E. inversion E; subst d1. cbn [fst] in *.
    destruct (EN U) as [G|G]; [left; lia|right]. split; [apply C46_protected|]. intros r I. specialize (G r I). unfold evictable in G. destruct (is_null r) eqn:NR; [left; apply null_spec, NR|right]. apply Z.ltb_ge in G. exact G.
  Qed.
  Theorem C81_quiet e max usage d : (forall m, max = Some m -> total_size d <= m) -> (forall u, usage = Some u -> percent e <= u) -> check_cache_size jnull dir e max usage d = Ok d.
  Proof using.
    intros M U. unfold check_cache_size. assert (S1 : match max with Some m => if cache_size d >? m then h <- housekeeping jnull dir e false d ;; r <- decache dir e (latest_date (now e) h) (cache_size d - m) h ;; Ok (fst r) else Ok d | None => Ok d end = Ok d).
    { destruct max as [m|]; [|reflexivity]. specialize (M m eq_refl). rewrite Z.gtb_ltb, size_eq. destruct (Z.ltb_spec m (total_size d)); [lia|reflexivity]. }
    rewrite S1. cbn [bind]. destruct usage as [u|]; [|reflexivity]. specialize (U u eq_refl). rewrite Z.gtb_ltb. destruct (Z.ltb_spec u (percent e)); [lia|reflexivity].
  Qed.
End Props.

Example C79_example : let d := run [OAppear "x" (nd 50); OAppear "a.y" (nd 3); ORegister 6 "w" "url" tt] three in
  stray "/c" (env0 5) d "/c/x" /\ exists d', housekeeping tt "/c" (env0 5) true d = Ok d' /\
  map (fun r => (r_path r, r_owner r, r_size r, r_parent r)) (rows d') =
    [("/c/a", "url", Some 40, None); ("/c/b", "url", Some 40, None); ("/c/c", "url", Some 40, None); ("/c/x", "orphans", Some 50, None); ("/c/a.y", "orphans", Some 3, Some "/c/a")].
Proof.
  split.
  - exists "x". split; [reflexivity|]. split; [reflexivity|]. split; [discriminate|]. split; [discriminate|]. split; [reflexivity|]. vm_compute. split; [tauto|]. intros H. repeat (destruct H as [H|H]; [discriminate H|]). exact H.
  - eexists. split; vm_compute; reflexivity.
Qed.
Example C80_example : map (fun r => (r_path r, r_created r, r_access r, r_accesses r)) (rows three) = [("/c/a", 1, 4, 2); ("/c/b", 2, 2, 1); ("/c/c", 3, 3, 1)].
Proof. vm_compute. reflexivity. Qed.
(** The disk is 95 percent full, 90 are allowed, it has 1000 bytes: 50 are to be freed, the two older entries go. *)
Example C81_example : exists d', check_cache_size tt "/c" (mkEnv 5 no_recent no_recent 95 1000) None (Some 90) three = Ok d' /\ freed three d' = 80 /\ map r_path (rows d') = ["/c/c"].
Proof. eexists. split; [vm_compute; reflexivity|]. split; vm_compute; reflexivity. Qed.

Print Assumptions C79_housekeeping.
Print Assumptions C80_new.
Print Assumptions C80_again.
Print Assumptions C80_recent_last.
Print Assumptions C81_usage.
Print Assumptions C81_quiet.
