(** Proofs about the disk cache: trimming, purging, housekeeping, reachable states. *)
From Verif Require Import PyBase ListLemmas Disk DiskSpec DiskProofs.
From Coq Require Import Permutation Sorted.
Set Default Proof Using "Type".
Local Open Scope string_scope.
Local Open Scope list_scope.
Local Open Scope Z_scope.

Section DiskProofs2.
  Context {json : Type}.
  Variable jnull : json.
  Notation row := (row json).
  Notation disk := (disk json).
  Implicit Types d : disk.
  Notation paths l := (map (@r_path json) l).
  Variable dir : string.

  Definition unlocked (e : env) : Prop := forall p, locked e p = false.
  Lemma row_unique d r r' : NoDup (paths (rows d)) -> In r (rows d) -> In r' (rows d) -> r_path r = r_path r' -> r = r'.
  Proof using.
    clear. intros N I J E. induction (rows d) as [|y l IH]; [destruct I|]. cbn in N. inversion N as [|? ? N1 N2]; subst.
    destruct I as [<-|I], J as [<-|J]; auto; exfalso; apply N1; [rewrite E|rewrite <- E]; apply in_map; assumption.
  Qed.
  Lemma depth_bound d r p : In r (rows d) -> (String.length (r_path r) < depth d + String.length p)%nat.
  Proof using.
    clear. intros I. unfold depth. assert (L : (String.length (r_path r) <= fold_right Nat.max O (map (fun r => String.length (r_path r)) (rows d)))%nat); [|lia].
    induction (rows d) as [|x l IH]; [destruct I|]. cbn. destruct I as [<-|I]; [lia|]. specialize (IH I). lia.
  Qed.
  Lemma visit e d0 done d r : tidy dir d0 -> cut (locked e) d0 done d -> In r (rows d0) ->
    exists d' t, delete_entry dir (depth d) e d (r_path r) (size_of r) = Ok (d', t) /\ cut (locked e) d [r_path r] d' /\ cut (locked e) d0 (done ++ [r_path r]) d' /\
      (unlocked e -> t = freed d d').
  Proof using.
    intros T C I. pose proof (cut_tidy dir _ _ _ _ C T) as T1.
    destruct (delete_entry_spec dir e (depth d) d (r_path r) (size_of r) T1 (t_inside _ _ T _ I) (fun x J => depth_bound d x (r_path r) J)) as (d' & t & E & C1 & F & G); [unfold depth; lia|].
    exists d', t. split; [exact E|]. split; [exact C1|]. split; [exact (cut_trans _ _ _ _ _ _ C C1)|]. intros U.
    destruct (in_dec string_dec (r_path r) (paths (rows d))) as [J|J].
    - apply F. apply in_map_iff in J. destruct J as (r' & P & J). assert (r' = r) by (apply (row_unique d0); [apply T|apply (cut_incl _ _ _ _ C), J|exact I|exact P]). subst r'. exists r. auto.
    - destruct G as [-> ->]; [exact J|..].
      + intros x X P. destruct (c_parent _ _ _ _ C x _ X P) as [_ Q]. apply J, Q, in_map, I.
      + apply (c_removed _ _ _ _ C); [|apply U]. right. exists r. split; [exact I|]. split; [reflexivity|]. intros K. apply J, in_map, K.
      + symmetry. apply freed_same.
  Qed.
  Lemma until_spec live e bytes d0 : tidy dir d0 -> forall l done d total,
    (forall r, In r (done ++ l) -> In r (rows d0)) -> cut (locked e) d0 (paths done) d -> (unlocked e -> total = freed d0 d) -> total < bytes ->
    exists d' t b l1 l2, delete_until dir live e bytes l d total = Ok (d', t, b) /\ l = l1 ++ l2 /\ cut (locked e) d0 (paths (done ++ l1)) d' /\ (unlocked e -> t = freed d0 d') /\
      (if (b : bool) then bytes <= t /\ (exists l0 x d'', l1 = l0 ++ [x] /\ cut (locked e) d0 (paths (done ++ l0)) d'' /\ (unlocked e -> freed d0 d'' < bytes)) else l2 = [] /\ t < bytes).
  Proof using.
    intros T. induction l as [|r l IH]; intros done d total S C F L; cbn [delete_until].
    - exists d, total, false, [], []. split; [reflexivity|]. split; [reflexivity|]. split; [rewrite app_nil_r; exact C|]. split; [exact F|]. split; [reflexivity|exact L].
    - assert (I0 : In r (rows d0)) by (apply S, in_or_app; right; left; reflexivity).
      assert (S' : forall x, In x ((done ++ [r]) ++ l) -> In x (rows d0)) by (intros x; rewrite <- app_assoc; apply S).
      destruct (if live then find_row d (r_path r) else Some r) as [r'|] eqn:V.
      + destruct (visit e d0 _ d r T C I0) as (d1 & t & E & C1 & C01 & FR). rewrite E. cbn [bind fst snd].
        assert (F1 : unlocked e -> total + t = freed d0 d1) by (intros U; rewrite (freed_trans _ _ _ _ _ _ (t_rows _ _ T) C C1), <- (F U), (FR U); reflexivity).
        assert (C01' : cut (locked e) d0 (paths (done ++ [r])) d1) by (rewrite map_app; exact C01).
        destruct (Z.leb_spec bytes (total + t)) as [B|B].
        * exists d1, (total + t), true, [r], l. split; [reflexivity|]. split; [reflexivity|]. split; [exact C01'|]. split; [exact F1|]. split; [exact B|].
          exists [], r, d. split; [reflexivity|]. rewrite app_nil_r. split; [exact C|]. intros U. rewrite <- (F U). exact L.
        * destruct (IH (done ++ [r]) d1 (total + t) S' C01' F1 B) as (d' & t' & b & l1 & l2 & R & EL & C' & F' & X). exists d', t', b, (r :: l1), l2.
          split; [exact R|]. split; [cbn; congruence|]. rewrite <- app_assoc in C'. split; [exact C'|]. split; [exact F'|]. destruct b; [|exact X].
          destruct X as (X1 & l0 & x & d'' & X2 & X3 & X4). split; [exact X1|]. exists (r :: l0), x, d''. split; [cbn; congruence|]. rewrite <- app_assoc in X3. auto.
      + destruct live; [|discriminate V].
        assert (NI : ~ In (r_path r) (paths (rows d))).
        { intros J. apply in_map_iff in J. destruct J as (x & P & J). unfold find_row in V. pose proof (find_none _ _ V x J) as Q. cbn in Q. apply String.eqb_neq in Q. congruence. }
        assert (C1 : cut (locked e) d0 (paths (done ++ [r])) d).
        { rewrite map_app. cbn [map]. split.
          - apply C.
          - intros x I N. destruct (c_gone _ _ _ _ C x I N) as (p & P & B). exists p. split; [apply in_or_app; auto|exact B].
          - intros x I J. apply in_app_or in J. destruct J as [J|[J|[]]]; [exact (c_left _ _ _ _ C x I J)|]. apply NI. rewrite J. apply in_map, I.
          - intros x q I E. destruct (c_parent _ _ _ _ C x q I E) as [A B]. split; [|exact B]. intros J. apply in_app_or in J. destruct J as [J|[J|[]]]; [exact (A J)|]. apply NI. rewrite J. apply B. rewrite <- J. apply in_map, I0.
          - apply C.
          - intros x I N. destruct (c_deleted _ _ _ _ C x I N) as (K & p & P & B). split; [exact K|]. exists p. split; [apply in_or_app; auto|exact B].
          - intros x [H|H] K; [|apply (c_removed _ _ _ _ C); auto]. apply in_app_or in H. destruct H as [H|[H|[]]]; [apply (c_removed _ _ _ _ C); auto|].
            apply (c_removed _ _ _ _ C); [|exact K]. right. exists r. split; [exact I0|]. split; [exact H|]. intros J. apply NI, in_map, J. }
        destruct (IH (done ++ [r]) d total S' C1 F L) as (d' & t' & b & l1 & l2 & R & EL & C' & F' & X). exists d', t', b, (r :: l1), l2.
        split; [exact R|]. split; [cbn; congruence|]. rewrite <- app_assoc in C'. split; [exact C'|]. split; [exact F'|]. destruct b; [|exact X].
        destruct X as (X1 & l0 & x & d'' & X2 & X3 & X4). split; [exact X1|]. exists (r :: l0), x, d''. split; [cbn; congruence|]. rewrite <- app_assoc in X3. auto.
  Qed.

  (** ** Order of eviction *)
  Lemma insert_In (r : row) l x : In x (insert_by_access r l) <-> x = r \/ In x l.
  Proof using. clear. induction l as [|y l IH]; cbn; [intuition congruence|]. destruct (r_access r <=? r_access y); cbn; [intuition congruence|]. rewrite IH. intuition congruence. Qed.
  Lemma sort_In (l : list row) x : In x (sort_by_access l) <-> In x l.
  Proof using. clear. induction l as [|y l IH]; cbn [sort_by_access fold_right]; [tauto|]. fold (sort_by_access l). rewrite insert_In, IH. cbn. intuition congruence. Qed.
  Definition older (a b : row) : Prop := r_access a <= r_access b.
  Lemma insert_sorted (r : row) l : StronglySorted older l -> StronglySorted older (insert_by_access r l).
  Proof using.
    clear. induction l as [|y l IH]; cbn; intros S; [repeat constructor|]. inversion S as [|? ? S1 S2]; subst. destruct (Z.leb_spec (r_access r) (r_access y)).
    - constructor; [exact S|]. constructor; [exact H|]. rewrite Forall_forall in *. intros x I. specialize (S2 x I). unfold older in *. lia.
    - constructor; [apply IH, S1|]. rewrite Forall_forall in *. intros x I. apply insert_In in I. destruct I as [->|I]; [unfold older; lia|apply S2, I].
  Qed.
  Lemma sort_sorted (l : list row) : StronglySorted older (sort_by_access l).
  Proof using. clear. induction l as [|y l IH]; cbn; [constructor|]. apply insert_sorted, IH. Qed.
  Lemma sorted_app (l1 l2 : list row) x y : StronglySorted older (l1 ++ l2) -> In x l1 -> In y l2 -> older x y.
  Proof using.
    clear. induction l1 as [|z l1 IH]; cbn; intros S I J; [destruct I|]. inversion S as [|? ? S1 S2]; subst. destruct I as [<-|I]; [|apply IH; assumption].
    rewrite Forall_forall in S2. apply S2, in_or_app. right. exact J.
  Qed.

  (** What trimming does. *)
  Record trimmed (e : env) (latest bytes : Z) (d d' : disk) : Prop := {
    tr_evicted : exists evicted,
      cut (locked e) d (paths evicted) d' /\
      (forall r, In r evicted -> In r (rows d) /\ evictable latest r = true) /\
      (forall r x, In r evicted -> is_orphan r = false -> In x (rows d') -> evictable latest x = true -> is_orphan x = false /\ r_access r <= r_access x) /\
      (unlocked e -> bytes <= freed d d' -> exists l0 x d'', evicted = l0 ++ [x] /\ cut (locked e) d (paths l0) d'' /\ freed d d'' < bytes);
    tr_enough : unlocked e -> bytes <= freed d d' \/ forall x, In x (rows d') -> evictable latest x = false }.
  Lemma decache_spec e latest bytes d : tidy dir d -> 0 < bytes -> exists d' r, decache dir e latest bytes d = Ok (d', r) /\ trimmed e latest bytes d d' /\
    (unlocked e -> match r with Some t => t = freed d d' /\ bytes <= t | None => freed d d' < bytes end).
  Proof using.
    intros T B. unfold decache. destruct (Z.leb_spec bytes 0); [lia|]. clear H.
    set (os := filter (fun r => evictable latest r && is_orphan r) (rows d)).
    destruct (until_spec true e bytes d T os [] d 0) as (d1 & t1 & b1 & l1 & l2 & E1 & L1 & C1 & F1 & X1).
    { intros r I. cbn in I. apply filter_In in I. tauto. }
    { apply cut_nil. } { intros _. symmetry. apply freed_same. } { exact B. }
    rewrite E1. cbn [bind]. cbn [app] in C1. destruct b1.
    - exists d1, (Some t1). split; [reflexivity|]. destruct X1 as (LE & l0 & x & d'' & EL & C0 & F0).
      assert (EV : forall r, In r l1 -> In r (rows d) /\ evictable latest r = true /\ is_orphan r = true).
      { intros r I. assert (J : In r os) by (rewrite L1; apply in_or_app; auto). apply filter_In in J. destruct J as [J K]. apply andb_prop in K. tauto. }
      split; [|intros U; rewrite <- (F1 U); auto]. split.
      + exists l1. split; [exact C1|]. split; [intros r I; destruct (EV r I) as (A & A' & _); auto|]. split.
        * intros r y I O. destruct (EV r I) as (_ & _ & A). congruence.
        * intros U _. exists l0, x, d''. split; [exact EL|]. split; [exact C0|exact (F0 U)].
      + intros U. left. rewrite <- (F1 U). exact LE.
    - destruct X1 as [-> LT]. rewrite app_nil_r in L1. subst l1.
      set (l := sort_by_access (filter (evictable latest) (rows d1))).
      assert (SUB : forall r, In r l -> In r (rows d1) /\ evictable latest r = true) by (intros r I; apply (proj1 (sort_In _ _)) in I; apply filter_In in I; exact I).
      destruct (until_spec false e bytes d T l os d1 t1) as (d2 & t2 & b2 & m1 & m2 & E2 & L2 & C2 & F2 & X2).
      { intros r I. apply in_app_or in I. destruct I as [I|I]; [apply filter_In in I; tauto|]. apply (cut_incl _ _ _ _ C1), SUB, I. }
      { exact C1. } { exact F1. } { exact LT. }
      rewrite E2. cbn [bind].
      assert (EV : forall r, In r (os ++ m1) -> In r (rows d) /\ evictable latest r = true).
      { intros r I. apply in_app_or in I. destruct I as [I|I]; [apply filter_In in I; destruct I as [I J]; apply andb_prop in J; tauto|].
        destruct (SUB r) as [A A']; [rewrite L2; apply in_or_app; auto|]. split; [apply (cut_incl _ _ _ _ C1), A|exact A']. }
      assert (R2 : forall x, In x (rows d2) -> evictable latest x = true -> In x m2 /\ is_orphan x = false).
      { intros x I V. assert (N : ~ In (r_path x) (paths (os ++ m1))) by exact (c_left _ _ _ _ C2 x I). rewrite map_app in N.
        assert (I0 : In x (rows d)) by (apply (cut_incl _ _ _ _ C2), I).
        assert (I1 : In x (rows d1)).
        { destruct (c_rows _ _ _ _ C1) as [f E]. destruct (f x) eqn:FX; [rewrite E; apply filter_In; auto|exfalso].
          destruct (c_gone _ _ _ _ C1 x I0) as (p & P & Q); [rewrite E, filter_In; intros [_ Y]; congruence|].
          refine (cut_below _ _ _ _ p x C2 (t_rows _ _ T) _ I0 Q I). rewrite map_app. apply in_or_app. auto. }
        assert (J : In x l) by (apply (proj2 (sort_In _ _)), filter_In; auto). rewrite L2 in J. apply in_app_or in J. destruct J as [J|J].
        - exfalso. apply N, in_or_app. right. apply in_map, J.
        - split; [exact J|]. destruct (is_orphan x) eqn:O; [|reflexivity]. exfalso. apply N, in_or_app. left. apply in_map. apply filter_In. rewrite V, O. auto. }
      assert (TR : trimmed e latest bytes d d2).
      { split.
        - exists (os ++ m1). split; [exact C2|]. split; [exact EV|]. split.
          + intros r x I O J V. destruct (R2 x J V) as [K O']. split; [exact O'|]. apply in_app_or in I. destruct I as [I|I]; [apply filter_In in I; destruct I as [_ I]; apply andb_prop in I; destruct I; congruence|].
            apply (sorted_app m1 m2); [rewrite <- L2; apply sort_sorted|exact I|exact K].
          + intros U LE. destruct b2.
            * destruct X2 as (_ & l0 & x & d'' & EL & C0 & F0). exists (os ++ l0), x, d''. split; [rewrite EL, app_assoc; reflexivity|]. split; [exact C0|exact (F0 U)].
            * destruct X2 as [_ X2]. rewrite (F2 U) in X2. lia.
        - intros U. destruct b2; [left; rewrite <- (F2 U); tauto|right]. destruct X2 as [-> _]. intros x I. destruct (evictable latest x) eqn:V; [|reflexivity]. destruct (R2 x I V) as [[] _]. }
      destruct b2.
      + exists d2, (Some t2). split; [reflexivity|]. split; [exact TR|]. intros U. rewrite <- (F2 U). tauto.
      + exists d2, None. split; [reflexivity|]. split; [exact TR|]. intros U. rewrite <- (F2 U). tauto.
  Qed.
  Lemma trimmed_tidy e latest bytes d d' : tidy dir d -> trimmed e latest bytes d d' -> tidy dir d'.
  Proof using. intros T [(ev & C & _) _]. exact (cut_tidy dir _ _ _ _ C T). Qed.

  (** ** Housekeeping *)
  Lemma substring_all s : substring 0 (String.length s) s = s.
  Proof using. clear. induction s as [|c s IH]; cbn; [reflexivity|]. rewrite IH. reflexivity. Qed.
  Lemma substring_after a b : substring (String.length a) (String.length b) (a ++ b)%string = b.
  Proof using. clear. induction a as [|c a IH]; cbn [String.length String.append]; [apply substring_all|exact IH]. Qed.
  Lemma strip_join p name : strip dir p = Some name -> p = join dir name /\ has_slash name = false /\ name <> "".
  Proof using.
    unfold strip. destruct (prefix (dir ++ "/") p) eqn:P; [|discriminate]. apply prefix_iff in P. destruct P as [t ->].
    assert (L : (String.length (dir ++ "/") = String.length dir + 1)%nat) by (rewrite str_len_app; reflexivity).
    rewrite <- L. assert (LL : (String.length ((dir ++ "/") ++ t) - String.length (dir ++ "/") = String.length t)%nat) by (rewrite str_len_app; lia).
    rewrite LL, substring_after. destruct (has_slash t) eqn:H; [discriminate|]. cbn [orb]. destruct (String.eqb_spec t ""); [discriminate|]. intros E. inversion E; subst.
    split; [|auto]. unfold join. clear. induction dir as [|c s IH]; cbn; [reflexivity|]. f_equal. exact IH.
  Qed.
  Lemma join_inside name : has_slash name = false -> name <> "" -> inside dir (join dir name).
  Proof using. intros H N. exists name. auto. Qed.
  Lemma find_row_None d p : find_row d p = None -> ~ In p (paths (rows d)).
  Proof using. intros F J. apply in_map_iff in J. destruct J as (x & P & J). pose proof (find_none _ _ F x J) as Q. cbn in Q. apply String.eqb_neq in Q. congruence. Qed.
  Lemma register_tidy t p o (a : json) q d : tidy dir d -> inside dir p -> (forall x, q = Some x -> extends p x) ->
    exists d', register dir t p o a q d = Ok d' /\ tidy dir d' /\ files d' = files d /\
      (find_row d p = None -> rows d' = rows d ++ [new_row p o a t q]) /\ (find_row d p <> None -> rows d' = map (fun r => if String.eqb (r_path r) p then touch t r else r) (rows d)).
  Proof using.
    intros T I Q. unfold register. rewrite (inside_in_cache dir p I). cbn [negb]. destruct (find_row d p) as [r|] eqn:F.
    - eexists. split; [reflexivity|]. split; [|split; [reflexivity|split; [discriminate|reflexivity]]].
      assert (P : forall r : row, r_path (if String.eqb (r_path r) p then touch t r else r) = r_path r) by (intros r0; destruct (String.eqb _ _); reflexivity).
      assert (P2 : forall r : row, r_parent (if String.eqb (r_path r) p then touch t r else r) = r_parent r) by (intros r0; destruct (String.eqb _ _); reflexivity).
      assert (P3 : forall r : row, r_size (if String.eqb (r_path r) p then touch t r else r) = r_size r) by (intros r0; destruct (String.eqb _ _); reflexivity).
      split; cbn [rows files].
      + rewrite map_map. rewrite (map_ext _ (@r_path json) P). apply T.
      + apply T.
      + intros x q' J E. apply in_map_iff in J. destruct J as (y & <- & J). rewrite P2 in E. rewrite P. exact (t_parents _ _ T _ _ J E).
      + intros x s J E. apply in_map_iff in J. destruct J as (y & <- & J). rewrite P3 in E. exact (t_sizes _ _ T _ _ J E).
      + apply T.
      + intros x J. apply in_map_iff in J. destruct J as (y & <- & J). rewrite P. exact (t_inside _ _ T _ J).
    - eexists. split; [reflexivity|]. split; [|split; [reflexivity|split; [reflexivity|congruence]]]. split; cbn [rows files].
      + rewrite map_app. cbn. apply NoDup_snoc; [apply T|]. apply find_row_None. exact F.
      + apply T.
      + intros x q' J E. apply in_app_or in J. destruct J as [J|[<-|[]]]; [exact (t_parents _ _ T _ _ J E)|]. cbn in *. auto.
      + intros x s J E. apply in_app_or in J. destruct J as [J|[<-|[]]]; [exact (t_sizes _ _ T _ _ J E)|discriminate E].
      + apply T.
      + intros x J. apply in_app_or in J. destruct J as [J|[<-|[]]]; [exact (t_inside _ _ T _ J)|exact I].
  Qed.
  Lemma parent_extends d full p : find_row d full = None -> find_parent d full = Some p -> extends full p.
  Proof using.
    intros F E. unfold find_parent in E. destruct (find _ (rows d)) as [r|] eqn:G; [|discriminate E]. inversion E; subst p. apply find_some in G. destruct G as [I G].
    apply andb_prop in G. destruct G as [_ G]. apply prefix_iff in G. destruct G as [t H]. exists t. split; [exact H|]. intros ->.
    apply (find_row_None d full F). rewrite H. replace (r_path r ++ "")%string with (r_path r); [apply in_map, I|]. clear. induction (r_path r) as [|c s IH]; cbn; [reflexivity|]. congruence.
  Qed.
  (** Rows registered while looking for orphans. *)
  Lemma orphans_spec e names : forall d, tidy dir d -> Forall (fun n => has_slash n = false /\ n <> "") names ->
    exists d' new, fold_left (register_orphan jnull dir e) names (Ok d) = Ok d' /\ tidy dir d' /\ files d' = files d /\ rows d' = rows d ++ new /\
      Forall (fun r => r_size r = None /\ r_owner r = "orphans" /\ r_created r = now e /\ In (r_path r) (map (join dir) names)) new.
  Proof using.
    induction names as [|n names IH]; intros d T F; cbn [fold_left].
    - exists d, []. rewrite app_nil_r. repeat (split; [reflexivity||assumption|]). constructor.
    - inversion F as [|? ? [F1 F2] F3]; subst. unfold register_orphan at 2. cbn [bind].
      assert (NOP : exists d' new, fold_left (register_orphan jnull dir e) names (Ok d) = Ok d' /\ tidy dir d' /\ files d' = files d /\ rows d' = rows d ++ new /\
        Forall (fun r => r_size r = None /\ r_owner r = "orphans" /\ r_created r = now e /\ In (r_path r) (map (join dir) (n :: names))) new).
      { destruct (IH d T F3) as (d' & new & A & B & C & D & E). exists d', new. repeat (split; [assumption|]). eapply Forall_impl; [|exact E]. cbn. intros r (X1 & X2 & X3 & X4). auto. }
      destruct (String.eqb n CACHE_DB); [exact NOP|]. destruct (find_row d (join dir n)) as [r|] eqn:FR; [exact NOP|]. destruct (recent e (join dir n)); [exact NOP|]. clear NOP.
      destruct (register_tidy (now e) (join dir n) "orphans" jnull (find_parent d (join dir n)) d T (join_inside n F1 F2)) as (d1 & R & T1 & FF & RN & _); [intros x X; exact (parent_extends _ _ _ FR X)|].
      rewrite R. destruct (IH d1 T1 F3) as (d' & new & A & B & C & D & E). exists d', (new_row (join dir n) "orphans" jnull (now e) (find_parent d (join dir n)) :: new).
      split; [exact A|]. split; [exact B|]. split; [congruence|]. split; [rewrite D, (RN FR), <- app_assoc; reflexivity|]. constructor; [cbn; auto|].
      eapply Forall_impl; [|exact E]. cbn. intros r (X1 & X2 & X3 & X4). auto.
  Qed.
  Lemma update_row_cases d clean r x : In x (update_row d clean r) -> x = r \/ (is_null r = true /\ exists n, alookup (r_path r) (files d) = Some n /\ x = set_size (n_size n) (n_dir n) r).
  Proof using.
    unfold update_row. destruct (is_null r); [|intros [<-|[]]; auto]. destruct (alookup (r_path r) (files d)) as [n|]; [intros [<-|[]]; right; eauto|]. destruct clean; [intros []|intros [<-|[]]; auto].
  Qed.
  Lemma update_cache_tidy clean d : tidy dir d -> tidy dir (update_cache clean d).
  Proof using.
    intros T. unfold update_cache. assert (H : forall x, In x (flat_map (update_row d clean) (rows d)) -> exists r, In r (rows d) /\ r_path x = r_path r /\ r_parent x = r_parent r /\ (forall s, r_size x = Some s -> r_size r = Some s \/ exists n, alookup (r_path r) (files d) = Some n /\ s = n_size n)).
    { intros x I. apply in_flat_map in I. destruct I as (r & I & J). exists r. split; [exact I|]. apply update_row_cases in J. destruct J as [->|(_ & n & A & ->)]; [auto|]. cbn. repeat (split; [reflexivity|]). intros s E. inversion E; subst. right. eauto. }
    split; cbn [rows files].
    - pose proof (t_rows _ _ T) as N. revert N. generalize (rows d) as l. intros l N. clear H.
      assert (P : forall r, paths (update_row d clean r) = [r_path r] \/ update_row d clean r = []).
      { intros r. unfold update_row. destruct (is_null r); [|left; reflexivity]. destruct (alookup _ _); [left; reflexivity|]. destruct clean; [right|left]; reflexivity. }
      induction l as [|r l IH]; cbn; [constructor|]. cbn in N. inversion N as [|? ? N1 N2]; subst. rewrite map_app.
      destruct (P r) as [->| ->]; cbn; [|apply IH, N2]. constructor; [|apply IH, N2]. intros J. apply N1. apply in_map_iff in J. destruct J as (x & X1 & X2).
      apply in_flat_map in X2. destruct X2 as (y & Y1 & Y2). apply update_row_cases in Y2. apply in_map_iff. exists y. split; [|exact Y1]. destruct Y2 as [->|(_ & n & _ & ->)]; exact X1.
    - apply T.
    - intros x q I E. destruct (H x I) as (r & R & P1 & P2 & _). rewrite P1. apply (t_parents _ _ T r q R). congruence.
    - intros x s I E. destruct (H x I) as (r & R & _ & _ & P). destruct (P s E) as [Q|(n & A & ->)]; [exact (t_sizes _ _ T _ _ R Q)|]. apply alookup_In in A. exact (t_nodes _ _ T _ _ A).
    - apply T.
    - intros x I. destruct (H x I) as (r & R & P1 & _). rewrite P1. exact (t_inside _ _ T _ R).
  Qed.
  Lemma listdir_names d : Forall (fun n => has_slash n = false /\ n <> "") (listdir dir d).
  Proof using.
    unfold listdir. apply Forall_forall. intros n I. apply in_flat_map in I. destruct I as ([p nd] & I & J). cbn [fst] in J. destruct (strip dir p) as [m|] eqn:S; [|destruct J].
    destruct J as [<-|[]]. apply strip_join in S. tauto.
  Qed.
  Lemma update_size clean d : tidy dir d -> total_size d <= total_size (update_cache clean d).
  Proof using.
    intros T. unfold total_size, update_cache. cbn [rows]. pose proof (t_nodes _ _ T) as N. revert N. generalize (rows d) as l. intros l N. induction l as [|r l IH]; cbn [flat_map map zsum]; [lia|].
    rewrite map_app, zsum_app. assert (L : match r_size r with Some s => s | None => 0 end <= zsum (map (fun r => match r_size r with Some s => s | None => 0 end) (update_row d clean r))); [|lia].
    unfold update_row, is_null. destruct (r_size r) as [s|] eqn:E; [cbn; rewrite E; lia|]. destruct (alookup (r_path r) (files d)) as [n|] eqn:A; [apply alookup_In, N in A; cbn; lia|]. destruct clean; cbn; [lia|rewrite E; lia].
  Qed.
  Lemma housekeeping_spec e clean d : tidy dir d -> exists d', housekeeping jnull dir e clean d = Ok d' /\ tidy dir d' /\ files d' = files d /\ total_size d <= total_size d' /\
    (forall r, In r (rows d') -> is_null r = true -> clean = false).
  Proof using.
    intros T. unfold housekeeping. destruct (orphans_spec e (listdir dir d) d T (listdir_names d)) as (d1 & new & E & T1 & F & R & N). rewrite E. cbn [bind].
    exists (update_cache clean d1). split; [reflexivity|]. split; [apply update_cache_tidy, T1|]. split; [exact F|]. split.
    - etransitivity; [|apply update_size, T1]. unfold total_size. rewrite R, map_app, zsum_app. assert (Z0 : zsum (map (fun r => match r_size r with Some s => s | None => 0 end) new) = 0); [|lia].
      clear - N. induction N as [|r new (A & _) N IH]; cbn; [reflexivity|]. rewrite A, IH. reflexivity.
    - intros r I Z0. apply in_flat_map in I. destruct I as (x & I & J). unfold update_row in J. destruct (is_null x) eqn:NX; [|destruct J as [<-|[]]; congruence].
      destruct (alookup (r_path x) (files d1)); [destruct J as [<-|[]]; discriminate Z0|]. destruct clean; [destruct J|reflexivity].
  Qed.
  (** Nothing to find: every file is registered, recent or the database, and every entry in progress is without file. *)
  Definition nothing_new (e : env) (d : disk) : Prop :=
    (forall p, In p (akeys (files d)) -> inside dir p -> p = join dir CACHE_DB \/ In p (paths (rows d)) \/ recent e p = true) /\
    (forall r, In r (rows d) -> r_size r = None -> ~ In (r_path r) (akeys (files d))).
  Lemma join_inj a b : join dir a = join dir b -> a = b.
  Proof using. unfold join. clear. induction dir as [|c s IH]; cbn; intros H; [inversion H; reflexivity|]. inversion H. auto. Qed.
  Lemma housekeeping_nothing e d : nothing_new e d -> housekeeping jnull dir e false d = Ok d.
  Proof using.
    intros [A B]. unfold housekeeping. assert (E : fold_left (register_orphan jnull dir e) (listdir dir d) (Ok d) = Ok d).
    { assert (H : forall n, In n (listdir dir d) -> In (join dir n) (akeys (files d)) /\ inside dir (join dir n)).
      { intros n I. apply in_flat_map in I. destruct I as ([p nd] & I & J). cbn [fst] in J. destruct (strip dir p) as [m|] eqn:S; [|destruct J]. destruct J as [<-|[]].
        apply strip_join in S. destruct S as (-> & S1 & S2). split; [eapply In_akeys; exact I|apply join_inside; assumption]. }
      induction (listdir dir d) as [|n l IH]; cbn [fold_left]; [reflexivity|]. assert (S : register_orphan jnull dir e (Ok d) n = Ok d); [|rewrite S; apply IH; intros; apply H; right; assumption].
      unfold register_orphan. cbn [bind]. destruct (H n (or_introl eq_refl)) as [H1 H2]. destruct (String.eqb_spec n CACHE_DB); [reflexivity|].
      destruct (find_row d (join dir n)) as [r|] eqn:F; [reflexivity|]. destruct (A _ H1 H2) as [X|[X|X]]; [apply join_inj in X; contradiction|apply find_row_None in F; contradiction|]. rewrite X. reflexivity. }
    rewrite E. cbn [bind]. f_equal. unfold update_cache. destruct d as [rs fs]. cbn [rows files] in *. f_equal.
    assert (G : forall l, (forall r, In r l -> In r rs) -> flat_map (update_row (mkDisk rs fs) false) l = l); [|apply G; auto]. induction l as [|r l IH]; intros S; cbn [flat_map]; [reflexivity|].
    rewrite IH by (intros; apply S; right; assumption). unfold update_row. cbn [files]. destruct (is_null r) eqn:N; [|reflexivity]. destruct (alookup (r_path r) fs) as [nd|] eqn:L; [|reflexivity].
    exfalso. apply (B r); [apply S; left; reflexivity|unfold is_null in N; destruct (r_size r); [discriminate N|reflexivity]|eapply alookup_Some_key; exact L].
  Qed.
End DiskProofs2.
