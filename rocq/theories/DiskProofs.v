(** Proofs about the disk cache: deleting entries. *)
From Verif Require Import PyBase ListLemmas Disk DiskSpec.
From Coq Require Import Permutation Sorted.
Set Default Proof Using "Type".
Local Open Scope string_scope.
Local Open Scope list_scope.
Local Open Scope Z_scope.

Lemma str_len_app a b : String.length (a ++ b)%string = (String.length a + String.length b)%nat.
Proof. induction a as [|c a IH]; cbn; [reflexivity|]. rewrite IH. reflexivity. Qed.
Lemma prefix_iff p s : prefix p s = true <-> exists t, s = (p ++ t)%string.
Proof.
  revert s. induction p as [|c p IH]; intros s; [split; [intros _; exists s; reflexivity|destruct s; reflexivity]|].
  destruct s as [|d s]; [split; [discriminate|intros [t H]; discriminate H]|].
  assert (E : prefix (String c p) (String d s) = if ascii_dec c d then prefix p s else false) by reflexivity. rewrite E. clear E.
  destruct (ascii_dec c d) as [->|N].
  - rewrite IH. split; intros [t H]; exists t; [rewrite H; reflexivity|inversion H; reflexivity].
  - split; [discriminate|]. intros [t H]. inversion H. congruence.
Qed.
Lemma extends_len p q : extends p q -> (String.length q < String.length p)%nat.
Proof. intros (t & -> & N). rewrite str_len_app. destruct t; [contradiction|]. cbn. lia. Qed.

Section DiskProofs.
  Context {json : Type}.
  Notation row := (row json).
  Notation disk := (disk json).
  Implicit Types d : disk.
  Notation paths l := (map (@r_path json) l).

  Lemma below_trans (rs : list row) p q x : below rs p q -> below rs q x -> below rs p x.
  Proof. intros A B. induction B as [|r q' I P B IH]; [exact A|]. eapply below_child; eauto. Qed.
  Lemma below_mono (rs rs' : list row) p x : incl rs rs' -> below rs p x -> below rs' p x.
  Proof. intros S B. induction B as [|r q I P B IH]; [constructor|]. eapply below_child; eauto. Qed.
  Definition parents_ok (d : disk) := forall r q, In r (rows d) -> r_parent r = Some q -> extends (r_path r) q.
  Lemma below_len d p x : parents_ok d -> below (rows d) p x -> x = p \/ (String.length p < String.length x)%nat.
  Proof.
    intros P B. induction B as [|r q I E B IH]; [left; reflexivity|]. right. pose proof (extends_len _ _ (P _ _ I E)). destruct IH as [->|L]; lia.
  Qed.
  (** The first step downwards. *)
  Lemma below_inv d p r : NoDup (paths (rows d)) -> In r (rows d) -> below (rows d) p (r_path r) ->
    r_path r = p \/ exists q, r_parent r = Some q /\ below (rows d) p q.
  Proof.
    intros N I B. remember (r_path r) as x eqn:X. destruct B as [|r' q I' E B]; [left; reflexivity|]. right.
    assert (r' = r). { clear - N I I' X. induction (rows d) as [|y l IH]; [destruct I|]. cbn in N. inversion N as [|? ? N1 N2]; subst.
      destruct I as [<-|I], I' as [<-|I']; auto; exfalso; apply N1; [rewrite <- X|rewrite X]; apply in_map; assumption. }
    subst r'. exists q. auto.
  Qed.

  (** Removal of the entries [ps], in a form that composes. *)
  Record cut (lk : string -> bool) (d : disk) (ps : list string) (d' : disk) : Prop := {
    c_rows : exists f, rows d' = filter f (rows d);
    c_gone : forall r, In r (rows d) -> ~ In r (rows d') -> exists p, In p ps /\ below (rows d) p (r_path r);
    c_left : forall r, In r (rows d') -> ~ In (r_path r) ps;
    c_parent : forall r q, In r (rows d') -> r_parent r = Some q -> ~ In q ps /\ (In q (paths (rows d)) -> In q (paths (rows d')));
    c_files : exists g, files d' = filter g (files d);
    c_deleted : forall x, In x (akeys (files d)) -> ~ In x (akeys (files d')) -> lk x = false /\ exists p, In p ps /\ below (rows d) p x;
    c_removed : forall x, In x ps \/ (exists r, In r (rows d) /\ r_path r = x /\ ~ In r (rows d')) -> lk x = false -> ~ In x (akeys (files d')) }.

  Lemma cut_incl lk d ps d' : cut lk d ps d' -> incl (rows d') (rows d).
  Proof. intros C. destruct (c_rows _ _ _ _ C) as [f ->]. intros x I. apply filter_In in I. tauto. Qed.
  Lemma cut_files_incl lk d ps d' x : cut lk d ps d' -> In x (akeys (files d')) -> In x (akeys (files d)).
  Proof. intros C. destruct (c_files _ _ _ _ C) as [g ->]. rewrite !akeys_map. intros I. apply in_map_iff in I. destruct I as (y & <- & I). apply filter_In in I. apply in_map. tauto. Qed.
  Lemma filter_NoDup_map {A B} (f : A -> bool) (g : A -> B) l : NoDup (map g l) -> NoDup (map g (filter f l)).
  Proof.
    induction l as [|x l IH]; cbn; intros N; [constructor|]. inversion N as [|? ? N1 N2]; subst. destruct (f x); cbn; [|auto]. constructor; [|auto].
    intros I. apply N1. apply in_map_iff in I. destruct I as (y & <- & I). apply filter_In in I. apply in_map. tauto.
  Qed.
  Lemma cut_tidy dir lk d ps d' : cut lk d ps d' -> tidy dir d -> tidy dir d'.
  Proof.
    intros C T. pose proof (cut_incl _ _ _ _ C) as S. split.
    - destruct (c_rows _ _ _ _ C) as [f ->]. apply filter_NoDup_map, T.
    - destruct (c_files _ _ _ _ C) as [g ->]. rewrite akeys_map. apply filter_NoDup_map. rewrite <- akeys_map. apply T.
    - intros r q I. apply (t_parents _ _ T), S, I.
    - intros r s I. apply (t_sizes _ _ T r s), S, I.
    - intros p n I. destruct (c_files _ _ _ _ C) as [g E]. rewrite E in I. apply filter_In in I. apply (t_nodes _ _ T p n). tauto.
    - intros r I. apply (t_inside _ _ T), S, I.
  Qed.
  (** Everything below is removed. *)
  Lemma cut_below lk d ps d' p r : cut lk d ps d' -> NoDup (paths (rows d)) -> In p ps -> In r (rows d) -> below (rows d) p (r_path r) -> ~ In r (rows d').
  Proof.
    intros C N I J B. remember (r_path r) as x eqn:X. revert r J X. induction B as [|r' q I' E B IH]; intros r J X K.
    - apply (c_left _ _ _ _ C r K). rewrite <- X. exact I.
    - assert (r' = r) as ->. { clear - N J I' X. induction (rows d) as [|y l IH]; [destruct J|]. cbn in N. inversion N as [|? ? N1 N2]; subst.
        destruct J as [<-|J], I' as [<-|I']; auto; exfalso; apply N1; [rewrite <- X|rewrite X]; apply in_map; assumption. }
      destruct (c_parent _ _ _ _ C r q K E) as [A Q]. inversion B as [|r2 q2 I2 E2 B2]; subst.
      + contradiction.
      + assert (P : In (r_path r2) (paths (rows d))) by (apply in_map; exact I2). specialize (Q P). apply in_map_iff in Q. destruct Q as (r3 & Q1 & Q2).
        apply (IH r3); [apply (cut_incl _ _ _ _ C), Q2|congruence|exact Q2].
  Qed.
  Lemma cut_without lk d ps d' : NoDup (paths (rows d)) -> cut lk d ps d' -> without lk d ps d'.
  Proof.
    intros N C. split; [apply C| |apply C|apply C|apply C]. intros r I. split; [apply (c_gone _ _ _ _ C); exact I|].
    intros (p & P & B). eapply cut_below; eauto.
  Qed.
  Lemma cut_nil lk d : cut lk d [] d.
  Proof.
    split.
    - exists (fun _ => true). clear. induction (rows d) as [|x l IH]; cbn; [reflexivity|]. congruence.
    - intros r I N. contradiction.
    - intros r I [].
    - intros r q I E. split; [intros []|tauto].
    - exists (fun _ => true). clear. induction (files d) as [|x l IH]; cbn; [reflexivity|]. congruence.
    - intros x I N. contradiction.
    - intros x [[]|(r & I & E & N)] L. contradiction.
  Qed.
  Lemma cut_trans lk d ps d1 qs d2 : cut lk d ps d1 -> cut lk d1 qs d2 -> cut lk d (ps ++ qs) d2.
  Proof.
    intros A B. pose proof (cut_incl _ _ _ _ A) as SA. pose proof (cut_incl _ _ _ _ B) as SB.
    assert (DEC : forall r, In r (rows d) -> In r (rows d1) \/ ~ In r (rows d1)).
    { intros r I. destruct (c_rows _ _ _ _ A) as [f E]. rewrite E. rewrite filter_In. destruct (f r); [left; auto|right; intros [_ H]; discriminate H]. }
    split.
    - destruct (c_rows _ _ _ _ A) as [f E], (c_rows _ _ _ _ B) as [g F]. exists (fun r => f r && g r). rewrite F, E.
      clear. induction (rows d) as [|x l IH]; cbn; [reflexivity|]. destruct (f x); cbn; [|exact IH]. destruct (g x); [f_equal|]; exact IH.
    - intros r I N. destruct (DEC r I) as [J|J].
      + destruct (c_gone _ _ _ _ B r J N) as (p & P & Q). exists p. split; [apply in_or_app; auto|]. eapply below_mono; eassumption.
      + destruct (c_gone _ _ _ _ A r I J) as (p & P & Q). exists p. split; [apply in_or_app; auto|exact Q].
    - intros r I J. apply in_app_or in J. destruct J as [J|J]; [apply (c_left _ _ _ _ A r (SB _ I) J)|apply (c_left _ _ _ _ B r I J)].
    - intros r q I E. destruct (c_parent _ _ _ _ A r q (SB _ I) E) as [A1 A2], (c_parent _ _ _ _ B r q I E) as [B1 B2]. split; [|auto].
      intros J. apply in_app_or in J. tauto.
    - destruct (c_files _ _ _ _ A) as [f E], (c_files _ _ _ _ B) as [g F]. exists (fun r => f r && g r). rewrite F, E.
      clear. induction (files d) as [|x l IH]; cbn; [reflexivity|]. destruct (f x); cbn; [|exact IH]. destruct (g x); [f_equal|]; exact IH.
    - intros x I N. destruct (in_dec string_dec x (akeys (files d1))) as [J|J].
      + destruct (c_deleted _ _ _ _ B x J N) as (L & p & P & Q). split; [exact L|]. exists p. split; [apply in_or_app; auto|]. eapply below_mono; eassumption.
      + destruct (c_deleted _ _ _ _ A x I J) as (L & p & P & Q). split; [exact L|]. exists p. split; [apply in_or_app; auto|exact Q].
    - intros x H L K. pose proof (cut_files_incl _ _ _ _ _ B K) as K1. destruct H as [H|(r & I & E & N)].
      + apply in_app_or in H. destruct H as [H|H]; [exact (c_removed _ _ _ _ A x (or_introl H) L K1)|exact (c_removed _ _ _ _ B x (or_introl H) L K)].
      + destruct (DEC r I) as [J|J]; [apply (c_removed _ _ _ _ B x (or_intror (ex_intro _ r (conj J (conj E N)))) L K)|apply (c_removed _ _ _ _ A x (or_intror (ex_intro _ r (conj I (conj E J)))) L K1)].
  Qed.

  (** ** Accounting *)
  Lemma gone_spec d d' lk ps r : NoDup (paths (rows d)) -> cut lk d ps d' -> In r (rows d) -> gone d' r = true <-> ~ In r (rows d').
  Proof.
    intros N C I. unfold gone. rewrite negb_true_iff. split.
    - intros E J. assert (X : existsb (fun r' => String.eqb (r_path r') (r_path r)) (rows d') = true) by (apply existsb_exists; exists r; split; [exact J|apply String.eqb_refl]). congruence.
    - intros J. apply not_true_is_false. intros X. apply existsb_exists in X. destruct X as (r' & K & E). apply String.eqb_eq in E.
      assert (r' = r) as ->; [|contradiction]. pose proof (cut_incl _ _ _ _ C _ K) as K1. clear - N I K1 E. induction (rows d) as [|y l IH]; [destruct I|].
      cbn in N. inversion N as [|? ? N1 N2]; subst. destruct I as [<-|I], K1 as [<-|K1]; auto; exfalso; apply N1; [rewrite <- E|rewrite E]; apply in_map; assumption.
  Qed.
  Notation sz r := (match r_size r with Some s => s | None => 0 end).
  Lemma zsum_filter_split {A} (f : A -> bool) (w : A -> Z) l : zsum (map w l) = zsum (map w (filter f l)) + zsum (map w (filter (fun x => negb (f x)) l)).
  Proof. induction l as [|x l IH]; cbn; [reflexivity|]. destruct (f x); cbn; lia. Qed.
  Lemma filter_ext_In {A} (f g : A -> bool) l : (forall x, In x l -> f x = g x) -> filter f l = filter g l.
  Proof. induction l as [|x l IH]; cbn; intros H; [reflexivity|]. rewrite (H x) by auto. rewrite IH by auto. reflexivity. Qed.
  Lemma zsum_filter_le {A} (f : A -> bool) (w : A -> Z) l : (forall x, In x l -> 0 <= w x) -> 0 <= zsum (map w (filter f l)) <= zsum (map w l).
  Proof. induction l as [|x l IH]; cbn; intros H; [lia|]. pose proof (H x (or_introl eq_refl)). assert (0 <= zsum (map w (filter f l)) <= zsum (map w l)) by (apply IH; auto). destruct (f x); cbn; lia. Qed.
  Lemma freed_bound dir d ps d' lk : tidy dir d -> cut lk d ps d' -> 0 <= freed d d' /\ total_size d' + freed d d' <= total_size d.
  Proof.
    intros T C. assert (W : forall r, In r (rows d) -> 0 <= sz r) by (intros r I; destruct (r_size r) eqn:E; [exact (t_sizes _ _ T _ _ I E)|lia]).
    unfold freed, total_size. split.
    - apply zsum_filter_le. exact W.
    - rewrite (zsum_filter_split (gone d') _ (rows d)).
      assert (E : rows d' = filter (fun r => negb (gone d' r)) (rows d)).
      { destruct (c_rows _ _ _ _ C) as [f E]. rewrite E. apply filter_ext_In. intros r I. destruct (gone d' r) eqn:G.
        - apply (gone_spec _ _ _ _ _ (t_rows _ _ T) C I) in G. cbn. destruct (f r) eqn:F; [|reflexivity]. exfalso. apply G. rewrite E. apply filter_In. auto.
        - cbn. assert (J : In r (rows d')) by (destruct (f r) eqn:F; [rewrite E; apply filter_In; auto|exfalso; assert (gone d' r = true); [apply (gone_spec _ _ _ _ _ (t_rows _ _ T) C I); rewrite E; rewrite filter_In; intros [_ H]; congruence|congruence]]).
          rewrite E in J. apply filter_In in J. tauto. }
      rewrite <- E. assert (L : zsum (map (fun r => sz r) (filter (fun r => gone d' r && match alookup (r_path r) (files d) with Some _ => true | None => false end) (rows d))) <= zsum (map (fun r => sz r) (filter (gone d') (rows d)))); [|lia].
      clear - W. induction (rows d) as [|x l IH]; cbn; [lia|]. assert (0 <= sz x) by (apply W; left; reflexivity). specialize (IH (fun r I => W r (or_intror I))).
      destruct (gone d' x); cbn; [|exact IH]. destruct (alookup (r_path x) (files d)); cbn; lia.
  Qed.
  Lemma exists_spec d x : file_exists d x = true <-> In x (akeys (files d)).
  Proof. unfold file_exists, amem. destruct (alookup x (files d)) eqn:E; [split; auto; intros _; eapply alookup_Some_key; eauto|]. apply alookup_None in E. split; [discriminate|tauto]. Qed.
  Lemma freed_trans lk d ps d1 qs d2 : NoDup (paths (rows d)) -> cut lk d ps d1 -> cut lk d1 qs d2 -> freed d d2 = freed d d1 + freed d1 d2.
  Proof.
    intros N A B. unfold freed. pose proof (cut_trans _ _ _ _ _ _ A B) as C.
    rewrite (zsum_filter_split (gone d1) _ (filter _ (rows d))).
    assert (N1 : NoDup (paths (rows d1))) by (destruct (c_rows _ _ _ _ A) as [f ->]; apply filter_NoDup_map, N).
    assert (FF : forall (f g : row -> bool) l, filter f (filter g l) = filter (fun x => g x && f x) l).
    { clear. intros f g l. induction l as [|x l IH]; cbn; [reflexivity|]. destruct (g x); cbn; [|exact IH]. destruct (f x); [f_equal|]; exact IH. }
    f_equal.
    - rewrite FF. do 2 f_equal. apply filter_ext_In. intros r I. destruct (gone d1 r) eqn:G; rewrite ?andb_true_r, ?andb_false_r; [|reflexivity].
      assert (G2 : gone d2 r = true) by (apply (gone_spec _ _ _ _ _ N C I); intros J; apply (gone_spec _ _ _ _ _ N A I) in G; apply G, (cut_incl _ _ _ _ B), J).
      rewrite G2. reflexivity.
    - rewrite FF. assert (E : rows d1 = filter (fun r => negb (gone d1 r)) (rows d)).
      { destruct (c_rows _ _ _ _ A) as [f E]. rewrite E at 1. apply filter_ext_In. intros r I. destruct (f r) eqn:F.
        - assert (J : In r (rows d1)) by (rewrite E; apply filter_In; auto). destruct (gone d1 r) eqn:G; [|reflexivity]. apply (gone_spec _ _ _ _ _ N A I) in G. contradiction.
        - assert (G : gone d1 r = true) by (apply (gone_spec _ _ _ _ _ N A I); rewrite E, filter_In; intros [_ H]; congruence). rewrite G. reflexivity. }
      rewrite E, FF. do 2 f_equal. apply filter_ext_In. intros r I. destruct (gone d1 r) eqn:G; cbn [negb andb]; rewrite ?andb_false_r, ?andb_true_r; [reflexivity|].
      f_equal. assert (J : In r (rows d1)) by (rewrite E; apply filter_In; rewrite G; auto).
      change (file_exists d (r_path r) = file_exists d1 (r_path r)). apply eq_true_iff_eq. rewrite !exists_spec. split; [|apply (cut_files_incl _ _ _ _ _ A)].
      intros K. destruct (in_dec string_dec (r_path r) (akeys (files d1))) as [K1|K1]; [exact K1|exfalso].
      destruct (c_deleted _ _ _ _ A _ K K1) as (_ & p & P & Q). exact (cut_below _ _ _ _ _ _ A N P I Q J).
  Qed.
  Lemma freed_same d : freed d d = 0.
  Proof.
    unfold freed. assert (E : filter (fun r => gone d r && match alookup (r_path r) (files d) with Some _ => true | None => false end) (rows d) = []); [|rewrite E; reflexivity].
    assert (G : forall r, In r (rows d) -> gone d r = false) by (intros r I; unfold gone; apply negb_false_iff; apply existsb_exists; exists r; split; [exact I|apply String.eqb_refl]).
    revert G. generalize (gone d). generalize (rows d) as l. induction l as [|x l IH]; intros g G; cbn; [reflexivity|]. rewrite (G x) by (left; reflexivity). cbn. apply IH. intros r I. apply G. right. exact I.
  Qed.

  (** ** Deleting one entry *)
  Lemma aremove_filter {A} k (l : list (string * A)) : aremove k l = filter (fun p => negb (String.eqb k (fst p))) l.
  Proof. induction l as [|[k' a] l IH]; cbn; [reflexivity|]. destruct (String.eqb k k'); cbn; rewrite IH; reflexivity. Qed.

  Variable dir : string.
  Variable e : env.
  Lemma inside_in_cache p : inside dir p -> in_cache dir p = true.
  Proof using. clear. intros (n & -> & _). unfold in_cache. apply prefix_iff. eexists. reflexivity. Qed.

  Definition entry_size (d : disk) (p : string) (s : Z) : Prop := exists r, In r (rows d) /\ r_path r = p /\ s = size_of r.
  Lemma delete_entry_spec : forall fuel d p s, tidy dir d -> inside dir p ->
    (forall r, In r (rows d) -> (String.length (r_path r) < fuel + String.length p)%nat) -> (0 < fuel)%nat ->
    exists d' t, delete_entry dir fuel e d p s = Ok (d', t) /\ cut (locked e) d [p] d' /\ (entry_size d p s -> t = freed d d') /\
      (~ In p (paths (rows d)) -> (forall r, In r (rows d) -> r_parent r <> Some p) -> ~ In p (akeys (files d)) -> t = 0 /\ d' = d).
  Proof.
    induction fuel as [|f IH]; intros d p s T IN LEN POS; [lia|]. cbn [delete_entry]. clear POS.
    set (step := fun (acc : result (disk * Z)) (c : row) => dt <- acc ;; r <- delete_entry dir f e (fst dt) (r_path c) (size_of c) ;; Ok (fst r, snd dt + snd r)).
    (* the loop over the children *)
    assert (LOOP : forall cs done d1 t, filter (is_child p) (rows d) = done ++ cs -> cut (locked e) d (paths done) d1 -> t = freed d d1 ->
      exists d2 t2, fold_left step cs (Ok (d1, t)) = Ok (d2, t2) /\ cut (locked e) d (paths (done ++ cs)) d2 /\ t2 = freed d d2).
    { induction cs as [|c cs IHcs]; intros done d1 t E C F; cbn [fold_left].
      - exists d1, t. split; [reflexivity|]. rewrite app_nil_r. auto.
      - assert (CH : forall x, In x (done ++ c :: cs) -> In x (rows d) /\ r_parent x = Some p).
        { intros x I. rewrite <- E in I. apply filter_In in I. destruct I as [I J]. split; [exact I|]. unfold is_child in J. destruct (r_parent x) as [q|]; [|discriminate J]. apply String.eqb_eq in J. congruence. }
        destruct (CH c ltac:(apply in_or_app; right; left; reflexivity)) as [CI CP].
        assert (LC : (String.length p < String.length (r_path c))%nat) by (apply extends_len; exact (t_parents _ _ T _ _ CI CP)).
        pose proof (cut_tidy dir _ _ _ _ C T) as T1.
        assert (C1 : In c (rows d1)).
        { destruct (in_dec string_dec (r_path c) (paths (rows d1))) as [K|K].
          - apply in_map_iff in K. destruct K as (c' & K1 & K2). pose proof (cut_incl _ _ _ _ C _ K2) as K3. assert (c' = c) as <-; [|exact K2].
            pose proof (t_rows _ _ T) as N. clear - N K1 K3 CI. induction (rows d) as [|y l IHl]; [destruct CI|]. cbn in N. inversion N as [|? ? N1 N2]; subst. destruct CI as [<-|I], K3 as [<-|J]; auto; exfalso; apply N1; [rewrite <- K1|rewrite K1]; apply in_map; assumption.
          - exfalso. destruct (c_gone _ _ _ _ C c CI) as (q & Q & B); [intros J; apply K, in_map, J|].
            apply in_map_iff in Q. destruct Q as (c0 & <- & Q). destruct (CH c0 (in_or_app _ _ _ (or_introl Q))) as [C0 P0].
            destruct (below_inv d _ c (t_rows _ _ T) CI B) as [X|(q & X & B')].
            + pose proof (t_rows _ _ T) as N. assert (NP : NoDup (paths (done ++ c :: cs))) by (rewrite <- E; apply filter_NoDup_map, N).
              rewrite map_app in NP. cbn [map] in NP. apply NoDup_remove_2 in NP. apply NP. apply in_or_app. left. rewrite X. apply in_map. exact Q.
            + assert (q = p) by congruence. subst q. destruct (below_len d _ _ (t_parents _ _ T) B') as [X'|X']; [|].
              * pose proof (extends_len _ _ (t_parents _ _ T _ _ C0 P0)). rewrite <- X' in H. lia.
              * pose proof (extends_len _ _ (t_parents _ _ T _ _ C0 P0)). lia. }
        destruct (IH d1 (r_path c) (size_of c) T1 (t_inside _ _ T _ CI)) as (d2 & t2 & R & C2 & F2 & _).
        { intros r I. specialize (LEN r (cut_incl _ _ _ _ C _ I)). lia. }
        { specialize (LEN c CI). lia. }
        assert (ST : step (Ok (d1, t)) c = Ok (d2, t + t2)) by (unfold step; cbn [bind fst snd]; rewrite R; reflexivity).
        rewrite ST. destruct (IHcs (done ++ [c]) d2 (t + t2)) as (d3 & t3 & R3 & C3 & F3).
        + rewrite <- app_assoc. exact E.
        + rewrite map_app. exact (cut_trans _ _ _ _ _ _ C C2).
        + rewrite (freed_trans _ _ _ _ _ _ (t_rows _ _ T) C C2), F. f_equal. apply F2. exists c. auto.
        + rewrite <- app_assoc in C3. exists d3, t3. auto. }
    destruct (LOOP _ [] d 0 eq_refl (cut_nil _ _) (eq_sym (freed_same d))) as (d1 & t & R & C & F). cbn [app] in C. fold step. rewrite R. cbn [bind]. clear LOOP.
    set (cs := filter (is_child p) (rows d)) in *.
    assert (CH : forall x, In x cs <-> In x (rows d) /\ r_parent x = Some p).
    { intros x. unfold cs. rewrite filter_In. unfold is_child. destruct (r_parent x) as [q|]; [|split; [intros [_ H]; discriminate H|intros [_ H]; discriminate H]]. rewrite String.eqb_eq. split; intros [A B]; split; congruence. }
    assert (SUB : forall q x, In q (paths cs) -> below (rows d) q x -> below (rows d) p x /\ x <> p).
    { intros q x Q B. apply in_map_iff in Q. destruct Q as (c & <- & Q). apply CH in Q. destruct Q as [Q1 Q2]. split.
      - eapply below_trans; [|exact B]. eapply below_child; [exact Q1|exact Q2|constructor].
      - intros ->. pose proof (extends_len _ _ (t_parents _ _ T _ _ Q1 Q2)). destruct (below_len d _ _ (t_parents _ _ T) B) as [X|X]; [rewrite <- X in H|]; lia. }
    set (d2 := if file_exists d1 p then (if locked e p then d1 else unlink p d1) else d1).
    assert (RES : exists t', (if negb (file_exists d1 p) then Ok (drop_row p d1, t) else if negb (in_cache dir p) then Raise AssertionError else let d2 := if locked e p then d1 else unlink p d1 in Ok (drop_row p d2, t + s)) = Ok (drop_row p d2, t')
       /\ t' = (if file_exists d1 p then t + s else t)).
    { unfold d2. rewrite (inside_in_cache p IN). destruct (file_exists d1 p); cbn [negb]; eexists; split; reflexivity. }
    destruct RES as (t' & RES & T'). exists (drop_row p d2), t'. split; [exact RES|].
    assert (ROWS : rows (drop_row p d2) = filter (fun r => negb (String.eqb (r_path r) p)) (rows d1)) by (unfold d2; destruct (file_exists d1 p), (locked e p); reflexivity).
    assert (FILES : files (drop_row p d2) = if file_exists d1 p && negb (locked e p) then aremove p (files d1) else files d1) by (unfold d2; destruct (file_exists d1 p), (locked e p); reflexivity).
    assert (FIN : cut (locked e) d [p] (drop_row p d2)).
    { assert (KEEP : forall r, In r (rows (drop_row p d2)) <-> In r (rows d1) /\ r_path r <> p).
      { intros r. rewrite ROWS, filter_In, negb_true_iff, String.eqb_neq. tauto. }
      split.
      - rewrite ROWS. destruct (c_rows _ _ _ _ C) as [g E]. rewrite E. exists (fun r => g r && negb (String.eqb (r_path r) p)).
        clear. induction (rows d) as [|x l IHl]; cbn; [reflexivity|]. destruct (g x); cbn; [|exact IHl]. destruct (negb _); [f_equal|]; exact IHl.
      - intros r I N. exists p. split; [left; reflexivity|]. destruct (string_dec (r_path r) p) as [->|NE]; [constructor|].
        destruct (c_gone _ _ _ _ C r I) as (q & Q & B); [intros J; apply N, KEEP; auto|]. exact (proj1 (SUB _ _ Q B)).
      - intros r I [X|[]]. apply KEEP in I. destruct I; congruence.
      - intros r q I E. apply KEEP in I. destruct I as [I NE]. destruct (c_parent _ _ _ _ C r q I E) as [A B].
        assert (Q : q <> p) by (intros ->; apply (c_left _ _ _ _ C r I), in_map, CH; split; [apply (cut_incl _ _ _ _ C), I|exact E]).
        split; [intros [X|[]]; congruence|]. intros J. specialize (B J). apply in_map_iff in B. destruct B as (x & X1 & X2). apply in_map_iff. exists x. split; [exact X1|]. apply KEEP. split; [exact X2|congruence].
      - rewrite FILES. destruct (c_files _ _ _ _ C) as [g E]. destruct (file_exists d1 p && negb (locked e p)); [|exists g; exact E].
        exists (fun y => g y && negb (String.eqb p (fst y))). rewrite aremove_filter, E. clear. induction (files d) as [|x l IHl]; cbn; [reflexivity|]. destruct (g x); cbn; [|exact IHl]. destruct (negb _); [f_equal|]; exact IHl.
      - intros x I N. rewrite FILES in N. destruct (in_dec string_dec x (akeys (files d1))) as [K|K].
        + destruct (file_exists d1 p && negb (locked e p)) eqn:X; [|contradiction]. rewrite aremove_keys_in in N. assert (x = p) by (destruct (string_dec x p); tauto). subst x.
          apply andb_prop in X. destruct X as [_ X]. apply negb_true_iff in X. split; [exact X|]. exists p. split; [left; reflexivity|constructor].
        + destruct (c_deleted _ _ _ _ C x I K) as (L & q & Q & B). split; [exact L|]. exists p. split; [left; reflexivity|exact (proj1 (SUB _ _ Q B))].
      - intros x H L. rewrite FILES. assert (PP : locked e p = false -> ~ In p (akeys (if file_exists d1 p && negb (locked e p) then aremove p (files d1) else files d1))).
        { intros LP. rewrite LP. cbn [negb]. rewrite andb_true_r. destruct (file_exists d1 p) eqn:X; [rewrite aremove_keys_in; tauto|]. intros J. apply exists_spec in J. congruence. }
        assert (MONO : forall y, In y (akeys (if file_exists d1 p && negb (locked e p) then aremove p (files d1) else files d1)) -> In y (akeys (files d1))).
        { intros y. destruct (file_exists d1 p && negb (locked e p)); [rewrite aremove_keys_in; tauto|tauto]. }
        destruct H as [[<-|[]]|(r & I & E & N)]; [exact (PP L)|]. destruct (string_dec x p) as [->|NE]; [exact (PP L)|].
        intros J. apply MONO in J. revert J. apply (c_removed _ _ _ _ C); [|exact L]. right. exists r. split; [exact I|]. split; [exact E|]. intros J. apply N, KEEP. split; [exact J|congruence]. }
    split; [exact FIN|]. split.
    - intros (r & RI & RP & RS). subst t'.
      (* the entry itself is still there after its children *)
      assert (R1 : In r (rows d1)).
      { destruct (c_rows _ _ _ _ C) as [g E]. destruct (g r) eqn:G; [rewrite E; apply filter_In; auto|]. exfalso.
        destruct (c_gone _ _ _ _ C r RI) as (q & Q & B); [rewrite E, filter_In; intros [_ X]; congruence|]. destruct (SUB _ _ Q B) as [_ X]. congruence. }
      assert (EX : file_exists d1 p = file_exists d p).
      { apply eq_true_iff_eq. rewrite !exists_spec. split; [apply (cut_files_incl _ _ _ _ _ C)|]. intros K. destruct (in_dec string_dec p (akeys (files d1))) as [K1|K1]; [exact K1|exfalso].
        destruct (c_deleted _ _ _ _ C _ K K1) as (_ & q & Q & B). destruct (SUB _ _ Q B) as [_ X]. congruence. }
      assert (C12 : cut (locked e) d1 [p] (drop_row p d2)).
      { assert (KEEP : forall r, In r (rows (drop_row p d2)) <-> In r (rows d1) /\ r_path r <> p).
        { intros x. rewrite ROWS, filter_In, negb_true_iff, String.eqb_neq. tauto. }
        split.
        - eexists. exact ROWS.
        - intros x I N. exists p. split; [left; reflexivity|]. destruct (string_dec (r_path x) p) as [->|NE]; [constructor|]. exfalso. apply N, KEEP. auto.
        - apply (c_left _ _ _ _ FIN).
        - intros x q I E. destruct (c_parent _ _ _ _ FIN x q I E) as [A B]. split; [exact A|]. intros J. apply B. apply in_map_iff in J. destruct J as (y & <- & J). apply in_map, (cut_incl _ _ _ _ C), J.
        - rewrite FILES. destruct (file_exists d1 p && negb (locked e p)); [eexists; apply aremove_filter|]. exists (fun _ => true). clear. induction (files d1) as [|x l IHl]; cbn; [reflexivity|]. congruence.
        - intros x I N. rewrite FILES in N. destruct (file_exists d1 p && negb (locked e p)) eqn:X; [|contradiction]. rewrite aremove_keys_in in N. assert (x = p) by (destruct (string_dec x p); tauto). subst x.
          apply andb_prop in X. destruct X as [_ X]. apply negb_true_iff in X. split; [exact X|]. exists p. split; [left; reflexivity|constructor].
        - intros x [H|(y & I & E & N)] L; [apply (c_removed _ _ _ _ FIN); auto|]. assert (r_path y = p) by (destruct (string_dec (r_path y) p) as [X|X]; [exact X|exfalso; apply N, KEEP; auto]).
          apply (c_removed _ _ _ _ FIN); [left; left; congruence|exact L]. }
      rewrite (freed_trans _ _ _ _ _ _ (t_rows _ _ T) C C12), F, RS.
      assert (OWN : freed d1 (drop_row p d2) = if file_exists d1 p then size_of r else 0); [|rewrite OWN; destruct (file_exists d1 p); lia].
      unfold freed. pose proof (t_rows _ _ (cut_tidy dir _ _ _ _ C T)) as N1.
      assert (FE : filter (fun r0 => gone (drop_row p d2) r0 && match alookup (r_path r0) (files d1) with Some _ => true | None => false end) (rows d1) = filter (fun r0 => String.eqb (r_path r0) p && file_exists d1 p) (rows d1)).
      { apply filter_ext_In. intros x I. destruct (String.eqb_spec (r_path x) p) as [X|X].
        - assert (G : gone (drop_row p d2) x = true) by (apply (gone_spec _ _ _ _ _ N1 C12 I); intros J; apply (c_left _ _ _ _ C12 x J); left; congruence). rewrite G. cbn [andb]. rewrite X. reflexivity.
        - assert (G : gone (drop_row p d2) x = false). { apply not_true_is_false. intros G. apply (gone_spec _ _ _ _ _ N1 C12 I) in G. apply G. rewrite ROWS. apply filter_In. split; [exact I|]. apply negb_true_iff, String.eqb_neq. exact X. }
          rewrite G. reflexivity. }
      rewrite FE. clear - N1 R1 RP. unfold size_of. destruct (file_exists d1 p).
      + induction (rows d1) as [|x l IHl]; [destruct R1|]. cbn in N1. inversion N1 as [|? ? M1 M2]; subst. cbn [filter]. destruct (String.eqb_spec (r_path x) (r_path r)) as [X|X]; cbn [andb map zsum].
        * assert (x = r) by (destruct R1 as [R1|R1]; [exact R1|exfalso; apply M1; rewrite X; apply in_map; exact R1]). subst x.
          assert (Z0 : filter (fun r0 => String.eqb (r_path r0) (r_path r) && true) l = []).
          { clear - M1. induction l as [|y l IHl]; [reflexivity|]. cbn in *. destruct (String.eqb_spec (r_path y) (r_path r)); [exfalso; apply M1; left; congruence|]. cbn. apply IHl. tauto. }
          rewrite Z0. cbn. lia.
        * apply IHl; [|exact M2]. destruct R1 as [R1|R1]; [congruence|exact R1].
      + assert (Z0 : filter (fun r0 => String.eqb (r_path r0) p && false) (rows d1) = []); [|rewrite Z0; reflexivity]. generalize (rows d1) as l. induction l as [|x l IHl]; cbn; [reflexivity|]. rewrite andb_false_r. exact IHl.
    - intros NP NC NF. assert (CS : cs = []). { destruct cs as [|c l] eqn:X; [reflexivity|]. destruct (CH c) as [H _]. destruct H as [H1 H2]; [left; reflexivity|]. destruct (NC c H1 H2). }
      assert (D1 : d1 = d /\ t = 0) by (rewrite CS in R; cbn in R; inversion R; auto). destruct D1 as [-> ->].
      assert (FX : file_exists d p = false) by (apply not_true_is_false; intros X; apply exists_spec in X; contradiction).
      rewrite T', FX. split; [reflexivity|]. unfold d2. rewrite FX. unfold drop_row. destruct d as [rs fs]. cbn [rows files] in *. f_equal.
      clear - NP. induction rs as [|x l IHl]; cbn; [reflexivity|]. cbn in NP. destruct (String.eqb_spec (r_path x) p); [tauto|]. cbn. f_equal. apply IHl. tauto.
  Qed.
End DiskProofs.
