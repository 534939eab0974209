(** Proofs about MatrixDb.find_entry: discovery of published weights and failing refreshes. *)
From Verif Require Import PyBase ListLemmas PyStr Float64 GridSpec GridVocab GridProofs Index IndexSpec IndexProofs Db.
Set Default Proof Using "Type".
Local Open Scope string_scope.
Local Open Scope list_scope.
Local Open Scope Z_scope.

Section P.
  Context {rest text : Type}.
  Variable parse : text -> result (file rest).
  Variable sha : text -> string.
  Variables (py_str : val -> string) (key_order : list string) (fuel : nat).
  Notation st := (st rest text).
  Notation find_entry := (find_entry rest text parse sha py_str key_order fuel).
  Notation step := (step rest text parse sha py_str key_order fuel).
  Notation run_db := (run_db rest text parse sha py_str key_order fuel).
  Notation reload := (reload rest text sha).
  Notation load_index := (load_index rest text parse sha).
  Notation get_or_load := (get_or_load rest text parse sha).
  Notation index_find := (index_find rest text py_str key_order fuel).
  Notation index_text := (index_text rest text sha).
  Notation s_disk := (s_disk rest text).
  Notation s_db := (s_db rest text).
  Notation s_log := (s_log rest text).
  Notation d_index := (d_index rest).
  Notation d_kind := (d_kind rest).
  Notation d_checked := (d_checked rest).
  Notation d_path := (d_path rest).
  Notation o_sha := (o_sha text).
  Notation o_gz := (o_gz text).
  Notation o_file := (o_file text).

  (** The checksum in the row is that of the file. *)
  Definition disk_ok (s : st) : Prop := forall t h, s_disk s = Some (t, Some h) -> h = sha t.

  Ltac proj := cbn [Db.s_disk Db.s_db Db.s_log Db.d_index Db.d_kind Db.d_checked Db.d_path set_disk set_db ask set_index set_path set_checked] in *.

  (** ** What each piece changes *)
  Lemma create_spec o s s' r : create_index rest text sha o s = (s', r) ->
    d_index (s_db s') = d_index (s_db s) /\ d_kind (s_db s') = d_kind (s_db s) /\ d_path (s_db s') = d_path (s_db s) /\ d_checked (s_db s') = d_checked (s_db s) /\
    s_log s' = AskIndex :: s_log s /\
    match o_gz o with
    | Ok t => s_disk s' = Some (t, Some (sha t)) /\ r = Ok tt
    | _ => s_disk s' = s_disk s /\ (forall u, r <> Ok u)
    end.
  Proof.
    clear. unfold create_index. destruct (o_gz o); intros H; inversion H; subst; cbn; repeat (split; [reflexivity|]); try reflexivity; intros u E; discriminate E.
  Qed.

  (** After a successful reload of a URL inventory the file on disk is the published one or the
      one that was there; a failing one leaves the index in memory alone. *)
  Lemma reload_spec o s s' r : d_kind (s_db s) = Url -> reload false o s = (s', r) ->
    d_index (s_db s') = d_index (s_db s) /\ d_kind (s_db s') = Url /\
    (r = Ok tt -> d_path (s_db s') = true /\
       ((exists t, o_gz o = Ok t /\ s_disk s' = Some (t, Some (sha t))) \/
        (exists t h, s_disk s = Some (t, Some h) /\ o_sha o = Ok h /\ s_disk s' = s_disk s))) /\
    (s_disk s' = s_disk s \/ s_disk s' = None \/ exists t, o_gz o = Ok t /\ s_disk s' = Some (t, Some (sha t))) /\
    ((s_log s' = s_log s \/ s_log s' = AskIndex :: s_log s) /\ d_checked (s_db s') = d_checked (s_db s) \/
     (s_log s' = AskSha :: s_log s \/ s_log s' = AskIndex :: AskSha :: s_log s) /\
     (match o_sha o with Ok _ => d_checked (s_db s') = true | _ => d_checked (s_db s') = d_checked (s_db s) end)).
  Proof.
    clear. intros K. unfold Db.reload. rewrite K. unfold get_index.
    destruct (s_disk s) as [[t [h|]]|] eqn:D.
    - unfold compare_sha. destruct (o_sha o) as [rs|e|] eqn:OS.
      + destruct (String.eqb_spec h rs) as [->|NE]; cbn [negb].
        * intros H. inversion H; subst; clear H. proj. split; [reflexivity|]. split; [exact K|]. split.
          { intros _. split; [reflexivity|]. right. exists t, rs. auto. }
          split; [auto|]. right. auto.
        * destruct (create_index rest text sha o _) as [s1 r1] eqn:C. destruct (create_spec _ _ _ _ C) as (C1 & C2 & C3 & C4 & C5 & C6). proj.
          destruct (o_gz o) as [t'|e|] eqn:G.
          -- destruct C6 as [C6 ->]. intros H. inversion H; subst; clear H. proj. split; [exact C1|]. split; [congruence|]. split.
             { intros _. split; [reflexivity|]. left. exists t'. auto. }
             split; [right; right; exists t'; auto|]. right. rewrite C5. auto.
          -- destruct C6 as [C6 N]. destruct r1 as [[]|x|]; [destruct (N tt eq_refl)| |]; intros H; inversion H; subst; clear H; proj;
               (split; [exact C1|]; split; [congruence|]; split; [discriminate|]; split; [auto|]; right; rewrite C5; auto).
          -- destruct C6 as [C6 N]. destruct r1 as [[]|x|]; [destruct (N tt eq_refl)| |]; intros H; inversion H; subst; clear H; proj;
               (split; [exact C1|]; split; [congruence|]; split; [discriminate|]; split; [auto|]; right; rewrite C5; auto).
      + intros H. inversion H; subst; clear H. proj. split; [reflexivity|]. split; [exact K|]. split; [discriminate|]. split; [auto|]. right. auto.
      + intros H. inversion H; subst; clear H. proj. split; [reflexivity|]. split; [exact K|]. split; [discriminate|]. split; [auto|]. right. auto.
    - unfold compare_sha. destruct (create_index rest text sha o _) as [s1 r1] eqn:C. destruct (create_spec _ _ _ _ C) as (C1 & C2 & C3 & C4 & C5 & C6). proj.
      destruct (o_gz o) as [t'|e|] eqn:G.
      + destruct C6 as [C6 ->]. intros H. inversion H; subst; clear H. proj. split; [exact C1|]. split; [congruence|]. split.
        { intros _. split; [reflexivity|]. left. exists t'. auto. }
        split; [right; right; exists t'; auto|]. left. rewrite C5. auto.
      + destruct C6 as [C6 N]. destruct r1 as [[]|x|]; [destruct (N tt eq_refl)| |]; intros H; inversion H; subst; clear H; proj;
          (split; [exact C1|]; split; [congruence|]; split; [discriminate|]; split; [auto|]; left; rewrite C5; auto).
      + destruct C6 as [C6 N]. destruct r1 as [[]|x|]; [destruct (N tt eq_refl)| |]; intros H; inversion H; subst; clear H; proj;
          (split; [exact C1|]; split; [congruence|]; split; [discriminate|]; split; [auto|]; left; rewrite C5; auto).
    - unfold ensure_index. rewrite D. destruct (create_index rest text sha o s) as [s1 r1] eqn:C. destruct (create_spec _ _ _ _ C) as (C1 & C2 & C3 & C4 & C5 & C6).
      destruct (o_gz o) as [t'|e|] eqn:G.
      + destruct C6 as [C6 ->]. intros H. inversion H; subst; clear H. proj. split; [exact C1|]. split; [congruence|]. split.
        { intros _. split; [reflexivity|]. left. exists t'. auto. }
        split; [right; right; exists t'; auto|]. left. rewrite C5. auto.
      + destruct C6 as [C6 N]. destruct r1 as [[]|x|]; [destruct (N tt eq_refl)| |]; intros H; inversion H; subst; clear H; proj;
          (split; [exact C1|]; split; [congruence|]; split; [discriminate|]; split; [left; congruence|]; left; rewrite C5; auto).
      + destruct C6 as [C6 N]. destruct r1 as [[]|x|]; [destruct (N tt eq_refl)| |]; intros H; inversion H; subst; clear H; proj;
          (split; [exact C1|]; split; [congruence|]; split; [discriminate|]; split; [left; congruence|]; left; rewrite C5; auto).
  Qed.

  Lemma text_spec o s s' r : d_kind (s_db s) = Url -> index_text o s = (s', r) ->
    d_index (s_db s') = d_index (s_db s) /\ d_kind (s_db s') = Url /\ d_checked (s_db s') = d_checked (s_db s) /\
    (s_log s' = s_log s \/ s_log s' = AskIndex :: s_log s) /\
    (s_disk s' = s_disk s \/ (s_disk s = None /\ exists t, o_gz o = Ok t /\ s_disk s' = Some (t, Some (sha t)))) /\
    (forall t, r = Ok t -> exists h, s_disk s' = Some (t, h)) /\
    (forall t h, s_disk s = Some (t, h) -> s_disk s' = s_disk s /\ r = Ok t).
  Proof.
    clear. intros K. unfold Db.index_text. rewrite K. destruct (s_disk s) as [[t h]|] eqn:D.
    - assert (X : forall s1, d_index (s_db s1) = d_index (s_db s) -> d_kind (s_db s1) = Url -> d_checked (s_db s1) = d_checked (s_db s) -> s_log s1 = s_log s -> s_disk s1 = s_disk s ->
          match s_disk s1 with Some (t, _) => (s1, Ok t) | None => (s1, Raise FileNotFoundError) end = (s', r) ->
          d_index (s_db s') = d_index (s_db s) /\ d_kind (s_db s') = Url /\ d_checked (s_db s') = d_checked (s_db s) /\
          (s_log s' = s_log s \/ s_log s' = AskIndex :: s_log s) /\
          (s_disk s' = Some (t, h) \/ (Some (t, h) = None /\ exists t, o_gz o = Ok t /\ s_disk s' = Some (t, Some (sha t)))) /\
          (forall t, r = Ok t -> exists h, s_disk s' = Some (t, h)) /\
          (forall t' h', Some (t, h) = Some (t', h') -> s_disk s' = Some (t, h) /\ r = Ok t')).
      { intros s1 A1 A2 A3 A4 A5. rewrite A5, D. intros H. inversion H; subst. split; [exact A1|]. split; [exact A2|]. split; [exact A3|]. split; [auto|].
        rewrite A5, D. split; [auto|]. split; [intros t' E; inversion E; subst; eauto|]. intros t' h' E. inversion E; subst. auto. }
      destruct (d_path (s_db s)); cbn [andb]; [apply (X s); auto|].
      unfold get_index, ensure_index. rewrite D. apply (X (set_path rest text s)); proj; auto.
    - rewrite andb_false_r. unfold get_index, ensure_index. rewrite D. destruct (create_index rest text sha o s) as [s1 r1] eqn:C. destruct (create_spec _ _ _ _ C) as (C1 & C2 & C3 & C4 & C5 & C6).
      destruct (o_gz o) as [t'|e|] eqn:G.
      + destruct C6 as [C6 ->]. proj. rewrite C6. intros H. inversion H; subst; clear H. proj. split; [exact C1|]. split; [congruence|]. split; [exact C4|]. split; [auto|].
        split; [right; split; [reflexivity|]; exists t'; auto|]. split; [intros t E; inversion E; subst; eauto|discriminate].
      + destruct C6 as [C6 N]. destruct r1 as [[]|x|]; [destruct (N tt eq_refl)| |]; intros H; inversion H; subst; clear H;
          (split; [exact C1|]; split; [congruence|]; split; [exact C4|]; split; [auto|]; split; [left; congruence|]; split; [discriminate|discriminate]).
      + destruct C6 as [C6 N]. destruct r1 as [[]|x|]; [destruct (N tt eq_refl)| |]; intros H; inversion H; subst; clear H;
          (split; [exact C1|]; split; [congruence|]; split; [exact C4|]; split; [auto|]; split; [left; congruence|]; split; [discriminate|discriminate]).
  Qed.
  Lemma load_spec o s s' r : d_kind (s_db s) = Url -> load_index o s = (s', r) ->
    d_kind (s_db s') = Url /\ d_checked (s_db s') = d_checked (s_db s) /\
    (s_log s' = s_log s \/ s_log s' = AskIndex :: s_log s) /\
    (s_disk s' = s_disk s \/ (s_disk s = None /\ exists t, o_gz o = Ok t /\ s_disk s' = Some (t, Some (sha t)))) /\
    (r = Ok tt -> exists t h f i, s_disk s' = Some (t, h) /\ parse t = Ok f /\ load [] f = Ok i /\ d_index (s_db s') = Some i) /\
    (forall t h f i, s_disk s' = Some (t, h) -> parse t = Ok f -> load [] f = Ok i -> r = Ok tt).
  Proof.
    clear. intros K. unfold Db.load_index. destruct (index_text o _) as [s1 q] eqn:T.
    destruct (text_spec _ (set_index rest text s (Some [])) _ _ K T) as (T1 & T2 & T3 & T4 & T5 & T6 & T7). proj.
    assert (W : forall t h, s_disk s1 = Some (t, h) -> q = Ok t).
    { intros t h E. destruct T5 as [T5|(D & t' & G & E')].
      - rewrite T5 in E. apply (T7 t h E).
      - unfold Db.index_text in T. proj. rewrite K, D, andb_false_r in T. unfold get_index, ensure_index in T. proj. rewrite D in T. unfold create_index in T. rewrite G in T. proj.
        inversion T; subst. proj. congruence. }
    destruct q as [t|e|]; cbn [bind].
    - destruct (T6 t eq_refl) as [h E]. destruct (parse t) as [f|e|] eqn:PT; cbn [bind].
      + destruct (load [] f) as [i|e|] eqn:LD; intros H; inversion H; subst; clear H; proj;
          (split; [exact T2|]; split; [exact T3|]; split; [exact T4|]; split; [exact T5|]).
        * split; [intros _; exists t, h, f, i; auto|reflexivity].
        * split; [discriminate|]. intros t' h' f' i' A B C. rewrite E in A. inversion A; subst. congruence.
        * split; [discriminate|]. intros t' h' f' i' A B C. rewrite E in A. inversion A; subst. congruence.
      + intros H; inversion H; subst; clear H. split; [exact T2|]; split; [exact T3|]; split; [exact T4|]; split; [exact T5|]. split; [discriminate|]. intros t' h' f' i' A B C. rewrite E in A. inversion A; subst. congruence.
      + intros H; inversion H; subst; clear H. split; [exact T2|]; split; [exact T3|]; split; [exact T4|]; split; [exact T5|]. split; [discriminate|]. intros t' h' f' i' A B C. rewrite E in A. inversion A; subst. congruence.
    - intros H; inversion H; subst; clear H. split; [exact T2|]; split; [exact T3|]; split; [exact T4|]; split; [exact T5|]. split; [discriminate|]. intros t' h' f' i' A B C. discriminate (W _ _ A).
    - intros H; inversion H; subst; clear H. split; [exact T2|]; split; [exact T3|]; split; [exact T4|]; split; [exact T5|]. split; [discriminate|]. intros t' h' f' i' A B C. discriminate (W _ _ A).
  Qed.
  Lemma index_find_spec s di do m s' x : index_find s di do m = (s', x) ->
    s_disk s' = s_disk s /\ s_log s' = s_log s /\ d_kind (s_db s') = d_kind (s_db s) /\ d_path (s_db s') = d_path (s_db s) /\ d_checked (s_db s') = d_checked (s_db s) /\
    match d_index (s_db s) with
    | Some i => d_index (s_db s') = Some (fst (find py_str key_order fuel i di do m)) /\ x = snd (find py_str key_order fuel i di do m)
    | None => d_index (s_db s') = None
    end.
  Proof.
    unfold Db.index_find. destruct (d_index (s_db s)) as [i|] eqn:D.
    - destruct (find py_str key_order fuel i di do m) as [i' y]. intros H; inversion H; subst; cbn. auto 8.
    - intros H; inversion H; subst. auto 8.
  Qed.

  (** ** C33 *)
  (** The lookup in the index as it is known locally found nothing. *)
  Definition unknown_locally (o : outside text) (s s2 : st) (di do : dict) (m : string) : Prop :=
    exists s1, get_or_load o s = (s1, Ok tt) /\ index_find s1 di do m = (s2, Ok None).
  Definition published (o : outside text) (t : text) : Prop := o_sha o = Ok (sha t) /\ o_gz o = Ok t.

  Lemma discover o s s2 di do m t f i :
    (forall t' h, s_disk s2 = Some (t', h) -> sha t' = sha t -> t' = t) -> disk_ok s2 ->
    d_kind (s_db s) = Url -> d_kind (s_db s2) = Url -> d_checked (s_db s2) = false -> unknown_locally o s s2 di do (method_alias m) ->
    published o t -> parse t = Ok f -> load [] f = Ok i ->
    snd (find_entry o s di do m) = snd (find py_str key_order fuel i di do (method_alias m)).
  Proof.
    intros INJ DK K K2 CH (s1 & E1 & E2) [OS OG] PT LD. unfold Db.find_entry. rewrite E1, E2.
    unfold is_local, checked_remote. rewrite K2, CH. cbn [negb andb].
    destruct (reload false o s2) as [s3 r3] eqn:R. destruct (reload_spec _ _ _ _ K2 R) as (R1 & R2 & R3 & R4 & R5).
    assert (EQ : r3 = Ok tt).
    { revert R. unfold Db.reload. rewrite K2. unfold get_index, ensure_index, compare_sha, create_index. rewrite OS, OG.
      destruct (s_disk s2) as [[t' [h|]]|] eqn:D; [|intros H; inversion H; subst; reflexivity|proj; intros H; inversion H; subst; reflexivity].
      destruct (negb (String.eqb h (sha t))); intros H; inversion H; subst; reflexivity. }
    subst r3. destruct (R3 eq_refl) as (R3a & R3b).
    assert (D3 : exists h, s_disk s3 = Some (t, h)).
    { destruct R3b as [(t' & A & B)|(t' & h & A & B & C)].
      - rewrite OG in A. inversion A; subst t'. eauto.
      - rewrite OS in B. inversion B; subst h. pose proof (DK _ _ A) as Q. assert (X : t' = t) by (apply (INJ _ _ A); symmetry; exact Q || exact Q). subst t'. rewrite C. eauto. }
    destruct D3 as [h D3]. destruct (load_index o s3) as [s4 r4] eqn:L. destruct (load_spec _ _ _ _ R2 L) as (L1 & L2 & L3 & L4 & L5 & L6).
    assert (D4 : s_disk s4 = Some (t, h)) by (destruct L4 as [L4|(L4 & _)]; congruence).
    rewrite (L6 _ _ _ _ D4 PT LD). destruct (L5 (L6 _ _ _ _ D4 PT LD)) as (t' & h' & f' & i' & A & B & C & D).
    rewrite D4 in A. inversion A; subst t' h'. assert (i' = i) by congruence. subst i'.
    destruct (index_find s4 di do (method_alias m)) as [s5 x] eqn:F. destruct (index_find_spec _ _ _ _ _ _ F) as (_ & _ & _ & _ & _ & G).
    rewrite D in G. cbn. apply G.
  Qed.
  (** A local inventory reads its index again on every miss. *)
  Lemma discover_local o s s2 di do m t f i : d_kind (s_db s2) = Local -> unknown_locally o s s2 di do (method_alias m) ->
    o_file o = Ok t -> parse t = Ok f -> load [] f = Ok i ->
    snd (find_entry o s di do m) = snd (find py_str key_order fuel i di do (method_alias m)).
  Proof.
    intros K2 (s1 & E1 & E2) OF PT LD. unfold Db.find_entry. rewrite E1, E2. unfold is_local, checked_remote. rewrite K2. cbn [negb andb].
    unfold Db.reload. rewrite K2. unfold Db.load_index, Db.index_text. proj. rewrite K2, OF. cbn [bind]. rewrite PT. cbn [bind]. rewrite LD.
    unfold Db.index_find. proj. destruct (find py_str key_order fuel i di do (method_alias m)). reflexivity.
  Qed.

  (** ** Invariants of histories *)
  Lemma get_or_load_spec o s s' r : d_kind (s_db s) = Url -> get_or_load o s = (s', r) ->
    d_kind (s_db s') = Url /\ d_checked (s_db s') = d_checked (s_db s) /\
    (s_log s' = s_log s \/ s_log s' = AskIndex :: s_log s) /\
    (s_disk s' = s_disk s \/ (s_disk s = None /\ exists t, o_gz o = Ok t /\ s_disk s' = Some (t, Some (sha t)))).
  Proof.
    clear. intros K. unfold Db.get_or_load. destruct (d_index (s_db s)); [intros H; inversion H; subst; auto 8|].
    intros H. destruct (load_spec _ _ _ _ K H) as (A & B & C & D & _). auto.
  Qed.
  (** What a lookup does to the disk and to the remote. *)
  Definition asks (l : list remote) : nat := count_occ (fun a b : remote => ltac:(decide equality)) l AskSha.
  Lemma find_entry_spec o s di do m s' x : d_kind (s_db s) = Url -> find_entry o s di do m = (s', x) ->
    d_kind (s_db s') = Url /\
    (s_disk s' = s_disk s \/ s_disk s' = None \/ exists t, o_gz o = Ok t /\ s_disk s' = Some (t, Some (sha t))) /\
    ((asks (s_log s') = asks (s_log s) /\ d_checked (s_db s') = d_checked (s_db s)) \/
     (asks (s_log s') = S (asks (s_log s)) /\ d_checked (s_db s) = false /\
      match o_sha o with Ok _ => d_checked (s_db s') = true | _ => d_checked (s_db s') = d_checked (s_db s) end)).
  Proof.
    intros K. unfold Db.find_entry. destruct (get_or_load o s) as [s1 r1] eqn:E1. destruct (get_or_load_spec _ _ _ _ K E1) as (A1 & A2 & A3 & A4).
    assert (Q1 : asks (s_log s1) = asks (s_log s)) by (destruct A3 as [-> | ->]; reflexivity).
    assert (D1 : s_disk s1 = s_disk s \/ s_disk s1 = None \/ exists t, o_gz o = Ok t /\ s_disk s1 = Some (t, Some (sha t))) by (destruct A4 as [A4|(_ & A4)]; auto).
    destruct r1 as [[]|e|]; [|intros H; inversion H; subst; auto..].
    destruct (index_find s1 di do (method_alias m)) as [s2 r2] eqn:E2. destruct (index_find_spec _ _ _ _ _ _ E2) as (B1 & B2 & B3 & B4 & B5 & _).
    assert (K2 : d_kind (s_db s2) = Url) by congruence. rewrite <- B1 in D1.
    assert (Q2 : asks (s_log s2) = asks (s_log s)) by congruence. assert (C2 : d_checked (s_db s2) = d_checked (s_db s)) by congruence.
    assert (END : forall z, (s2, z) = (s', x) ->  d_kind (s_db s') = Url /\
      (s_disk s' = s_disk s \/ s_disk s' = None \/ exists t, o_gz o = Ok t /\ s_disk s' = Some (t, Some (sha t))) /\
      ((asks (s_log s') = asks (s_log s) /\ d_checked (s_db s') = d_checked (s_db s)) \/
       (asks (s_log s') = S (asks (s_log s)) /\ d_checked (s_db s) = false /\
        match o_sha o with Ok _ => d_checked (s_db s') = true | _ => d_checked (s_db s') = d_checked (s_db s) end))).
    { intros z H. inversion H; subst. auto. }
    destruct r2 as [[e|]|e|]; try apply END.
    unfold is_local, checked_remote. rewrite K2. cbn [negb andb]. destruct (d_checked (s_db s2)) eqn:CH; cbn [negb]; [apply END|].
    destruct (reload false o s2) as [s3 r3] eqn:R. destruct (reload_spec _ _ _ _ K2 R) as (R1 & R2 & R3 & R4 & R5).
    assert (D3 : s_disk s3 = s_disk s \/ s_disk s3 = None \/ exists t, o_gz o = Ok t /\ s_disk s3 = Some (t, Some (sha t))).
    { destruct R4 as [R4|[R4|R4]]; auto. rewrite R4. exact D1. }
    assert (Q3 : (asks (s_log s3) = asks (s_log s) /\ d_checked (s_db s3) = d_checked (s_db s)) \/
       (asks (s_log s3) = S (asks (s_log s)) /\ d_checked (s_db s) = false /\
        match o_sha o with Ok _ => d_checked (s_db s3) = true | _ => d_checked (s_db s3) = d_checked (s_db s) end)).
    { destruct R5 as [[R5 R6]|[R5 R6]]; [left|right].
      - split; [rewrite <- Q2; destruct R5 as [-> | ->]; reflexivity|congruence].
      - split; [rewrite <- Q2; destruct R5 as [-> | ->]; reflexivity|]. split; [congruence|]. destruct (o_sha o); congruence. }
    destruct r3 as [[]|e|]; [|intros H; inversion H; subst; auto..].
    destruct (load_index o s3) as [s4 r4] eqn:L. destruct (load_spec _ _ _ _ R2 L) as (L1 & L2 & L3 & L4 & _ & _).
    assert (D4 : s_disk s4 = s_disk s \/ s_disk s4 = None \/ exists t, o_gz o = Ok t /\ s_disk s4 = Some (t, Some (sha t))).
    { destruct L4 as [L4|(_ & L4)]; [rewrite L4; exact D3|auto]. }
    assert (Q4 : (asks (s_log s4) = asks (s_log s) /\ d_checked (s_db s4) = d_checked (s_db s)) \/
       (asks (s_log s4) = S (asks (s_log s)) /\ d_checked (s_db s) = false /\
        match o_sha o with Ok _ => d_checked (s_db s4) = true | _ => d_checked (s_db s4) = d_checked (s_db s) end)).
    { rewrite L2. assert (Z : asks (s_log s4) = asks (s_log s3)) by (destruct L3 as [-> | ->]; reflexivity). rewrite Z. exact Q3. }
    destruct r4 as [[]|e|]; [|intros H; inversion H; subst; auto..].
    intros F. destruct (index_find_spec _ _ _ _ _ _ F) as (F1 & F2 & F3 & F4 & F5 & _). rewrite F1, F2, F3, F5. auto.
  Qed.
  Lemma step_disk_ok s a : d_kind (s_db s) = Url -> disk_ok s -> disk_ok (fst (step s a)) /\ d_kind (s_db (fst (step s a))) = Url.
  Proof.
    intros K DK. destruct a as [o di do m| | |]; cbn [Db.step].
    - destruct (find_entry o s di do m) as [s' x] eqn:E. destruct (find_entry_spec _ _ _ _ _ _ _ K E) as (A & B & _). cbn [fst]. split; [|exact A].
      intros t h D. destruct B as [B|[B|(t' & _ & B)]]; [rewrite B in D; apply (DK _ _ D)|congruence|]. rewrite B in D. inversion D. reflexivity.
    - cbn. split; [intros t h D; discriminate D|exact K].
    - cbn. split; [|exact K]. intros t h D. cbn in D. destruct (s_disk s) as [[? ?]|]; discriminate D.
    - cbn. split; [exact DK|exact K].
  Qed.
  Lemma run_disk_ok l : forall s, d_kind (s_db s) = Url -> disk_ok s -> disk_ok (run_db s l) /\ d_kind (s_db (run_db s l)) = Url.
  Proof.
    induction l as [|a l IH]; intros s K D; [split; assumption|]. cbn [Db.run_db fold_left]. destruct (step_disk_ok s a K D) as [A B]. exact (IH _ B A).
  Qed.
  (** The remote checksum is asked for at most once when it can be read. *)
  Definition reachable_op (a : op text) : Prop :=
    match a with Lookup _ o _ _ _ => exists h, o_sha o = Ok h | Restart _ => False | _ => True end.
  Lemma run_once l : forall s, d_kind (s_db s) = Url -> Forall reachable_op l ->
    (d_checked (s_db s) = false -> asks (s_log s) = 0%nat) -> (asks (s_log s) <= 1)%nat ->
    (asks (s_log (run_db s l)) <= 1)%nat.
  Proof.
    induction l as [|a l IH]; intros s K F C Q; [exact Q|]. inversion F as [|? ? F1 F2]; subst. cbn [Db.run_db fold_left].
    assert (X : d_kind (s_db (fst (step s a))) = Url /\ (d_checked (s_db (fst (step s a))) = false -> asks (s_log (fst (step s a))) = 0%nat) /\ (asks (s_log (fst (step s a))) <= 1)%nat).
    { destruct a as [o di do m| | |]; cbn [Db.step].
      - destruct (find_entry o s di do m) as [s' x] eqn:E. destruct (find_entry_spec _ _ _ _ _ _ _ K E) as (A & _ & B). cbn [fst].
        split; [exact A|]. destruct F1 as [h OS]. rewrite OS in B. destruct B as [[B1 B2]|(B1 & B2 & B3)].
        + rewrite B1, B2. auto.
        + rewrite (C B2) in B1. rewrite B1. split; [congruence|lia].
      - cbn. auto.
      - cbn. auto.
      - destruct F1. }
    destruct X as (X1 & X2 & X3). exact (IH _ X1 F2 X2 X3).
  Qed.

  (** ** C34 *)
  (** While every index that can be downloaded is good, weights found once stay available,
      whatever fails. *)
  Section Keep.
    Variables (qi qo : gspec) (di0 do0 : dict) (m0 : string).
    Variable reqs : list (dict * dict * string).
    (** The text can be loaded, its index has an entry for the request, and no request of the
        history makes a comparison raise. *)
    Definition good (t : text) : Prop :=
      exists f i0, parse t = Ok f /\ load [] f = Ok i0 /\
        (exists e, first py_str key_order fuel i0 qi qo (method_alias m0) = Ok (Some e)) /\
        (forall di do m gi go, In (di, do, m) reqs -> from_dict di = Ok gi -> from_dict do = Ok go ->
           exists x, first py_str key_order fuel i0 gi go (method_alias m) = Ok x).
    Definition good_op (a : op text) : Prop :=
      match a with
      | Lookup _ o di do m => In (di, do, m) reqs /\ (forall t, o_gz o = Ok t -> good t)
      | Restart _ => False
      | _ => True
      end.
    Definition good_index (i : index rest) : Prop :=
      exists t f i0, good t /\ parse t = Ok f /\ load [] f = Ok i0 /\ used_index fuel i0 i.
    Definition keeps (s : st) : Prop :=
      d_kind (s_db s) = Url /\ (forall t h, s_disk s = Some (t, h) -> good t) /\
      exists i, d_index (s_db s) = Some i /\ good_index i.
    Lemma good_find i di do m : good_index i -> In (di, do, m) reqs ->
      good_index (fst (find py_str key_order fuel i di do (method_alias m))).
    Proof.
      intros (t & f & i0 & G & PT & LD & U) I.
      destruct (find_used py_str key_order fuel i0 i di do (method_alias m) U) as [FD K].
      pose proof G as (f' & i0' & PT' & LD' & _ & R).
      assert (f' = f) by congruence. subst f'. assert (i0' = i0) by congruence. subst i0'.
      destruct (from_dict di) as [gi|e|] eqn:Ei.
      - destruct (from_dict do) as [go|e|] eqn:Eo.
        + destruct (R di do m gi go I Ei Eo) as [x X]. cbn [bind] in FD. rewrite X in FD.
          destruct (snd (find py_str key_order fuel i di do (method_alias m))) as [y|e|] eqn:SN; [|destruct x; cbn in FD; discriminate FD..].
          exists t, f, i0. split; [exact G|]. split; [exact PT|]. split; [exact LD|]. exact (K y eq_refl).
        + unfold find. rewrite Ei, Eo. cbn. exists t, f, i0. auto.
        + unfold find. rewrite Ei, Eo. cbn. exists t, f, i0. auto.
      - unfold find. rewrite Ei. cbn. exists t, f, i0. auto.
      - unfold find. rewrite Ei. cbn. exists t, f, i0. auto.
    Qed.
    Lemma keeps_step s a : keeps s -> good_op a -> keeps (fst (step s a)).
    Proof.
      intros (K & DG & i & EI & GI) GO. destruct a as [o di do m| | |]; cbn [Db.step].
      - destruct GO as [IN GZ]. destruct (find_entry o s di do m) as [s' x] eqn:E. cbn [fst].
        destruct (find_entry_spec _ _ _ _ _ _ _ K E) as (K' & DK & _). split; [exact K'|]. split.
        { intros t h D. destruct DK as [DK|[DK|(t' & OG & DK)]]; [rewrite DK in D; exact (DG _ _ D)|congruence|].
          rewrite DK in D. inversion D; subst. exact (GZ _ OG). }
        revert E. unfold Db.find_entry, Db.get_or_load. rewrite EI.
        destruct (index_find s di do (method_alias m)) as [s2 r2] eqn:E2. destruct (index_find_spec _ _ _ _ _ _ E2) as (B1 & B2 & B3 & B4 & B5 & B6). rewrite EI in B6.
        destruct B6 as [B6 B7]. pose proof (good_find i di do m GI IN) as GI2.
        assert (END : forall z, (s2, z) = (s', x) -> exists i, d_index (s_db s') = Some i /\ good_index i).
        { intros z H. inversion H; subst. eexists. split; [exact B6|exact GI2]. }
        destruct r2 as [[e|]|e|]; try apply END.
        assert (K2 : d_kind (s_db s2) = Url) by congruence.
        unfold is_local, checked_remote. rewrite K2. cbn [negb andb]. destruct (d_checked (s_db s2)); cbn [negb]; [apply END|].
        destruct (reload false o s2) as [s3 r3] eqn:R. destruct (reload_spec _ _ _ _ K2 R) as (R1 & R2 & R3 & R4 & R5).
        destruct r3 as [[]|e|]; [|intros H; inversion H; subst; rewrite R1; eexists; split; [exact B6|exact GI2]..].
        destruct (load_index o s3) as [s4 r4] eqn:L. destruct (load_spec _ _ _ _ R2 L) as (L1 & L2 & L3 & L4 & L5 & L6).
        assert (G4 : exists t h, s_disk s4 = Some (t, h) /\ good t).
        { destruct (R3 eq_refl) as (_ & [(t & OG & D)|(t & h & D & _ & D')]).
          - exists t, (Some (sha t)). split; [destruct L4 as [L4|(L4 & _)]; congruence|exact (GZ _ OG)].
          - exists t, (Some h). split; [destruct L4 as [L4|(L4 & _)]; congruence|]. rewrite B1 in D. exact (DG _ _ D). }
        destruct G4 as (t & h & D4 & Gt). pose proof Gt as (f & i0 & PT & LD & _ & _). pose proof (L6 _ _ _ _ D4 PT LD) as ->.
        destruct (L5 eq_refl) as (t' & h' & f' & i' & A1 & A2 & A3 & A4). assert (t' = t) by congruence. subst t'.
        assert (f' = f) by congruence. subst f'. assert (i' = i0) by congruence. subst i'.
        intros F. destruct (index_find_spec _ _ _ _ _ _ F) as (F1 & F2 & F3 & F4 & F5 & F6). rewrite A4 in F6. destruct F6 as [F6 F7].
        eexists. split; [exact F6|]. apply good_find; [|exact IN]. exists t, f, i0. split; [exact Gt|]. split; [exact PT|]. split; [exact LD|]. apply used_index_refl.
      - cbn. split; [exact K|]. split; [discriminate|]. exists i. auto.
      - cbn. split; [exact K|]. split; [|exists i; auto]. intros t h D. destruct (s_disk s) as [[t' h']|] eqn:Q; [|discriminate D]. cbn in D. inversion D; subst. exact (DG _ _ eq_refl).
      - destruct GO.
    Qed.
    Lemma keeps_run l : forall s, keeps s -> Forall good_op l -> keeps (run_db s l).
    Proof.
      induction l as [|a l IH]; intros s Hs F; [exact Hs|]. inversion F as [|? ? F1 F2]; subst. cbn [Db.run_db fold_left].
      exact (IH _ (keeps_step s a Hs F1) F2).
    Qed.
    (** In such a state the request is answered without any help from outside. *)
    Lemma keeps_found s o : from_dict di0 = Ok qi -> from_dict do0 = Ok qo -> keeps s -> exists e, snd (find_entry o s di0 do0 m0) = Ok (Some e).
    Proof.
      intros Q1 Q2 (K & DG & i & EI & t & f & i0 & G & PT & LD & U).
      pose proof G as (f' & i0' & PT' & LD' & (e & FS) & _). assert (f' = f) by congruence. subst f'. assert (i0' = i0) by congruence. subst i0'.
      destruct (find_used py_str key_order fuel i0 i di0 do0 (method_alias m0) U) as [FD _]. rewrite Q1, Q2 in FD. cbn [bind] in FD. rewrite FS in FD.
      unfold Db.find_entry, Db.get_or_load. rewrite EI. unfold Db.index_find. rewrite EI.
      destruct (find py_str key_order fuel i di0 do0 (method_alias m0)) as [i' x]. cbn [snd] in FD.
      destruct x as [[e'|]|y|]; cbn in FD; try discriminate FD. exists e'. reflexivity.
    Qed.
  End Keep.
End P.
