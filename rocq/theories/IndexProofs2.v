(** Loading, writing and subsetting weights indexes; addresses of the weights files. *)
From Verif Require Import PyBase ListLemmas PyStr Float64 GridSpec GridVocab GridProofs GridProofs3 Index IndexSpec IndexProofs.
Set Default Proof Using "Type".
Local Open Scope string_scope.
Local Open Scope list_scope.
Local Open Scope Z_scope.

Section P.
  Context {rest : Type}.

  (** ** load *)
  Lemma load_entry_reads n (r : raw rest) e : load_entry n r = Ok e <-> reads n r e.
  Proof.
    unfold load_entry, reads. destruct (r_input r) as [i|], (r_output r) as [o|];
      try (split; [discriminate|intros (_ & _ & ? & ? & A & _ & B & _); discriminate]).
    destruct (from_dict i) as [gi|x|] eqn:Ei; cbn [bind];
      try (split; [discriminate|intros (_ & _ & ? & ? & A & B & _); inversion A; subst; congruence]).
    destruct (from_dict o) as [go|x|] eqn:Eo; cbn [bind];
      try (split; [discriminate|intros (_ & _ & ? & ? & _ & _ & A & B); inversion A; subst; congruence]).
    split.
    - intros H. inversion H; subst. cbn. split; [reflexivity|]. split; [reflexivity|]. exists i, o. auto.
    - intros (N & R & i' & o' & A & B & C & D). inversion A; inversion C; subst i' o'.
      destruct e as [ei eo en er]. cbn in *. congruence.
  Qed.
  Lemma load_entry_loadable n (r : raw rest) : loadable r = is_ok (load_entry n r).
  Proof.
    unfold loadable, load_entry. destruct (r_input r) as [i|], (r_output r) as [o|]; try reflexivity.
    destruct (from_dict i); cbn; [|reflexivity..]. destruct (from_dict o); reflexivity.
  Qed.
  Definition loaded (m : list (string * raw rest)) : index rest :=
    flat_map (fun p => match load_entry (fst p) (snd p) with Ok e => [(fst p, e)] | _ => [] end) m.
  Lemma loaded_keys m n : In n (akeys (loaded m)) -> In n (akeys m).
  Proof.
    induction m as [|[k r] m IH]; cbn; [tauto|]. destruct (load_entry k r); cbn; intuition.
  Qed.
  Lemma fold_load m : forall idx, NoDup (akeys m) -> (forall n, In n (akeys m) -> ~ In n (akeys idx)) ->
    fold_left load_item m idx = idx ++ loaded m.
  Proof.
    induction m as [|[k r] m IH]; intros idx N D; cbn [fold_left loaded flat_map]; [symmetry; apply app_nil_r|].
    inversion N as [|? ? N1 N2]; subst. unfold load_item at 2. cbn [fst snd].
    destruct (load_entry k r) as [e|x|].
    - rewrite aset_notin by (apply D; left; reflexivity). rewrite IH; [rewrite <- app_assoc; reflexivity|exact N2|].
      intros n I. rewrite akeys_app. cbn. intros J. apply in_app_or in J. destruct J as [J|[->|[]]]; [apply (D n); [right; exact I|exact J]|contradiction].
    - rewrite IH; [reflexivity|exact N2|]. intros n I. apply D. right. exact I.
    - rewrite IH; [reflexivity|exact N2|]. intros n I. apply D. right. exact I.
  Qed.
  Lemma loaded_reads m : Forall2 (fun p q => fst q = fst p /\ reads (fst p) (snd p) (snd q)) (filter (fun p => loadable (snd p)) m) (loaded m).
  Proof.
    induction m as [|[k r] m IH]; cbn [filter loaded flat_map fst snd]; [constructor|].
    rewrite (load_entry_loadable k r). destruct (load_entry k r) as [e|x|] eqn:E; cbn [is_ok app]; [|exact IH..].
    constructor; [|exact IH]. split; [reflexivity|]. apply load_entry_reads. exact E.
  Qed.
  Lemma load_version (i : index rest) f i' : load i f = Ok i' -> f_version f = Some 1 /\ exists m, f_matrix f = Some m.
  Proof.
    unfold load. destruct (f_version f) as [v|]; [|discriminate]. destruct (Z.eqb_spec v VERSION) as [->|]; [|discriminate].
    destruct (f_matrix f); [eauto|discriminate].
  Qed.
  Lemma load_loaded f m : f_version f = Some 1 -> f_matrix f = Some m -> NoDup (akeys m) -> load [] f = Ok (loaded m).
  Proof.
    intros V M N. unfold load. rewrite V, M. cbn. rewrite fold_load; [reflexivity|exact N|intros n _ []].
  Qed.
  (** A loaded index: each entry under its own name, read from its JSON entry. *)
  Definition proper (i : index rest) : Prop :=
    NoDup (akeys i) /\ Forall (fun p => reads (fst p) (e_raw (snd p)) (snd p)) i.
  Lemma loaded_proper m : NoDup (akeys m) -> proper (loaded m).
  Proof.
    intros N. split.
    - induction m as [|[k r] m IH]; cbn; [constructor|]. inversion N as [|? ? N1 N2]; subst.
      destruct (load_entry k r); cbn; [|exact (IH N2)..]. constructor; [|exact (IH N2)]. intros H. apply N1. apply loaded_keys. exact H.
    - pose proof (loaded_reads m) as F. clear N. induction F as [|p q l l' [A B] F IH]; constructor; [|exact IH].
      rewrite A. pose proof B as (_ & -> & _). exact B.
  Qed.

  (** ** to_raw *)
  Lemma to_raw_matrix (i : index rest) : proper i -> f_matrix (to_raw i) = Some (map (fun p => (fst p, e_raw (snd p))) i).
  Proof.
    intros [N F]. unfold to_raw. cbn. f_equal. revert N F.
    assert (G : forall i acc, NoDup (akeys i) -> (forall n, In n (akeys i) -> ~ In n (akeys acc)) ->
       Forall (fun p => reads (fst p) (e_raw (snd p)) (snd p)) i ->
       fold_left (fun m p => aset (e_name (snd p)) (e_raw (snd p)) m) i acc = acc ++ map (fun p : string * entry rest => (fst p, e_raw (snd p))) i).
    { clear i. induction i as [|[k e] i IH]; intros acc N D F; cbn [fold_left map]; [symmetry; apply app_nil_r|].
      inversion N as [|? ? N1 N2]; subst. inversion F as [|? ? (E & _) F2]; subst. cbn [fst snd] in *.
      rewrite E. rewrite aset_notin by (apply D; left; reflexivity). rewrite IH; [rewrite <- app_assoc; reflexivity|exact N2| |exact F2].
      intros n I. rewrite akeys_app. cbn. intros J. apply in_app_or in J. destruct J as [J|[->|[]]]; [apply (D n); [right; exact I|exact J]|contradiction]. }
    intros N F. apply (G i [] N (fun _ _ x => x) F).
  Qed.
  Lemma load_to_raw (i : index rest) : proper i -> load [] (to_raw i) = Ok i.
  Proof.
    intros P. pose proof P as [N F].
    assert (K : akeys (map (fun p : string * entry rest => (fst p, e_raw (snd p))) i) = akeys i) by (rewrite !akeys_map, map_map; reflexivity).
    rewrite (load_loaded (to_raw i) _ eq_refl (to_raw_matrix i P)) by (rewrite K; exact N). f_equal. clear P N K.
    induction F as [|[k e] l H F IH]; [reflexivity|]. cbn [map loaded flat_map fst snd] in *.
    apply load_entry_reads in H. rewrite H. cbn. f_equal. exact IH.
  Qed.

  Variables (py_str : val -> string) (key_order : list string) (fuel : nat).
  Notation used_entry := (@used_entry rest fuel).
  Notation used_index := (@used_index rest fuel).
  Lemma used_raw i0 i : used_index i0 i -> to_raw i = to_raw i0.
  Proof.
    clear. intros U. unfold to_raw. do 2 f_equal. generalize (@nil (string * raw rest)).
    induction U as [|p0 p l0 l (N & _ & _ & E & R) U IH]; intros acc; cbn [fold_left]; [reflexivity|]. rewrite E, R. apply IH.
  Qed.
  Lemma used_keys i0 i : used_index i0 i -> akeys i = akeys i0.
  Proof. clear. induction 1 as [|[? ?] [? ?] l0 l (N & _) U IH]; [reflexivity|]. cbn in *. congruence. Qed.

  (** ** subset *)
  Notation answers := (answers py_str key_order fuel).
  Notation no_answer := (does_not_answer py_str key_order fuel).
  (** The entry an index finds for a request. *)
  Definition finds (i : index rest) (gi go : gspec) (m : string) (e : entry rest) : Prop := first py_str key_order fuel i gi go m = Ok (Some e).
  Definition from (i0 res : index rest) : Prop :=
    NoDup (akeys res) /\ Forall (fun p => exists e0, In (fst p, e0) i0 /\ used_entry e0 (snd p)) res.
  Lemma In_aset {A} k (v : A) l p : In p (aset k v l) -> p = (k, v) \/ In p l.
  Proof.
    clear. induction l as [|[k' a] l IH]; cbn; [intuition|]. destruct (String.eqb_spec k k') as [->|]; cbn; intuition.
  Qed.
  Lemma NoDup_aset {A} k (v : A) l : NoDup (akeys l) -> NoDup (akeys (aset k v l)).
  Proof.
    clear. intros N. rewrite akeys_aset. unfold amem. destruct (alookup k l) eqn:E; [exact N|]. apply NoDup_snoc; [exact N|]. apply alookup_None. exact E.
  Qed.
  Lemma subset_spec fs : forall i0 i res i' res', proper i0 -> used_index i0 i -> from i0 res ->
    forall fom, subset_loop py_str key_order fuel i res fs fom = (i', Ok res') ->
    used_index i0 i' /\ from i0 res' /\
    (forall n, In n (akeys res) -> In n (akeys res')) /\
    (forall f gi go, In f fs -> request (fl_input f) (fl_output f) gi go ->
       (exists e0, finds i0 gi go (filter_method f) e0 /\ In (e_name e0) (akeys res')) \/
       (fom = false /\ Forall (fun p => no_answer (snd p) gi go (filter_method f)) i0)) /\
    (forall n, In n (akeys res') -> In n (akeys res) \/
       exists f gi go e0, In f fs /\ request (fl_input f) (fl_output f) gi go /\ finds i0 gi go (filter_method f) e0 /\ e_name e0 = n).
  Proof.
    induction fs as [|f fs IH]; intros i0 i res i' res' P U FR fom H; cbn [subset_loop] in H.
    - inversion H; subst. split; [exact U|]. split; [exact FR|]. split; [auto|]. split; [intros f gi go []|auto].
    - pose proof (find_used py_str key_order fuel i0 i (fl_input f) (fl_output f) (filter_method f) U) as [FD K].
      destruct (find py_str key_order fuel i (fl_input f) (fl_output f) (filter_method f)) as [i1 x]. cbn [fst snd] in *.
      destruct x as [[e|]|x|]; try discriminate H.
      + specialize (K _ eq_refl).
        destruct (from_dict (fl_input f)) as [gi|x|] eqn:Ei; cbn [bind] in FD; try (cbn in FD; discriminate FD).
        destruct (from_dict (fl_output f)) as [go|x|] eqn:Eo; cbn [bind] in FD; try (cbn in FD; discriminate FD).
        destruct (first py_str key_order fuel i0 gi go (filter_method f)) as [[e0|]|x|] eqn:EF; cbn in FD; try discriminate FD.
        assert (IN : In (e_name e0, e0) i0).
        { apply first_some in EF. destruct EF as (pre & n & post & E & _). assert (I : In (n, e0) i0) by (rewrite E; apply in_or_app; right; left; reflexivity).
          destruct P as [_ F]. rewrite Forall_forall in F. destruct (F _ I) as (Q & _). cbn in Q. subst n. exact I. }
        assert (NM : e_name e = e_name e0) by apply FD. rewrite NM in H.
        assert (FR' : from i0 (aset (e_name e0) e res)).
        { destruct FR as [N F]. split; [apply NoDup_aset; exact N|]. rewrite Forall_forall in *. intros p J. apply In_aset in J. destruct J as [->|J]; [|apply F; exact J]. exists e0. auto. }
        assert (KM : forall n, In n (akeys (aset (e_name e0) e res)) <-> n = e_name e0 \/ In n (akeys res)).
        { intros n. rewrite akeys_aset. unfold amem. destruct (alookup (e_name e0) res) eqn:AL.
          - split; [auto|]. intros [->|J]; [|exact J]. eapply alookup_Some_key. exact AL.
          - rewrite in_app_iff. cbn. intuition. }
        destruct (IH i0 i1 _ i' res' P K FR' fom H) as (G1 & G2 & G3 & G4 & G5). split; [exact G1|]. split; [exact G2|].
        split; [intros n J; apply G3, KM; auto|]. split.
        * intros f' gi' go' [<-|J] [R1 R2]; [|apply (G4 f' gi' go' J); split; assumption].
          left. exists e0. rewrite Ei in R1. rewrite Eo in R2. inversion R1; inversion R2; subst gi' go'. split; [exact EF|]. apply G3, KM. auto.
        * intros n J. destruct (G5 n J) as [J1|(f' & gi' & go' & e1 & A & B & C & D)].
          -- apply KM in J1. destruct J1 as [->|J1]; [|auto]. right. exists f, gi, go, e0. split; [left; reflexivity|]. split; [split; assumption|]. auto.
          -- right. exists f', gi', go', e1. split; [right; exact A|]. auto.
      + specialize (K _ eq_refl). destruct fom; [discriminate H|].
        destruct (IH i0 i1 _ i' res' P K FR false H) as (G1 & G2 & G3 & G4 & G5). split; [exact G1|]. split; [exact G2|]. split; [exact G3|]. split.
        * intros f' gi' go' [<-|J] [R1 R2]; [|apply (G4 f' gi' go' J); split; assumption].
          right. split; [reflexivity|]. rewrite R1, R2 in FD. cbn [bind] in FD. apply first_none.
          destruct (first py_str key_order fuel i0 gi' go' (filter_method f)) as [[?|]|?|]; cbn in FD; try discriminate FD; reflexivity.
        * intros n J. destruct (G5 n J) as [J1|(f' & gi' & go' & e1 & A & B & C & D)]; [auto|]. right. exists f', gi', go', e1. split; [right; exact A|]. auto.
  Qed.
  (** An index whose entries come from [i0] is a used copy of a list of entries of [i0]. *)
  Lemma from_list i0 res : from i0 res -> exists res0, used_index res0 res /\ incl res0 i0.
  Proof.
    clear. intros [N F]. clear N. induction F as [|[n e] l (e0 & I & U) F (res0 & IH1 & IH2)].
    - exists []. split; [constructor|intros x []].
    - exists ((n, e0) :: res0). split; [constructor; [cbn; auto|exact IH1]|]. intros x [<-|J]; [exact I|exact (IH2 x J)].
  Qed.
  Lemma first_unique (i : index rest) gi go m n e : NoDup (akeys i) -> In (n, e) i -> answers e gi go m ->
    (forall n' e', In (n', e') i -> n' <> n -> no_answer e' gi go m) ->
    first py_str key_order fuel i gi go m = Ok (Some e).
  Proof.
    intros N I A D. apply in_split in I. destruct I as (pre & post & ->). apply first_some. exists pre, n, post.
    split; [reflexivity|]. split; [exact A|]. apply Forall_forall. intros [n' e'] J. cbn. apply (D n' e').
    - apply in_or_app. left. exact J.
    - intros ->. rewrite akeys_app in N. apply NoDup_remove_2 in N. apply N. apply in_or_app. left. apply (In_akeys _ _ _ J).
  Qed.
  Lemma subset_same i0 i fs fom i' res f gi go e0 : proper i0 -> used_index i0 i ->
    subset py_str key_order fuel i fs fom = (i', Ok res) -> In f fs -> request (fl_input f) (fl_output f) gi go ->
    In (e_name e0, e0) i0 -> answers e0 gi go (filter_method f) ->
    (forall n e, In (n, e) i0 -> n <> e_name e0 -> no_answer e gi go (filter_method f)) ->
    exists e, snd (find py_str key_order fuel res (fl_input f) (fl_output f) (filter_method f)) = Ok (Some e) /\ used_entry e0 e.
  Proof.
    intros P U S I [R1 R2] IN A D. unfold subset in S.
    destruct (subset_spec fs i0 i [] i' res P U (conj (NoDup_nil _) (Forall_nil _)) fom S) as (G1 & G2 & _ & G4 & _).
    pose proof P as [N0 F0].
    assert (F1 : finds i0 gi go (filter_method f) e0) by (apply (first_unique i0 gi go _ (e_name e0) e0); assumption).
    destruct (G4 f gi go I (conj R1 R2)) as [(e1 & F2 & J)|[_ FA]].
    - unfold finds in *. rewrite F1 in F2. inversion F2; subst e1. clear F2.
      destruct (from_list i0 res G2) as (res0 & V & INC).
      assert (K : akeys res = akeys res0) by (apply used_keys; exact V). rewrite K in J.
      assert (IN0 : In (e_name e0, e0) res0).
      { rewrite akeys_map in J. apply in_map_iff in J. destruct J as ([n e] & E & J). cbn in E. subst n.
        pose proof (INC _ J) as J'. assert (e = e0); [|subst; exact J].
        pose proof (In_alookup _ _ _ N0 J') as L1. pose proof (In_alookup _ _ _ N0 IN) as L2. congruence. }
      destruct (find_used py_str key_order fuel res0 res (fl_input f) (fl_output f) (filter_method f) V) as [FD _].
      rewrite R1, R2 in FD. cbn [bind] in FD. rewrite (first_unique res0 gi go (filter_method f) (e_name e0) e0) in FD; [| |exact IN0|exact A|].
      + destruct (snd (find py_str key_order fuel res (fl_input f) (fl_output f) (filter_method f))) as [[e|]|x|]; cbn in FD; try discriminate FD. exists e. auto.
      + rewrite <- K. apply G2.
      + intros n' e' J' NE. apply (D n' e'); [apply INC; exact J'|exact NE].
    - exfalso. rewrite Forall_forall in FA. exact (answers_or_not py_str key_order fuel e0 gi go _ A (FA _ IN)).
  Qed.
End P.

(** ** Addresses *)
Definition free_of (c : ascii) (s : string) : Prop := ~ In c (chars s).
Lemma app_sep c (a b a' b' : list ascii) : ~ In c a -> ~ In c a' -> a ++ c :: b = a' ++ c :: b' -> a = a' /\ b = b'.
Proof.
  revert a'. induction a as [|x a IH]; intros [|y a'] N N' H; cbn in *.
  - inversion H. auto.
  - inversion H. subst. tauto.
  - inversion H. subst. tauto.
  - inversion H. subst. destruct (IH a' ltac:(tauto) ltac:(tauto) ltac:(assumption)) as [-> ->]. auto.
Qed.
Lemma chars_inj' s t : chars s = chars t -> s = t.
Proof. intros H. rewrite <- (of_chars_chars s), <- (of_chars_chars t), H. reflexivity. Qed.
Lemma dir_inj e v m e' v' m' : free_of "_" e -> free_of "_" v -> free_of "_" e' -> free_of "_" v' ->
  (e ++ "_" ++ v ++ "_" ++ m)%string = (e' ++ "_" ++ v' ++ "_" ++ m')%string -> e = e' /\ v = v' /\ m = m'.
Proof.
  intros E V E' V' H. apply (f_equal chars) in H. rewrite !chars_app in H. cbn [chars app] in H.
  destruct (app_sep _ _ _ _ _ E E' H) as [A H2]. destruct (app_sep _ _ _ _ _ V V' H2) as [B C].
  apply chars_inj' in A, B, C. auto.
Qed.
