(** Lemmas about whole calls. *)
From Coq Require Import Permutation.
From Verif Require Import PyBase ListLemmas PyStr Float64 GridSpec GridVocab GridProofs GridProofs3 Index IndexSpec IndexProofs IndexProofs2
  Db MemCache MemCacheProofs MemCacheProofs2 Key KeySpec KeyProofs Props_Key Inventory Regrid System SystemSpec.
Set Default Proof Using "Type".
Local Open Scope string_scope.
Local Open Scope list_scope.
Local Open Scope Z_scope.

(** ** Keys *)
Section ValInd.
  Variable P : val -> Prop.
  Hypotheses (H0 : P VNone) (H1 : forall b, P (VBool b)) (H2 : forall z, P (VInt z)) (H3 : forall f, P (VFloat f)) (H4 : forall s, P (VStr s))
             (H5 : forall l, Forall P l -> P (VList l)) (H6 : forall l, Forall P l -> P (VTup l)).
  Fixpoint val_all (v : val) : P v :=
    let go := fix go (l : list val) : Forall P l := match l with [] => Forall_nil _ | x :: r => Forall_cons x (val_all x) (go r) end in
    match v with
    | VNone => H0 | VBool b => H1 b | VInt z => H2 z | VFloat f => H3 f | VStr s => H4 s
    | VList l => H5 l (go l) | VTup l => H6 l (go l)
    end.
End ValInd.

Lemma show_num z : num_text (show_Z z).
Proof.
  assert (D : forall l, Forall (fun c => is_digit c = true) l -> forallb num_char l = true).
  { intros l F. apply forallb_forall. rewrite Forall_forall in F. intros c I. unfold num_char. rewrite (F c I). reflexivity. }
  unfold show_Z, num_text. destruct (Z.ltb_spec z 0).
  - destruct (show_nonneg_ok (- z) ltac:(lia)) as (X & _ & _). split; [|reflexivity].
    change (chars (String "-" (of_chars (show_nonneg (- z))))) with ("-"%char :: chars (of_chars (show_nonneg (- z)))). rewrite chars_of_chars. cbn [forallb].
    rewrite (D _ X). reflexivity.
  - destruct (show_nonneg_ok z ltac:(lia)) as (X & Y & _). rewrite chars_of_chars. split; [apply D; exact X|].
    destruct (show_nonneg z) as [|c l]; [contradiction|]. cbn. inversion X; subst. unfold num_start. rewrite H2. reflexivity.
Qed.

Section Keys.
  Variable float_text : f64 -> string.
  Hypothesis FT : float_texts float_text.
  Notation json_of := (json_of float_text).
  Notation json_of_dict := (json_of_dict float_text).

  Lemma json_wf v : wf (json_of v).
  Proof using FT.
    induction v as [| | | | |l IH|l IH] using val_all; cbn; auto; try apply FT; try apply show_num;
      (induction IH as [|x r Hx HF IHF]; cbn; auto).
  Qed.
  Lemma json_dict_wf d : NoDup (akeys d) -> wf (json_of_dict d).
  Proof using FT.
    intros N. cbn. rewrite akeys_map in N. rewrite map_map. cbn. split; [exact N|]. clear N.
    induction d as [|[k v] d IH]; cbn; [exact I|]. split; [apply json_wf|exact IH].
  Qed.
  Lemma json_inj v : forall w, no_tuple v = true -> no_tuple w = true -> jeq (json_of v) (json_of w) -> v = w.
  Proof using FT.
    induction v as [|b|z|f|s|l IH|l IH] using val_all; intros w TV TW J; destruct w as [|b'|z'|f'|s'|l'|l']; cbn in TV, TW, J; try discriminate TV; try discriminate TW; try (inversion J; fail).
    - reflexivity.
    - inversion J. reflexivity.
    - inversion J as [| |t E1 E2| | |]. apply show_Z_inj in E2. congruence.
    - exfalso. inversion J as [| |t E1 E2| | |]. exact (ft_int _ FT _ _ (eq_sym E2)).
    - exfalso. inversion J as [| |t E1 E2| | |]. exact (ft_int _ FT _ _ E2).
    - inversion J as [| |t E1 E2| | |]. rewrite (ft_inj _ FT f f' TV TW E2). reflexivity.
    - inversion J. reflexivity.
    - f_equal. inversion J as [| | | |x y F E1 E2|]. subst x y. clear J. revert l' TW F. induction IH as [|v l Hv HF IHF]; intros [|w l'] TW F; inversion F; subst; [reflexivity|].
      cbn in TV, TW. apply andb_prop in TV, TW. destruct TV, TW. f_equal; [apply Hv; assumption|apply IHF; assumption].
  Qed.
  Lemma Forall2_in {X Y} (R : X -> Y -> Prop) l m x : Forall2 R l m -> In x l -> exists y, In y m /\ R x y.
  Proof. intros F. induction F as [|a b l m H F IH]; intros I; [destruct I|]. destruct I as [->|I]; [exists b; cbn; auto|]. destruct (IH I) as (y & J & K). exists y. cbn. auto. Qed.
  Lemma Forall2_in' {X Y} (R : X -> Y -> Prop) l m y : Forall2 R l m -> In y m -> exists x, In x l /\ R x y.
  Proof. intros F. induction F as [|a b l m H F IH]; intros I; [destruct I|]. destruct I as [->|I]; [exists a; cbn; auto|]. destruct (IH I) as (x & J & K). exists x. cbn. auto. Qed.
  Definition tidy_dict (d : dict) : Prop := NoDup (akeys d) /\ forall k v, alookup k d = Some v -> no_tuple v = true.
  Lemma dict_jeq d e : tidy_dict d -> tidy_dict e -> jeq (json_of_dict d) (json_of_dict e) -> same_dict d e.
  Proof using FT.
    intros [N T] [N' T'] J. inversion J as [| | | | |l l' m m' P P' F E1 E2]. subst l m. clear J.
    assert (G : forall k v, alookup k d = Some v -> alookup k e = Some v).
    { intros k v L. pose proof (T k v L) as TV. apply alookup_In in L.
      assert (I : In (k, json_of v) l') by (apply (Permutation_in _ P); apply (in_map (fun p => (fst p, json_of (snd p))) _ _ L)).
      destruct (Forall2_in _ _ _ _ F I) as ([k' j] & I' & K & Q). cbn in K, Q. subst k'. apply (Permutation_in _ (Permutation_sym P')) in I'.
      apply in_map_iff in I'. destruct I' as ([k' w] & E & I'). cbn in E. injection E as -> <-.
      pose proof (In_alookup _ _ _ N' I') as L'. rewrite L'. f_equal. symmetry. apply json_inj; [exact TV|exact (T' _ _ L')|exact Q]. }
    assert (G' : forall k v, alookup k e = Some v -> alookup k d = Some v).
    { intros k v L. pose proof (T' k v L) as TV. apply alookup_In in L.
      assert (I : In (k, json_of v) m') by (apply (Permutation_in _ P'); apply (in_map (fun p => (fst p, json_of (snd p))) _ _ L)).
      destruct (Forall2_in' _ _ _ _ F I) as ([k' j] & I' & K & Q). cbn in K, Q. subst k'. apply (Permutation_in _ (Permutation_sym P)) in I'.
      apply in_map_iff in I'. destruct I' as ([k' w] & E & I'). cbn in E. injection E as -> <-.
      pose proof (In_alookup _ _ _ N I') as L'. rewrite L'. f_equal. apply json_inj; [exact (T _ _ L')|exact TV|exact Q]. }
    intros k. destruct (alookup k d) as [v|] eqn:L; [symmetry; apply G; exact L|]. destruct (alookup k e) as [v|] eqn:L'; [|reflexivity]. rewrite (G' k v L') in L. discriminate L.
  Qed.
End Keys.

(** A finished specification made from a plain dictionary is tidy. *)
Lemma table_tidy d : no_tuple (table_of d) = true.
Proof.
  assert (T : forall x y, no_tuple (table_area x y) = true).
  { intros x y. unfold table_area. destruct (List.find _ GLOBAL_AREAS) as [[k a]|] eqn:F; [|reflexivity]. apply find_some in F. destruct F as [I _].
    assert (A : forallb (fun p => no_tuple (snd p)) GLOBAL_AREAS = true) by (vm_compute; reflexivity). rewrite forallb_forall in A. exact (A _ I). }
  unfold table_of. destruct (given d "grid") as [[| | | |s|l|l]|]; try reflexivity.
  - destruct s as [|a [|b s]]; first [apply T|reflexivity].
  - destruct l as [|x [|y l]]; first [apply T|reflexivity].
Qed.
Lemma spec_tidy d g : plain_dict d -> from_dict d = Ok g -> tidy_dict (gd g).
Proof.
  intros [N P] H. split; [exact (NoDup_from d g H)|]. intros k v. rewrite (contents_ok d g k N H).
  assert (G : forall k v, given d k = Some v -> no_tuple v = true).
  { intros k' v' E. unfold given in E. destruct (alookup k' d) as [w|] eqn:L; [|discriminate E]. cbn in E. injection E as <-. exact (P _ _ L). }
  unfold contents, or_else. destruct (String.eqb k "type"); [intros E; injection E as <-; reflexivity|].
  destruct (existsb (String.eqb k) flags). { destruct (given d k) eqn:E; [intros E'; injection E' as <-; exact (G _ _ E)|intros E'; injection E' as <-; reflexivity]. }
  destruct (cls g).
  - destruct (String.eqb k "area").
    { destruct (given d "area") eqn:E; [intros E'; injection E' as <-; exact (G _ _ E)|]. destruct (given d "global"); intros E'; injection E' as <-; [reflexivity|apply table_tidy]. }
    destruct (String.eqb k "global"); [|apply G]. destruct (given d "global") eqn:E; [intros E'; injection E' as <-; exact (G _ _ E)|].
    destruct (given d "area"); [discriminate|intros E'; injection E' as <-; reflexivity].
  - destruct (String.eqb k "area"); [|apply G]. destruct (given d "area") eqn:E; intros E'; injection E' as <-; [exact (G _ _ E)|reflexivity].
  - destruct (String.eqb k "area"). { destruct (given d "area") eqn:E; intros E'; injection E' as <-; [exact (G _ _ E)|reflexivity]. }
    destruct (String.eqb k "order"). { destruct (given d "ordering") eqn:E; [intros E'; injection E' as <-; exact (G _ _ E)|apply G]. }
    destruct (String.eqb k "ordering"); [discriminate|apply G].
  - apply G.
Qed.
(** Finished specifications with the same contents are the same up to the order of the keys. *)
Lemma same_result_trans a b c : same_result a b -> same_result b c -> same_result a c.
Proof.
  unfold same_result, same_spec. destruct a, b, c; try contradiction; intros H K; try congruence.
  destruct H as (A1 & A2 & A3 & A4), K as (B1 & B2 & B3 & B4). split; [congruence|]. split; [exact (same_trans _ _ _ A2 B2)|]. split; congruence.
Qed.
Lemma same_result_sym a b : same_result a b -> same_result b a.
Proof.
  unfold same_result, same_spec. destruct a, b; try contradiction; intros H; auto. destruct H as (A1 & A2 & A3 & A4). split; [congruence|]. split; [exact (same_sym _ _ A2)|]. split; congruence.
Qed.
Lemma same_contents d e g h : NoDup (akeys d) -> NoDup (akeys e) -> from_dict d = Ok g -> from_dict e = Ok h -> same_dict (gd g) (gd h) -> same_spec g h.
Proof.
  intros N N' G H S. change (same_result (Ok g) (Ok h)).
  apply (same_result_trans _ (from_dict (gd g))); [apply same_result_sym; exact (idempotent d g N G)|].
  apply (same_result_trans _ (from_dict (gd h))); [|exact (idempotent e h N' H)].
  apply key_order_free; [exact (NoDup_from d g G)|exact (NoDup_from e h H)|exact S].
Qed.

(** ** Lookups in a local inventory *)
Section Lookup.
  Context {A rest : Type}.
  Variables (py_str : val -> string) (key_order : list string) (fuel : nat).
  Variable files : fs rest (csr A).
  Notation first := (@first rest py_str key_order fuel).
  Notation lookup := (lookup py_str key_order fuel files).
  Implicit Types (d : mdb rest) (gi go : gspec).

  Lemma first_same (i : index rest) gi gi' go go' m : same_spec gi gi' -> same_spec go go' -> first i gi go m = first i gi' go' m.
  Proof.
    intros S T. induction i as [|[n e] i IH]; [reflexivity|]. cbn [IndexProofs.first].
    assert (E : answer py_str key_order fuel e gi go m = answer py_str key_order fuel e gi' go' m).
    { assert (R : forall g, same_spec g g) by (intros g; split; [reflexivity|]; split; [apply same_refl|]; split; reflexivity).
      unfold answer. rewrite (eq_same py_str key_order fuel (e_input e) (e_input e) gi gi' (R _) S), (eq_same py_str key_order fuel (e_output e) (e_output e) go go' (R _) T). reflexivity. }
    rewrite E, IH. reflexivity.
  Qed.
  Lemma first_ok (i : index rest) gi go m : (forall n e, In (n, e) i -> answers py_str key_order fuel e gi go m \/ does_not_answer py_str key_order fuel e gi go m) ->
    exists o, first i gi go m = Ok o.
  Proof.
    induction i as [|[n e] i IH]; intros H; [exists None; reflexivity|]. cbn [IndexProofs.first]. destruct (H n e (or_introl eq_refl)) as [Y|N].
    - apply answer_yes in Y. rewrite Y. cbn. eauto.
    - apply answer_no in N. rewrite N. cbn. apply IH. intros n' e' I. apply (H n' e'). right. exact I.
  Qed.

  (** The object of the inventory at [path]: no index yet, the index of the file with some memos,
      or the empty one that a failed loading leaves. *)
  Definition db_inv (path : string) d : Prop :=
    d_kind _ (s_db _ _ d) = Local /\
    match d_index _ (s_db _ _ d) with
    | None => True
    | Some i => (exists i0, local_index path files = Ok i0 /\ used_index fuel i0 i) \/ ((forall i0, local_index path files <> Ok i0) /\ i = [])
    end.
  Lemma new_inv path : db_inv path new_db.
  Proof. split; [reflexivity|exact I]. Qed.

  Lemma load_inv path d d' r : d_kind _ (s_db _ _ d) = Local -> load_index rest (file rest) Ok (fun _ => "") (outside_of files path) d = (d', r) ->
    db_inv path d' /\ (forall i0, local_index path files = Ok i0 -> r = Ok tt /\ d_index _ (s_db _ _ d') = Some i0) /\
    ((forall i0, local_index path files <> Ok i0) -> forall u, r <> Ok u).
  Proof.
    intros K. unfold load_index, index_text. cbn [set_index set_db s_db d_kind]. rewrite K. cbn [outside_of o_file]. unfold db_inv, local_index.
    destruct (read_index (join_path path "index.json") files) as [f|x|]; cbn [bind].
    - destruct (load [] f) as [i|x|]; intros H; injection H as <- <-; cbn.
      + split; [split; [exact K|left; exists i; split; [reflexivity|apply used_index_refl]]|]. split; [intros i0 E; injection E as <-; auto|]. intros H; exfalso; exact (H i eq_refl).
      + split; [split; [exact K|right; split; [discriminate|reflexivity]]|]. split; discriminate.
      + split; [split; [exact K|right; split; [discriminate|reflexivity]]|]. split; discriminate.
    - intros H; injection H as <- <-; cbn. split; [split; [exact K|right; split; [discriminate|reflexivity]]|]. split; discriminate.
    - intros H; injection H as <- <-; cbn. split; [split; [exact K|right; split; [discriminate|reflexivity]]|]. split; discriminate.
  Qed.

  Lemma lookup_spec path d d' x di do gi go m :
    db_inv path d -> NoDup (akeys di) -> NoDup (akeys do) -> from_dict di = Ok gi -> from_dict do = Ok go -> comparable py_str key_order fuel files path gi go m ->
    lookup path d (gi, go, m) = (d', x) ->
    db_inv path d' /\ (forall i0, local_index path files = Ok i0 -> found fuel (first i0 gi go (method_alias m)) x) /\
    ((forall i0, local_index path files <> Ok i0) -> forall o, x <> Ok o).
  Proof.
    intros HD N N' GI GO CO H. set (m' := method_alias m).
    pose proof (idempotent di gi N GI) as SI. pose proof (idempotent do go N' GO) as SO.
    destruct (from_dict (gd gi)) as [g1|x1|] eqn:E1; try contradiction SI. destruct (from_dict (gd go)) as [g2|x2|] eqn:E2; try contradiction SO. cbn in SI, SO.
    assert (FU : forall i0 i, used_index fuel i0 i -> found fuel (first i0 gi go m') (snd (find py_str key_order fuel i (gd gi) (gd go) m')) /\
              (forall y, snd (find py_str key_order fuel i (gd gi) (gd go) m') = Ok y -> used_index fuel i0 (fst (find py_str key_order fuel i (gd gi) (gd go) m')))).
    { intros i0 i U. pose proof (find_used py_str key_order fuel i0 i (gd gi) (gd go) m' U) as F. rewrite E1, E2 in F. cbn [bind] in F. rewrite (first_same i0 g1 gi g2 go m' SI SO) in F. exact F. }
    assert (FO : forall i0, local_index path files = Ok i0 -> exists o, first i0 gi go m' = Ok o) by (intros i0 L; apply first_ok; intros n e I; exact (CO i0 n e L I)).
    (* index_find on a state that satisfies the invariant *)
    assert (XF : forall d i, d_kind _ (s_db _ _ d) = Local -> d_index _ (s_db _ _ d) = Some i -> forall d' x, index_find rest (file rest) py_str key_order fuel d (gd gi) (gd go) m' = (d', x) ->
       ((exists i0, local_index path files = Ok i0 /\ used_index fuel i0 i) -> db_inv path d' /\ forall i0, local_index path files = Ok i0 -> found fuel (first i0 gi go m') x) /\
       ((forall i0, local_index path files <> Ok i0) /\ i = [] -> db_inv path d' /\ x = Ok None)).
    { clear d d' x HD H. intros d i K DI d' x H. unfold index_find in H. rewrite DI in H. split.
      - intros (i0 & L & U). destruct (FU i0 i U) as [F V]. destruct (find py_str key_order fuel i (gd gi) (gd go) m') as [i' y] eqn:FE. injection H as <- <-. cbn [fst snd] in *.
        split; [|intros i1 L1; rewrite L in L1; injection L1 as <-; exact F].
        destruct (FO i0 L) as (o & FO'). rewrite FO' in F. assert (EY : exists z, y = Ok z). { destruct o as [e|]; cbn in F; destruct y as [[?|]|?|]; try discriminate F; try contradiction F; eauto. }
        destruct EY as (z & ->). split; [exact K|]. cbn. left. exists i0. split; [exact L|exact (V z eq_refl)].
      - intros [NL ->]. unfold find in H. rewrite E1, E2 in H. cbn in H. injection H as <- <-. split; [|reflexivity]. split; [exact K|]. cbn. right. split; [exact NL|reflexivity]. }
    unfold System.lookup, find_entry in H. fold m' in H.
    assert (GL : forall d1 r1, get_or_load rest (file rest) Ok (fun _ => "") (outside_of files path) d = (d1, r1) ->
        db_inv path d1 /\ (forall i0, local_index path files = Ok i0 -> r1 = Ok tt /\ exists i, d_index _ (s_db _ _ d1) = Some i /\ used_index fuel i0 i) /\
        ((forall i0, local_index path files <> Ok i0) -> (forall u, r1 <> Ok u) \/ (r1 = Ok tt /\ d_index _ (s_db _ _ d1) = Some []))).
    { intros d1 r1. unfold get_or_load. destruct HD as [K HD]. destruct (d_index _ (s_db _ _ d)) as [i|] eqn:DI.
      - intros E; injection E as <- <-. split; [split; [exact K|rewrite DI; exact HD]|]. destruct HD as [(i0 & L & U)|[NL ->]].
        + split; [intros i1 L1; rewrite L in L1; injection L1 as <-; split; [reflexivity|exists i; auto]|]. intros NL; exfalso; exact (NL i0 L).
        + split; [intros i1 L1; exfalso; exact (NL i1 L1)|]. intros _. right. auto.
      - intros E. destruct (load_inv path d d1 r1 K E) as (X & Y & Z). split; [exact X|]. split.
        + intros i0 L. destruct (Y i0 L) as [-> W]. split; [reflexivity|]. exists i0. split; [exact W|apply used_index_refl].
        + intros NL. left. exact (Z NL). }
    destruct (get_or_load rest (file rest) Ok (fun _ => "") (outside_of files path) d) as [d1 r1]. destruct (GL d1 r1 eq_refl) as (I1 & L1 & NL1). clear GL.
    destruct (local_index path files) as [i0|e0|] eqn:LI.
    - destruct (L1 i0 eq_refl) as (-> & i & DI & U). destruct (index_find rest (file rest) py_str key_order fuel d1 (gd gi) (gd go) m') as [d2 r2] eqn:IF.
      destruct (XF d1 i (proj1 I1) DI d2 r2 IF) as [XF1 _]. destruct (XF1 (ex_intro _ i0 (conj eq_refl U))) as [I2 F2].
      assert (NN : ((forall i1, Ok i0 <> Ok i1) -> forall o, x <> Ok o)) by (intros NL; exfalso; exact (NL i0 eq_refl)).
      destruct r2 as [[e|]|e|]; try (injection H as <- <-; split; [exact I2|]; split; [exact F2|exact NN]).
      unfold is_local, checked_remote in H. rewrite (proj1 I2) in H. cbn [negb andb] in H. unfold reload in H. rewrite (proj1 I2) in H.
      destruct (load_index rest (file rest) Ok (fun _ => "") (outside_of files path) d2) as [d4 r4] eqn:LD. destruct (load_inv path d2 d4 r4 (proj1 I2) LD) as (I4 & Y4 & _).
      destruct (Y4 i0 LI) as [-> DI4]. destruct (XF d4 i0 (proj1 I4) DI4 d' x H) as [XF4 _].
      destruct (XF4 (ex_intro _ i0 (conj eq_refl (used_index_refl fuel i0)))) as [I5 F5]. split; [exact I5|]. split; [exact F5|exact NN].
    - assert (NL : forall i1 : index rest, Raise e0 <> Ok i1) by discriminate. destruct (NL1 NL) as [NR|[-> DI]].
      + destruct r1 as [u|e|]; [exfalso; exact (NR u eq_refl)|..]; injection H as <- <-; (split; [exact I1|]; split; discriminate).
      + destruct (index_find rest (file rest) py_str key_order fuel d1 (gd gi) (gd go) m') as [d2 r2] eqn:IF.
        destruct (XF d1 [] (proj1 I1) DI d2 r2 IF) as [_ XF1]. destruct (XF1 (conj NL eq_refl)) as [I2 ->].
        unfold is_local, checked_remote in H. rewrite (proj1 I2) in H. cbn [negb andb] in H. unfold reload in H. rewrite (proj1 I2) in H.
        destruct (load_index rest (file rest) Ok (fun _ => "") (outside_of files path) d2) as [d4 r4] eqn:LD. destruct (load_inv path d2 d4 r4 (proj1 I2) LD) as (I4 & _ & Z4).
        rewrite LI in Z4. pose proof (Z4 NL) as Z. destruct r4 as [u|e|]; [exfalso; exact (Z u eq_refl)|..]; injection H as <- <-; (split; [exact I4|]; split; discriminate).
    - assert (NL : forall i1, @OutOfFuel (index rest) <> Ok i1) by discriminate. destruct (NL1 NL) as [NR|[-> DI]].
      + destruct r1 as [u|e|]; [exfalso; exact (NR u eq_refl)|..]; injection H as <- <-; (split; [exact I1|]; split; discriminate).
      + destruct (index_find rest (file rest) py_str key_order fuel d1 (gd gi) (gd go) m') as [d2 r2] eqn:IF.
        destruct (XF d1 [] (proj1 I1) DI d2 r2 IF) as [_ XF1]. destruct (XF1 (conj NL eq_refl)) as [I2 ->].
        unfold is_local, checked_remote in H. rewrite (proj1 I2) in H. cbn [negb andb] in H. unfold reload in H. rewrite (proj1 I2) in H.
        destruct (load_index rest (file rest) Ok (fun _ => "") (outside_of files path) d2) as [d4 r4] eqn:LD. destruct (load_inv path d2 d4 r4 (proj1 I2) LD) as (I4 & _ & Z4).
        rewrite LI in Z4. pose proof (Z4 NL) as Z. destruct r4 as [u|e|]; [exfalso; exact (Z u eq_refl)|..]; injection H as <- <-; (split; [exact I4|]; split; discriminate).
  Qed.
End Lookup.

(** ** The memory cache: whatever holds of the data created for a key holds of the data kept under it *)
Section Kept.
  Variables Req Ent W : Type.
  Variable key : Req -> string.
  Variable est : Ent -> Z.
  Variable size : W -> Z.
  Hypothesis size_nonneg : forall w, 0 <= size w.
  Notation get := (MemCache.get key est size).
  Notation Inv := (MemCacheProofs.Inv W).
  Variable P : string -> W -> Prop.
  Definition kept (s : MemCache.state W) : Prop := forall k it, In (k, it) (items s) -> P k (it_data it).

  Lemma get_kept (i : inventory Req Ent W) r s s' cl d :
    (forall w, create i r = Ok (Some w) -> P (key r) w) -> Inv s -> kept s -> get i r s = (s', cl, d) ->
    kept s' /\ (forall w, d = Ok (Some w) -> P (key r) w) /\ (d = Ok None -> create i r = Ok None).
  Proof using size_nonneg.
    intros HC HI HK H. unfold MemCache.get in H. destruct (has_cache (pol s)) eqn:Eh; cbn [negb] in H.
    2:{ injection H as <- <- <-. auto. }
    destruct (alookup (key r) (items s)) as [it|] eqn:EL.
    - injection H as <- <- <-. apply alookup_In in EL. split; [|split; [|discriminate]].
      + intros k it' Hin. cbn in Hin. unfold move_to_end in Hin. rewrite in_app_iff in Hin. destruct Hin as [Hin|[Hin|[]]].
        * apply aremove_In in Hin. apply HK; tauto.
        * inversion Hin; subst. apply HK; exact EL.
      + intros w E. injection E as <-. exact (HK _ _ EL).
    - destruct (if has_limit (pol s) then _ else _) as [[s1 calls] data] eqn:E1.
      assert (Inv s1 /\ (forall p, In p (items s1) -> In p (items s)) /\ (forall x, data = Ok x -> create i r = Ok x)) as (HI1 & HS & HX).
      { destruct (has_limit (pol s)).
        - split; [eapply pre_check_inv; eassumption|]. eapply pre_check_subset; eassumption.
        - injection E1 as <- <- <-. auto. }
      assert (kept s1) as HK1 by (intros k it Hin; apply HK, HS, Hin).
      destruct data as [[w|]|e|].
      + specialize (HX _ eq_refl). specialize (HC _ HX). destruct (reduce_ None _) as [s3 rr] eqn:E3.
        assert (NI : ~ In (key r) (akeys (items s1))).
        { apply alookup_None in EL. intros Hin. apply EL. rewrite akeys_map in *. apply in_map_iff in Hin. destruct Hin as (p & Ep & Hin). apply in_map_iff. exists p. auto. }
        assert (Inv (mkState (aset (key r) (mkItem w (size w)) (items s1)) (max_mem s1) (curr_mem s1 + size w) (hits s1) (misses s1 + 1) (strict s1) (pol s1))) as HI2.
        { apply aset_inv; auto. apply alookup_None. exact NI. }
        pose proof (reduce_subset W _ _ _ _ HI2 E3) as HS3. cbn in HS3.
        assert (kept s3).
        { intros k it Hin. apply HS3 in Hin. rewrite aset_notin in Hin by exact NI. rewrite in_app_iff in Hin. destruct Hin as [Hin|[Hin|[]]]; [apply HK1, Hin|]. inversion Hin; subst. exact HC. }
        destruct rr; injection H as <- <- <-; (split; [assumption|]; split; [intros x E; inversion E; subst; assumption|discriminate]).
      + injection H as <- <- <-. split; [exact HK1|]. split; [discriminate|]. intros _. exact (HX _ eq_refl).
      + injection H as <- <- <-. split; [exact HK1|]. split; discriminate.
      + injection H as <- <- <-. split; [exact HK1|]. split; discriminate.
  Qed.
  (** What is not in the inventory is not found, if nothing is kept for its key. *)
  Lemma get_none (i : inventory Req Ent W) r s s' cl d : i_find i r = Ok None -> get i r s = (s', cl, d) ->
    d = Ok None \/ exists w, d = Ok (Some w).
  Proof.
    clear size_nonneg. intros F H. unfold MemCache.get, create_with_pre_check, create in H. rewrite F in H. cbn in H. destruct (negb _); [injection H as _ _ <-; auto|].
    destruct (alookup (key r) (items s)) as [it|]; [injection H as _ _ <-; eauto|]. destruct (has_limit (pol s)); injection H as _ _ <-; auto.
  Qed.
End Kept.

(** ** Histories *)
Lemma size_nonneg {A} (w : weights A) : 0 <= size_of w.
Proof. unfold size_of, matrix_memory_size. lia. Qed.
Section History.
  Context {A rest : Type}.
  Variables (zero : A) (add mul : A -> A -> A).
  Variable memory_of : rest -> Z.
  Variable sha : string -> string.
  Variable float_text : f64 -> string.
  Variables (py_str : val -> string) (key_order : list string) (fuel : nat).
  Variable files : fs rest (csr A).
  Hypothesis FT : float_texts float_text.
  Notation first := (@IndexProofs.first rest py_str key_order fuel).
  Notation lookup := (System.lookup py_str key_order fuel files).
  Notation key_of := (key_of sha float_text).
  Notation inventory_of := (inventory_of py_str key_order fuel files).
  Notation db_find := (db_find memory_of sha float_text py_str key_order fuel files).
  Notation sys_regrid := (sys_regrid zero add mul memory_of sha float_text py_str key_order fuel files).
  Notation sys_step := (sys_step zero add mul memory_of sha float_text py_str key_order fuel files).
  Notation sys_after := (sys_after zero add mul memory_of sha float_text py_str key_order fuel files).
  Notation weights_for := (weights_for py_str key_order fuel files).
  Notation no_weights_for := (no_weights_for py_str key_order fuel files).
  Notation sound := (sound py_str key_order fuel files).
  Notation sound_call := (sound_call py_str key_order fuel files).
  Notation db_inv := (db_inv fuel files).
  Notation W := (weights A).
  Implicit Types (d : mdb rest) (gi go : gspec) (h : list (sop A)) (s : sys A rest).

  Lemma weights_first path gi go m z sh : weights_for path gi go m z sh <->
    exists i e p, local_index path files = Ok i /\ first i gi go (method_alias m) = Ok (Some e) /\
      matrix_path e = Ok p /\ alookup (join_path path p) files = Some (Weights z) /\ alookup "shape" (gd (e_output e)) = Some sh.
  Proof.
    split.
    - intros (i & pre & n & e & post & p & L & E & Y & N & R). exists i, e, p. split; [exact L|]. split; [|exact R]. apply first_some. exists pre, n, post. auto.
    - intros (i & e & p & L & F & R). apply first_some in F. destruct F as (pre & n & post & E & Y & N). exists i, pre, n, e, post, p. exact (conj L (conj E (conj Y (conj N R)))).
  Qed.
  Lemma no_first path gi go m : no_weights_for path gi go m <-> exists i, local_index path files = Ok i /\ first i gi go (method_alias m) = Ok None.
  Proof. split; intros (i & L & F); exists i; (split; [exact L|]); apply first_none; exact F. Qed.
  Lemma weights_same path gi go gi' go' m z sh : same_spec gi gi' -> same_spec go go' -> weights_for path gi go m z sh -> weights_for path gi' go' m z sh.
  Proof.
    intros S T H. apply weights_first in H. apply weights_first. destruct H as (i & e & p & L & F & R). exists i, e, p. split; [exact L|]. split; [|exact R].
    rewrite <- (first_same py_str key_order fuel i gi gi' go go' _ S T). exact F.
  Qed.
  Lemma weights_unique path gi go m z sh z' sh' : weights_for path gi go m z sh -> weights_for path gi go m z' sh' -> z = z' /\ sh = sh'.
  Proof.
    intros H H'. apply weights_first in H. apply weights_first in H'. destruct H as (i & e & p & L & F & P & Z & S), H' as (i' & e' & p' & L' & F' & P' & Z' & S').
    rewrite L in L'. injection L' as <-. rewrite F in F'. injection F' as <-. rewrite P in P'. injection P' as <-. rewrite Z in Z'. injection Z' as <-. rewrite S in S'. injection S' as <-. auto.
  Qed.
  Lemma weights_none path gi go m z sh : weights_for path gi go m z sh -> no_weights_for path gi go m -> False.
  Proof.
    intros H N. apply weights_first in H. apply no_first in N. destruct H as (i & e & p & L & F & _), N as (i' & L' & F'). rewrite L in L'. injection L' as <-. rewrite F in F'. discriminate F'.
  Qed.

  (** What the callables of a call give. *)
  Lemma load_used path e0 e : used_entry fuel e0 e -> load_weights files path e = load_weights files path e0.
  Proof.
    intros (_ & (_ & G & _) & N & R). unfold load_weights, local_matrix. assert (matrix_path e = matrix_path e0) as -> by (unfold matrix_path; rewrite N, R; reflexivity). rewrite G. reflexivity.
  Qed.
  Lemma load_ok path e z sh : load_weights files path e = Ok (z, sh) <->
    exists p, matrix_path e = Ok p /\ alookup (join_path path p) files = Some (Weights z) /\ alookup "shape" (gd (e_output e)) = Some sh.
  Proof.
    unfold load_weights, local_matrix, dget. split.
    - destruct (matrix_path e) as [p|x|]; try discriminate. cbn [bind]. destruct (alookup (join_path path p) files) as [[w|f|]|] eqn:E; try discriminate. cbn [bind].
      destruct (alookup "shape" (gd (e_output e))); try discriminate. cbn. intros H; injection H as <- <-. eauto.
    - intros (p & -> & P & S). cbn [bind]. rewrite P. cbn [bind]. rewrite S. reflexivity.
  Qed.
  Lemma create_spec path d di do gi go m :
    db_inv path d -> IndexSpec.request di do gi go -> sound_call path di do m ->
    db_inv path (fst (lookup path d (gi, go, m))) /\
    (forall w, create (inventory_of path d) (gi, go, m) = Ok (Some w) <-> weights_for path gi go m (fst w) (snd w)) /\
    (i_find (inventory_of path d) (gi, go, m) = Ok None <-> no_weights_for path gi go m) /\
    (create (inventory_of path d) (gi, go, m) = Ok None <-> no_weights_for path gi go m).
  Proof.
    intros HD [GI GO] ((ND & _) & (ND' & _) & CO). specialize (CO gi go (conj GI GO)).
    destruct (lookup path d (gi, go, m)) as [d' x] eqn:LK. destruct (lookup_spec py_str key_order fuel files path d d' x di do gi go m HD ND ND' GI GO CO LK) as (I & F & NF).
    split; [exact I|]. assert (FI : i_find (inventory_of path d) (gi, go, m) = x) by exact (f_equal snd LK).
    assert (X : forall e, x = Ok (Some e) <-> exists i e0, local_index path files = Ok i /\ first i gi go (method_alias m) = Ok (Some e0) /\ used_entry fuel e0 e /\ x = Ok (Some e)).
    { intros e. split; [|intros (i & e0 & _ & _ & _ & E); exact E]. intros E. destruct (local_index path files) as [i|y|] eqn:L.
      - specialize (F i eq_refl). rewrite E in F. destruct (first i gi go (method_alias m)) as [[e0|]|y|] eqn:FE; cbn in F; try discriminate F. exists i, e0. auto.
      - exfalso. refine (NF _ _ E). discriminate.
      - exfalso. refine (NF _ _ E). discriminate. }
    assert (N : x = Ok None <-> no_weights_for path gi go m).
    { rewrite no_first. split.
      - intros ->. destruct (local_index path files) as [i|y|] eqn:L.
        + specialize (F i eq_refl). exists i. split; [reflexivity|]. destruct (first i gi go (method_alias m)) as [[e0|]|y|]; cbn in F; try discriminate F. reflexivity.
        + exfalso. refine (NF _ _ eq_refl). discriminate.
        + exfalso. refine (NF _ _ eq_refl). discriminate.
      - intros (i & L & FE). specialize (F i L). rewrite FE in F. cbn in F. symmetry. exact F. }
    unfold create. rewrite FI. split; [|split; [exact N|]].
    - intros [z sh]. cbn [fst snd]. rewrite weights_first. split.
      + destruct x as [[e|]|y|]; try discriminate. unfold create_from_entry; cbn [bind System.inventory_of i_load]. destruct (load_weights files path e) as [w|y|] eqn:LE; try discriminate. cbn. intros H; injection H as ->.
        destruct (proj1 (X e) eq_refl) as (i & e0 & L & FE & U & _). rewrite (load_used path e0 e U) in LE. apply load_ok in LE. destruct LE as (p & LE). exists i, e0, p. auto.
      + intros (i & e0 & p & L & FE & R). specialize (F i L). rewrite FE in F. cbn in F. destruct x as [[e|]|y|]; try discriminate F. unfold create_from_entry; cbn [bind System.inventory_of i_load].
        rewrite (load_used path e0 e F). rewrite (proj2 (load_ok path e0 z sh) (ex_intro _ p R)). reflexivity.
    - rewrite <- N. destruct x as [[e|]|y|]; cbn [bind]; try (split; discriminate); [|split; reflexivity].
      split; [|discriminate]. cbn. destruct (load_weights files path e); discriminate.
  Qed.

  (** Where data kept under a key comes from. *)
  Definition origin h (k : string) (w : W) : Prop :=
    exists path values di do m gi go, In (Call path values di do m) h /\ IndexSpec.request di do gi go /\
      key_of (gi, go, m) = k /\ weights_for path gi go m (fst w) (snd w).
  Lemma origin_more h o k w : origin h k w -> origin (h ++ [o]) k w.
  Proof. intros (p & v & di & do & m & gi & go & I & R). exists p, v, di, do, m, gi, go. split; [apply in_or_app; left; exact I|exact R]. Qed.

  Definition sys_inv h s : Prop :=
    MemCacheProofs.Inv W (y_mem s) /\ (forall path, db_inv path (db_of path s)) /\ kept W (origin h) (y_mem s).

  Lemma find_spec h s path values di do m s' r : sys_inv h s -> sound_call path di do m -> db_find path di do m s = (s', r) ->
    sys_inv (h ++ [Call path values di do m]) s' /\
    (forall w, r = Ok (Some w) -> exists gi go, IndexSpec.request di do gi go /\ origin (h ++ [Call path values di do m]) (key_of (gi, go, m)) w) /\
    (r = Ok None -> exists gi go, IndexSpec.request di do gi go /\ no_weights_for path gi go m) /\
    (forall gi go, IndexSpec.request di do gi go -> no_weights_for path gi go m -> r = Ok None \/ exists w, r = Ok (Some w)).
  Proof.
    intros (HI & HD & HK) S. set (o := Call path values di do m). unfold System.db_find.
    assert (HK' : kept W (origin (h ++ [o])) (y_mem s)) by (intros k it I; apply origin_more, HK, I).
    destruct (from_dict di) as [gi|x|] eqn:GI; cbn [bind].
    2,3: intros H; injection H as <- <-; split; [exact (conj HI (conj HD HK'))|]; split; [discriminate|]; split; [discriminate|]; intros gi go [E _]; rewrite GI in E; discriminate E.
    destruct (from_dict do) as [go|x|] eqn:GO; cbn [bind].
    2,3: intros H; injection H as <- <-; split; [exact (conj HI (conj HD HK'))|]; split; [discriminate|]; split; [discriminate|]; intros gi' go' [_ E]; rewrite GO in E; discriminate E.
    assert (RQ : IndexSpec.request di do gi go) by (split; assumption).
    destruct (create_spec path (db_of path s) di do gi go m (HD path) RQ S) as (I & C & N & CN).
    destruct (MemCache.get key_of (est_size memory_of) size_of (inventory_of path (db_of path s)) (gi, go, m) (y_mem s)) as [[mem calls] x] eqn:GE.
    assert (OC : forall w, create (inventory_of path (db_of path s)) (gi, go, m) = Ok (Some w) -> origin (h ++ [o]) (key_of (gi, go, m)) w).
    { intros w E. apply C in E. exists path, values, di, do, m, gi, go. split; [apply in_or_app; right; left; reflexivity|]. split; [exact RQ|]. split; [reflexivity|exact E]. }
    destruct (get_kept mreq (entry rest) W key_of (est_size memory_of) size_of size_nonneg (origin (h ++ [o])) (inventory_of path (db_of path s)) (gi, go, m) (y_mem s) mem calls x OC HI HK' GE) as (K1 & K2 & K3).
    pose proof (get_inv mreq (entry rest) W key_of (est_size memory_of) size_of _ _ _ _ _ _ size_nonneg HI GE) as [HI' _].
    intros H. injection H as <- <-. split; [|split; [|split]].
    - split; [exact HI'|]. split; [|exact K1]. intros p. unfold db_of. cbn [y_dbs]. destruct calls; [exact (HD p)|].
      destruct (string_dec p path) as [->|NE]; [rewrite alookup_aset_eq; exact I|rewrite alookup_aset_neq by exact (not_eq_sym NE); exact (HD p)].
    - intros w E. exists gi, go. split; [exact RQ|exact (K2 w E)].
    - intros E. exists gi, go. split; [exact RQ|]. apply CN, K3, E.
    - intros gi' go' [E1 E2] NW. rewrite GI in E1. rewrite GO in E2. injection E1 as <-. injection E2 as <-.
      apply N in NW. exact (get_none mreq (entry rest) W key_of (est_size memory_of) size_of _ _ _ _ _ _ NW GE).
  Qed.

  Lemma step_sys h s o : sys_inv h s -> sound o -> sys_inv (h ++ [o]) (sys_step s o).
  Proof.
    intros HS SO. destruct o as [path values di do m|c|]; cbn [System.sys_step].
    - unfold System.sys_regrid. destruct (db_find path di do m s) as [s' r] eqn:E. exact (proj1 (find_spec h s path values di do m s' r HS SO E)).
    - destruct HS as (HI & HD & HK). split; [|split; [exact HD|]].
      + exact (update_pre_inv W c (y_mem s) HI).
      + intros k it I. apply origin_more, HK. cbn in I. exact (update_subset W c (y_mem s) HI _ I).
    - destruct HS as (HI & HD & HK). split; [|split; [exact HD|intros k it []]].
      exact (step_inv mreq (entry rest) W key_of (est_size memory_of) size_of (y_mem s) OpClear size_nonneg HI).
  Qed.
  Lemma after_sys c h0 h : forgotten h0 -> Forall sound (h0 ++ h) -> sys_inv h (sys_after c (h0 ++ h)).
  Proof.
    intros FG. induction h as [|o h IH] using rev_ind; intros F.
    - rewrite app_nil_r in *. assert (IT : items (y_mem (sys_after c h0)) = []).
      { destruct FG as [->|(h' & ->)]; [apply init_items|]. unfold System.sys_after. rewrite fold_left_app. reflexivity. }
      assert (X : Forall sound h0 -> MemCacheProofs.Inv W (y_mem (sys_after c h0)) /\ forall path, db_inv path (db_of path (sys_after c h0))).
      { clear. induction h0 as [|o h IH] using rev_ind; intros F; [split; [apply init_inv|intros p; apply new_inv]|].
        apply Forall_app in F. destruct F as [F1 F2]. inversion F2 as [|? ? S _]; subst. destruct (IH F1) as [HI HD]. clear IH.
        unfold System.sys_after. rewrite fold_left_app. cbn [fold_left]. fold (sys_after c h).
        destruct o as [path values di do m|c'|]; cbn [System.sys_step].
        - unfold System.sys_regrid, System.db_find. destruct S as (P1 & P2 & CO). destruct (from_dict di) as [gi|x|] eqn:GI; [|split; assumption..]. destruct (from_dict do) as [go|x|] eqn:GO; [|split; assumption..]. cbn [bind].
          destruct (create_spec path (db_of path (sys_after c h)) di do gi go m (HD path) (conj GI GO) (conj P1 (conj P2 CO))) as (I & _).
          destruct (MemCache.get key_of (est_size memory_of) size_of (inventory_of path (db_of path (sys_after c h))) (gi, go, m) (y_mem (sys_after c h))) as [[mem calls] x] eqn:GE.
          pose proof (get_inv mreq (entry rest) W key_of (est_size memory_of) size_of _ _ _ _ _ _ size_nonneg HI GE) as [HI' _]. split; [exact HI'|].
          intros p. unfold db_of. cbn [fst y_dbs]. destruct calls; [exact (HD p)|].
          destruct (string_dec p path) as [->|NE]; [rewrite alookup_aset_eq; exact I|rewrite alookup_aset_neq by exact (not_eq_sym NE); exact (HD p)].
        - split; [exact (update_pre_inv W c' _ HI)|exact HD].
        - split; [|exact HD]. exact (step_inv mreq (entry rest) W key_of (est_size memory_of) size_of _ OpClear size_nonneg HI). }
      destruct (X F) as [HI HD]. split; [exact HI|]. split; [exact HD|]. unfold kept. rewrite IT. intros k it [].
    - rewrite app_assoc in F. apply Forall_app in F. destruct F as [F1 F2]. inversion F2 as [|? ? S _]; subst. unfold System.sys_after. rewrite app_assoc, fold_left_app. cbn. apply step_sys; [exact (IH F1)|exact S].
  Qed.

  (** Shapes. *)
  Lemma nats_spec l : forall n, nats_of l = Ok n <-> l = map (fun k => VInt (Z.of_nat k)) n.
  Proof.
    induction l as [|v l IH]; intros [|k n]; cbn [nats_of map].
    - split; reflexivity.
    - split; discriminate.
    - split; [|discriminate]. destruct (nat_of v); [|discriminate..]. cbn [bind]. destruct (nats_of l); discriminate.
    - specialize (IH n). split.
      + unfold nat_of. destruct v; try discriminate. destruct (Z.ltb_spec z 0); [discriminate|]. cbn [bind]. destruct (nats_of l) as [ns|x|]; try discriminate. cbn.
        intros E. injection E as <- <-. rewrite Z2Nat.id by assumption. f_equal. apply IH. reflexivity.
      + intros E. injection E as -> E. cbn [nat_of]. destruct (Z.ltb_spec (Z.of_nat k) 0); [exfalso; eapply Z.lt_irrefl, Z.lt_le_trans; [eassumption|apply Nat2Z.is_nonneg]|].
        cbn [bind]. rewrite (proj2 IH E). cbn. rewrite Nat2Z.id. reflexivity.
  Qed.
  Lemma shape_spec v n : as_shape v = Ok n <-> is_shape v n.
  Proof.
    assert (S : forall v, nat_of v = Ok (hd O n) /\ n = [hd O n] <-> exists k, v = VInt (Z.of_nat k) /\ n = [k]).
    { clear. intros v. split.
      - intros [E N]. exists (hd O n). split; [|exact N]. assert (nats_of [v] = Ok n) as Q by (cbn; rewrite E; cbn; rewrite <- N; reflexivity). apply nats_spec in Q. rewrite N in Q. cbn in Q. injection Q as Q. exact Q.
      - intros (k & -> & ->). cbn [hd]. split; [|reflexivity]. assert (nats_of [VInt (Z.of_nat k)] = Ok [k]) as Q by (apply nats_spec; reflexivity). cbn [nats_of] in Q.
        destruct (nat_of (VInt (Z.of_nat k))); try discriminate Q. cbn in Q. injection Q as <-. reflexivity. }
    assert (T : forall v, (n0 <- nat_of v ;; Ok [n0]) = Ok n <-> exists k, v = VInt (Z.of_nat k) /\ n = [k]).
    { intros w. rewrite <- S. destruct (nat_of w) as [k|x|]; cbn [bind]; [|split; [discriminate|intros [Q _]; discriminate Q]..]. split; [intros E; injection E as <-; auto|intros [E N]; rewrite N; injection E as ->; reflexivity]. }
    unfold is_shape. destruct v as [| | | | |l|l]; cbn [as_shape]; [rewrite T..| |].
    1-5: split; [auto|intros [H|[H|H]]; [exact H|discriminate H|discriminate H]].
    - rewrite nats_spec. split; [intros ->; auto|intros [(k & H & _)|[H|H]]; [discriminate H|injection H as ->; reflexivity|discriminate H]].
    - rewrite nats_spec. split; [intros ->; auto|intros [(k & H & _)|[H|H]]; [discriminate H|discriminate H|injection H as ->; reflexivity]].
  Qed.

  (** Equal keys. *)
  Lemma key_spec di do di' do' gi go gi' go' m m' :
    plain_dict di -> plain_dict do -> plain_dict di' -> plain_dict do' -> IndexSpec.request di do gi go -> IndexSpec.request di' do' gi' go' ->
    key_of (gi, go, m) = key_of (gi', go', m') ->
    (same_spec gi gi' /\ same_spec go go' /\ m = m') \/ collision sha (text_of float_text gi go m) (text_of float_text gi' go' m').
  Proof using FT.
    intros P1 P2 P3 P4 [E1 E2] [E3 E4] K.
    pose proof (spec_tidy _ _ P1 E1) as T1. pose proof (spec_tidy _ _ P2 E2) as T2. pose proof (spec_tidy _ _ P3 E3) as T3. pose proof (spec_tidy _ _ P4 E4) as T4.
    unfold System.key_of in K. apply C83_memory_keys in K.
    - destruct K as [J|C]; [left|right; exact C]. inversion J as [| | | |l l' F|]; subst.
      inversion F as [|? ? ? ? J1 F1]; subst. inversion F1 as [|? ? ? ? J2 F2]; subst. inversion F2 as [|? ? ? ? J3 F3]; subst.
      split; [exact (same_contents _ _ _ _ (proj1 P1) (proj1 P3) E1 E3 (dict_jeq float_text FT _ _ T1 T3 J1))|].
      split; [exact (same_contents _ _ _ _ (proj1 P2) (proj1 P4) E2 E4 (dict_jeq float_text FT _ _ T2 T4 J2))|]. inversion J3; reflexivity.
    - exact (conj (json_dict_wf float_text FT _ (proj1 T1)) (conj (json_dict_wf float_text FT _ (proj1 T2)) (conj I I))).
    - exact (conj (json_dict_wf float_text FT _ (proj1 T3)) (conj (json_dict_wf float_text FT _ (proj1 T4)) (conj I I))).
  Qed.

  (** Configured caches. *)
  Lemma db_find_ginv path di do m s : GInv W (y_mem s) -> GInv W (y_mem (fst (db_find path di do m s))).
  Proof.
    intros G. unfold System.db_find. destruct (from_dict di) as [gi|x|]; [|exact G..]. cbn [bind]. destruct (from_dict do) as [go|x|]; [|exact G..]. cbn [bind].
    destruct (MemCache.get key_of (est_size memory_of) size_of (inventory_of path (db_of path s)) (gi, go, m) (y_mem s)) as [[mem calls] x] eqn:GE.
    exact (proj1 (get_ginv mreq (entry rest) W key_of (est_size memory_of) size_of size_nonneg _ _ _ _ _ _ G GE)).
  Qed.
  Lemma configured_ginv c h : configured py_str key_order fuel files zero add mul memory_of sha float_text c h -> GInv W (y_mem (sys_after c h)).
  Proof.
    intros [C0 C]. induction h as [|o h IH] using rev_ind.
    - cbn. unfold init in *. destruct (MemCache.update c fresh) as [s r] eqn:E. cbn in C0. subst r. exact (proj1 (update_ok W c fresh s (fresh_ginv W) E)).
    - assert (G : GInv W (y_mem (sys_after c h))). { apply IH. intros pre c' post E. apply (C pre c' (post ++ [o])). rewrite E, <- app_assoc. reflexivity. }
      unfold System.sys_after. rewrite fold_left_app. cbn [fold_left]. fold (sys_after c h). destruct o as [path values di do m|c'|]; cbn [System.sys_step].
      + unfold System.sys_regrid. pose proof (db_find_ginv path di do m _ G) as G'. destruct (db_find path di do m (sys_after c h)) as [s' r]. exact G'.
      + specialize (C h c' [] eq_refl). cbn [y_mem]. destruct (MemCache.update c' (y_mem (sys_after c h))) as [s r] eqn:E. cbn in C. subst r. exact (proj1 (update_ok W c' _ s G E)).
      + exact (step_ginv mreq (entry rest) W key_of (est_size memory_of) size_of size_nonneg (y_mem (sys_after c h)) OpClear G I).
  Qed.
  Lemma find_failures path di do m s s' r gi go :
    GInv W (y_mem s) -> db_inv path (db_of path s) -> IndexSpec.request di do gi go -> sound_call path di do m -> db_find path di do m s = (s', r) ->
    forall z sh, weights_for path gi go m z sh ->
    (exists w, r = Ok (Some w)) \/ (r = Raise WeightsTooLarge /\ too_large py_str key_order fuel files memory_of path gi go m (y_mem s)).
  Proof.
    intros G HD RQ S H z sh HW. pose proof RQ as [GI GO]. unfold System.db_find in H. rewrite GI, GO in H. cbn [bind] in H.
    destruct (create_spec path (db_of path s) di do gi go m HD RQ S) as (_ & C & _ & CN). pose proof (proj2 (C (z, sh)) HW) as CE.
    destruct (MemCache.get key_of (est_size memory_of) size_of (inventory_of path (db_of path s)) (gi, go, m) (y_mem s)) as [[mem calls] x] eqn:GE.
    injection H as <- <-.
    destruct (get_failures mreq (entry rest) W key_of (est_size memory_of) size_of size_nonneg _ _ _ _ _ _ G GE) as [F1 F2].
    destruct x as [[w|]|y|].
    - left. eauto.
    - exfalso. pose proof (get_kept mreq (entry rest) W key_of (est_size memory_of) size_of size_nonneg (fun _ _ => True) _ _ _ _ _ _ (fun _ _ => I) (proj1 G) (fun _ _ _ => I) GE) as (_ & _ & K).
      rewrite (K eq_refl) in CE. discriminate CE.
    - destruct (F1 y eq_refl) as [E|(-> & _ & ST & ent & mx & FE & MX & LT)]; [rewrite E in CE; discriminate CE|].
      right. split; [reflexivity|]. split; [exact ST|].
      destruct HW as (i & pre & n & e & post & p & L & -> & Y & N & _). exists (pre ++ (n, e) :: post), n, e, mx. split; [exact L|]. split; [apply in_or_app; right; left; reflexivity|].
      split; [exact Y|]. split; [exact MX|].
      destruct S as ((ND & _) & (ND' & _) & CO). specialize (CO gi go RQ). destruct (lookup path (db_of path s) (gi, go, m)) as [d' x] eqn:LK.
      destruct (lookup_spec py_str key_order fuel files path _ d' x di do gi go m HD ND ND' GI GO CO LK) as (_ & F & _). specialize (F _ L).
      assert (FE' : x = Ok (Some ent)). { rewrite <- FE. exact (eq_sym (f_equal snd LK)). }
      assert (FF : first (pre ++ (n, e) :: post) gi go (method_alias m) = Ok (Some e)). { apply first_some. exists pre, n, post. auto. }
      rewrite FF, FE' in F. cbn in F. destruct F as (_ & _ & _ & RR). unfold est_size in LT. rewrite RR in LT. exact LT.
    - rewrite (F2 eq_refl) in CE. discriminate CE.
  Qed.
End History.
