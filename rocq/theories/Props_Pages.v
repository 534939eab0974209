(** C102: the inventory pages of the documentation list what the inventory has. *)
From Verif Require Import PyBase PyStr ListLemmas Float64 GridSpec GridVocab GridProofs Index IndexSpec Pages PagesSpec PagesProofs.
From Coq Require Import Lia.
Local Open Scope string_scope.
Local Open Scope list_scope.
Set Default Proof Using "Type".

Fixpoint val_dec (a b : val) {struct a} : {a = b} + {a <> b}.
Proof.
  destruct a as [|x|x|x|x|x|x], b as [|y|y|y|y|y|y]; try (right; discriminate).
  - left. reflexivity.
  - destruct (Bool.bool_dec x y) as [->|N]; [left; reflexivity|right; congruence].
  - destruct (Z.eq_dec x y) as [->|N]; [left; reflexivity|right; congruence].
  - assert (D : {x = y} + {x <> y}) by (repeat decide equality). destruct D as [->|N]; [left; reflexivity|right; congruence].
  - destruct (string_dec x y) as [->|N]; [left; reflexivity|right; congruence].
  - destruct (list_eq_dec val_dec x y) as [->|N]; [left; reflexivity|right; congruence].
  - destruct (list_eq_dec val_dec x y) as [->|N]; [left; reflexivity|right; congruence].
Defined.
Lemma dict_dec (d e : dict) : {d = e} + {d <> e}.
Proof. apply list_eq_dec. intros [k v] [k' v']. destruct (string_dec k k') as [->|N]; [|right; congruence]. destruct (val_dec v v') as [->|N]; [left; reflexivity|right; congruence]. Qed.

(** The pages whose sources are told apart by what the specifications have as attributes. *)
Definition attribute_pages : list string := ["regular_ll"; "orca"; "reduced_gg"; "reduced_gg_o"].

Lemma octahedral_letter d n o : inspect_RGG d = Ok (n, o) ->
  exists v, alookup "grid" d = Some v /\
    (if o then starts_with "O" v \/ starts_with "o" v else starts_with "N" v \/ starts_with "n" v).
Proof.
  unfold inspect_RGG, dget. destruct (alookup "grid" d) as [v|]; cbn [bind]; [|discriminate]. destruct v as [| | | |s| |]; try discriminate.
  destruct (RGG_match s) eqn:M; [|discriminate]. destruct s as [|c s]; [discriminate|]. unfold RGG_match, letter_digit in M. change (chars (String c s)) with (c :: chars s) in M.
  destruct (chars s) as [|c' s'] eqn:S; [discriminate M|]. apply andb_true_iff in M. destruct M as [M _].
  assert (C : c = "O"%char \/ c = "o"%char \/ c = "N"%char \/ c = "n"%char).
  { unfold in_chars in M. change (chars "OoNn") with ["O"; "o"; "N"; "n"]%char in M. cbn [existsb] in M. rewrite !orb_true_iff in M. rewrite !Ascii.eqb_eq in M. tauto || (destruct M as [M|[M|[M|[M|M]]]]; auto; discriminate). }
  intros H. exists (VStr (String c s)). split; [reflexivity|].
  destruct C as [->|[->|[->| ->]]].
  - change (chars (upper (String "O" s))) with ("O"%char :: chars (upper s)) in H. cbv iota in H. destruct (py_int (chars (upper s))) as [k|]; [|discriminate].
    destruct (_ || _); [discriminate|]. inversion H. left. eexists; reflexivity.
  - change (chars (upper (String "o" s))) with ("O"%char :: chars (upper s)) in H. cbv iota in H. destruct (py_int (chars (upper s))) as [k|]; [|discriminate].
    destruct (_ || _); [discriminate|]. inversion H. right. eexists; reflexivity.
  - change (chars (upper (String "N" s))) with ("N"%char :: chars (upper s)) in H. cbv iota in H. destruct (py_int (chars (upper s))) as [k|]; [|discriminate].
    destruct (_ || _); [discriminate|]. inversion H. left. eexists; reflexivity.
  - change (chars (upper (String "n" s))) with ("N"%char :: chars (upper s)) in H. cbv iota in H. destruct (py_int (chars (upper s))) as [k|]; [|discriminate].
    destruct (_ || _); [discriminate|]. inversion H. right. eexists; reflexivity.
Qed.
Lemma letters_apart v : starts_with "O" v \/ starts_with "o" v -> starts_with "N" v \/ starts_with "n" v -> False.
Proof. intros [[r ->]|[r ->]] [[r' E]|[r' E]]; discriminate E. Qed.

Lemma match_octahedral g o b : cls g = RGG -> match_attrs g [("type", VStr "reduced_gg"); ("octahedral", VBool o)] = Ok b ->
  exists n o', inspect_RGG (gd g) = Ok (n, o') /\ b = Bool.eqb o o'.
Proof.
  intros C. cbn [match_attrs]. change (String.eqb "type" "type") with true. change (String.eqb "octahedral" "type") with false. cbv iota.
  unfold get_attr. change (String.eqb "octahedral" "octahedral") with true. cbv iota. rewrite C.
  destruct (inspect_RGG (gd g)) as [[n o']| |]; cbn [bind snd]; try discriminate.
  intros H. exists n, o'. split; [reflexivity|]. destruct o, o'; cbn in H; inversion H; reflexivity.
Qed.

Section Main.
  Context {rest : Type}.
  Variable ident : dict -> string.
  Notation page := (page rest ident).

  Local Ltac bad X := destruct X as [[? ?]|[[? ?]|[(? & ? & ? & [[? ?]|[? ?]])|[? [[? ?]|[? ?]]]]]]; congruence.
  (** Which rows are kept. *)
  Lemma kept name g k : In name attribute_pages ->
    match dget "type" (page_grid name) with
    | Ok w => if py_eq (VStr (type_name (cls g))) w then match_attrs g (page_grid name) = Ok k else k = false
    | _ => False end -> (k = true <-> belongs name g).
  Proof.
    intros [<-|[<-|[<-|[<-|[]]]]] H.
    - change (dget "type" (page_grid "regular_ll")) with (@Ok val (VStr (type_name LL))) in H. cbv iota in H.
      destruct (cls g) eqn:C; cbn in H; split; intros X; try congruence.
      + left. auto.
      + bad X.
      + bad X.
      + bad X.
    - change (dget "type" (page_grid "orca")) with (@Ok val (VStr (type_name ORCA))) in H. cbv iota in H.
      destruct (cls g) eqn:C; cbn in H; split; intros X; try congruence.
      + bad X.
      + bad X.
      + bad X.
      + right. left. auto.
    - change (dget "type" (page_grid "reduced_gg")) with (@Ok val (VStr (type_name RGG))) in H. cbv iota in H.
      change (page_grid "reduced_gg") with [("type", VStr "reduced_gg"); ("octahedral", VBool false)] in H.
      assert (D : cls g <> RGG -> belongs "reduced_gg" g -> False).
      { intros D X. bad X. }
      destruct (cls g) eqn:C; [cbn in H; split; [congruence|intros X; exfalso; apply D; [discriminate|exact X]]| |cbn in H; split; [congruence|intros X; exfalso; apply D; [discriminate|exact X]]|cbn in H; split; [congruence|intros X; exfalso; apply D; [discriminate|exact X]]].
      change (py_eq (VStr (type_name RGG)) (VStr (type_name RGG))) with true in H. cbv iota in H.
      destruct (match_octahedral _ _ _ C H) as (n & o & I & ->). destruct (octahedral_letter _ _ _ I) as (v & G & L).
      destruct o; cbn; split; intros X; try congruence.
      + exfalso. destruct X as [[X _]|[[X _]|[(v' & G' & _ & [[_ Y]|[X _]])|[X _]]]]; try congruence. unfold grid_of in G'. rewrite G in G'. inversion G'; subst v'.
        eapply letters_apart; eauto.
      + right. right. left. exists v. auto.
    - change (dget "type" (page_grid "reduced_gg_o")) with (@Ok val (VStr (type_name RGG))) in H. cbv iota in H.
      change (page_grid "reduced_gg_o") with [("type", VStr "reduced_gg"); ("octahedral", VBool true)] in H.
      assert (D : cls g <> RGG -> belongs "reduced_gg_o" g -> False).
      { intros D X. bad X. }
      destruct (cls g) eqn:C; [cbn in H; split; [congruence|intros X; exfalso; apply D; [discriminate|exact X]]| |cbn in H; split; [congruence|intros X; exfalso; apply D; [discriminate|exact X]]|cbn in H; split; [congruence|intros X; exfalso; apply D; [discriminate|exact X]]].
      change (py_eq (VStr (type_name RGG)) (VStr (type_name RGG))) with true in H. cbv iota in H.
      destruct (match_octahedral _ _ _ C H) as (n & o & I & ->). destruct (octahedral_letter _ _ _ I) as (v & G & L).
      destruct o; cbn; split; intros X; try congruence.
      + right. right. left. exists v. auto.
      + exfalso. destruct X as [[X _]|[[X _]|[(v' & G' & _ & [[X _]|[_ Y]])|[X _]]]]; try congruence. unfold grid_of in G'. rewrite G in G'. inversion G'; subst v'.
        eapply letters_apart; eauto.
  Qed.
  Lemma belongs_same name g h : In name attribute_pages -> gd g = gd h -> cls g = cls h -> belongs name g -> belongs name h.
  Proof.
    intros N E C. unfold belongs, grid_of. rewrite E, C. intros [X|[X|[X|[_ [[X _]|[X _]]]]]]; auto;
      subst name; cbn in N; destruct N as [N|[N|[N|[N|[]]]]]; discriminate N.
  Qed.
  Lemma listed_type (idx : index rest) g go : listed idx g go -> alookup "type" (gd g) = Some (VStr (type_name (cls g))).
  Proof. intros (n & e & _ & _ & G & _). eapply from_type, G. Qed.

  (** C102, without the HEALPix pages: a page that is made has one block for each source of its
      kind, that lists the targets of all linear entries of this source and nothing else. *)
  Theorem C102_page_partial name idx bs : In name attribute_pages -> page name idx = Ok bs ->
    exists srcs, NoDup (map (fun g => ident (gd g)) srcs) /\ Forall2 (describes ident idx) srcs bs /\
      (forall g, In g srcs -> belongs name g /\ exists go, listed idx g go) /\
      (forall g go, listed idx g go -> belongs name g -> (exists g', In g' srcs /\ gd g' = gd g) \/ collision ident idx).
  Proof.
    intros N H. unfold Pages.page in H. destruct (load_matrix_index_file rest ident idx) as [sp| |] eqn:L; cbn [bind] in H; try discriminate.
    destruct (load_rows ident idx sp L) as (K & R & C). rewrite Forall_forall in R.
    assert (T : forall p, In p sp -> alookup "type" (gd (fst (snd p))) = Some (VStr (type_name (cls (fst (snd p)))))).
    { intros p I. destruct (R p I) as (_ & (go & Q) & _). eapply listed_type, Q. }
    destruct (page_row name sp bs H T) as (rows & F & keep & -> & P).
    exists (map (fun p => fst (snd p)) (filter keep sp)). split; [|split; [|split]].
    - rewrite map_map. assert (E : map (fun p => ident (gd (fst (snd p)))) (filter keep sp) = map fst (filter keep sp)).
      { apply map_ext_in. intros p I. apply filter_In in I. apply R, I. }
      rewrite E. clear -K. induction sp as [|[k v] sp IH]; [constructor|]. inversion K; subst. cbn [filter]. destruct (keep (k, v)); [|auto].
      cbn [map fst]. constructor; [|auto]. intros X. apply H1. apply in_map_iff in X. destruct X as ([k' v'] & <- & X). apply filter_In in X.
      eapply In_akeys. apply X.
    - assert (R' : forall p, In p (filter keep sp) -> row_ok ident idx p) by (intros p I; apply filter_In in I; apply R, I).
      clear H. revert F R'. generalize (filter keep sp). intros rows F. induction F as [|p b rows bs' B F IH]; intros R'; cbn [map]; constructor.
      + destruct (R' p (or_introl eq_refl)) as (R1 & _ & l & R3 & R4 & R5).
        destruct (block_ok _ _ _ B) as (B1 & B2 & ss & c1 & c2 & c3 & n & B3). split; [exact B1|]. split; [exact B2|].
        exists l, (snd (snd p)), ss, c1, c2, c3, n. rewrite R1. tauto.
      + apply IH. intros q I. apply R'. right. exact I.
    - intros g I. apply in_map_iff in I. destruct I as (p & <- & I). apply filter_In in I. destruct I as [I J].
      split; [|apply R, I]. apply (kept name _ (keep p) N (P p I)). exact J.
    - intros g go Q B. destruct (alookup (ident (gd g)) sp) as [[s t]|] eqn:A; [|exfalso; exact (C g go Q A)].
      apply alookup_In in A. destruct (R _ A) as (R1 & (so & R2) & _). cbn [fst snd] in R1, R2.
      assert (X : gd s = gd g \/ gd s <> gd g).
      { destruct (dict_dec (gd s) (gd g)); auto. }
      destruct X as [X|X].
      + left. exists s. split; [|exact X]. apply in_map_iff. exists (ident (gd g), (s, t)). split; [reflexivity|]. apply filter_In. split; [exact A|].
        apply (kept name s (keep (ident (gd g), (s, t))) N (P _ A)). apply (belongs_same name g s N); [congruence| |exact B].
        pose proof (listed_type _ _ _ R2) as T1. pose proof (listed_type _ _ _ Q) as T2. rewrite X in T1. rewrite T1 in T2. inversion T2 as [T3].
        symmetry. apply class_eqb. cbn. rewrite T3. apply String.eqb_refl.
      + right. exists s, so, g, go. auto.
  Qed.
End Main.

(** ** A page that is made *)

Definition on_grid (v : val) : dict := [("grid", v)].
Definition spec_of (d : dict) : gspec := match from_dict d with Ok g => g | _ => mkG LL [] None None end.
Definition by_name (m : method) : raw unit := mkRaw None None (Some (mkInter (Some "mir") (Some "16") (Some m))) tt.
Definition pair_of (n : string) (i o : dict) (m : method) : string * entry unit := (n, mkEntry (spec_of i) (spec_of o) n (by_name m)).
Definition ll (x y : Z) : dict := on_grid (VList [VInt x; VInt y]).
Definition named (s : string) : dict := on_grid (VStr s).
(** An identity for the examples: the name of the grid. *)
Definition by_grid (d : dict) : string := match alookup "grid" d with Some (VStr s) => s | _ => "" end.

Definition demo : index unit :=
  [pair_of "a" (named "O32") (named "N16") (MName "linear"); pair_of "b" (named "N32") (ll 10 10) (MName "linear");
   pair_of "c" (named "O32") (ll 5 5) (MName "linear"); pair_of "d" (named "O32") (ll 10 10) (MName "linear");
   pair_of "e" (named "O32") (ll 2 2) (MName "nearest-neighbour"); pair_of "f" (named "O32") (ll 5 1) (MName "linear");
   pair_of "g" (ll 1 1) (ll 10 10) (MName "linear")].

Definition plain (v : val) : shown := mkShown v None.
Example C102_met : In "reduced_gg_o" attribute_pages /\
  page unit by_grid "reduced_gg_o" demo =
  Ok [mkBlock (VStr "O32") (plain (VStr "O32"))
        [[Some (plain (VList [VInt 5; VInt 1])); Some (plain (VList [VInt 5; VInt 5]))];
         [Some (plain (VList [VInt 10; VInt 10])); Some (plain (VStr "N16"))]; [None; None]]].
Proof. split; [cbn; auto|vm_compute; reflexivity]. Qed.
Example C102_met_here : exists g, listed demo g (spec_of (ll 5 5)) /\ belongs "reduced_gg_o" g.
Proof.
  exists (spec_of (named "O32")). split.
  - exists "c", (snd (pair_of "c" (named "O32") (ll 5 5) (MName "linear"))). split; [cbn; auto|]. split.
    + eexists. split; reflexivity.
    + split; vm_compute; reflexivity.
  - right. right. left. exists (VStr "O32"). split; [vm_compute; reflexivity|]. split; [vm_compute; reflexivity|]. right. split; [reflexivity|].
    left. exists "32". reflexivity.
Qed.

(** ** What is wrong with the pages *)

(** C102 refuted: the two HEALPix pages never list anything: the specifications have no
    attribute [ordering], whatever the inventory holds. *)
Theorem C102_healpix_refuted :
  (forall rest ident name (idx : index rest) bs, In name ["healpix_ring"; "healpix_nested"] -> page rest ident name idx = Ok bs -> bs = []) /\
  exists (idx : index unit) g go, listed idx g go /\ belongs "healpix_nested" g /\ page unit by_grid "healpix_nested" idx = Ok [].
Proof.
  split.
  - intros rest ident name idx bs N. unfold page. destruct (load_matrix_index_file rest ident idx) as [sp| |]; cbn [bind]; try discriminate.
    assert (P : exists o, page_grid name = [("type", VStr "healpix"); ("ordering", o)]) by (destruct N as [<-|[<-|[]]]; eexists; reflexivity).
    destruct P as [o ->]. clear N. revert bs. induction sp as [|[k [s t]] sp IH]; cbn [build_gs_page]; intros bs H; [inversion H; reflexivity|].
    destruct (dget "type" (gd s)) as [v| |]; cbn [bind] in H; try discriminate.
    change (dget "type" [("type", VStr "healpix"); ("ordering", o)]) with (@Ok val (VStr "healpix")) in H. cbn [bind] in H.
    destruct (negb (py_eq v (VStr "healpix"))); [auto|].
    change (match_attrs s [("type", VStr "healpix"); ("ordering", o)]) with (@Ok bool false) in H. cbn [bind] in H. auto.
  - exists [pair_of "a" (named "H4" ++ [("ordering", VStr "nested")]) (ll 10 10) (MName "linear")].
    exists (spec_of (named "H4" ++ [("ordering", VStr "nested")])), (spec_of (ll 10 10)). split; [|split].
    + eexists _, _. split; [left; reflexivity|]. split; [eexists; split; reflexivity|]. split; vm_compute; reflexivity.
    + right. right. right. split; [vm_compute; reflexivity|]. right. split; [reflexivity|]. vm_compute. reflexivity.
    + vm_compute. reflexivity.
Qed.

(** C102 refuted: an entry whose method is an object of type "linear" answers requests for
    linear interpolation, and is on no page. *)
Theorem C102_method_refuted : exists e : entry unit,
  answers (fun _ => "") COMPARE_KEYS 10 e (spec_of (named "O32")) (spec_of (ll 10 10)) "linear" /\
  snd (find (fun _ => "") COMPARE_KEYS 10 [("a", e)] (named "O32") (ll 10 10) "linear") = Ok (Some e) /\
  page unit by_grid "reduced_gg_o" [("a", e)] = Ok [].
Proof.
  exists (snd (pair_of "a" (named "O32") (ll 10 10) (MObject (Some "linear")))).
  split; [|split; vm_compute; reflexivity]. split; [reflexivity|]. split; vm_compute; reflexivity.
Qed.

(** C102 refuted: one grid whose keys come in two orders is on the page twice, each time with
    a part of the targets (unless the two texts collide). *)
Definition keys_one : dict := [("grid", VStr "N32"); ("shape", VList [VInt 6114])].
Definition keys_two : dict := [("shape", VList [VInt 6114]); ("grid", VStr "N32")].
Theorem C102_order_refuted : forall ident, ident (gd (spec_of keys_one)) <> ident (gd (spec_of keys_two)) ->
  snd (eq (fun _ => "") COMPARE_KEYS 10 (spec_of keys_one) (spec_of keys_two)) = Ok true /\
  page unit ident "reduced_gg" [pair_of "a" keys_one (ll 10 10) (MName "linear"); pair_of "b" keys_two (ll 5 5) (MName "linear")] =
  Ok [mkBlock (VStr "N32") (plain (VStr "N32")) [[Some (plain (VList [VInt 10; VInt 10]))]; [None]; [None]];
      mkBlock (VStr "N32") (plain (VStr "N32")) [[Some (plain (VList [VInt 5; VInt 5]))]; [None]; [None]]].
Proof.
  intros ident N. split; [vm_compute; reflexivity|]. unfold page, load_matrix_index_file. unfold pair_of. cbn [collect e_input e_output].
  assert (A : from_dict (gd (spec_of keys_one)) = Ok (spec_of keys_one)) by (vm_compute; reflexivity).
  assert (B : from_dict (gd (spec_of keys_two)) = Ok (spec_of keys_two)) by (vm_compute; reflexivity).
  assert (C : from_dict (gd (spec_of (ll 10 10))) = Ok (spec_of (ll 10 10))) by (vm_compute; reflexivity).
  assert (D : from_dict (gd (spec_of (ll 5 5))) = Ok (spec_of (ll 5 5))) by (vm_compute; reflexivity).
  rewrite A, B, C, D. cbn [bind is_linear e_raw by_name r_inter i_method String.eqb Ascii.eqb Bool.eqb].
  unfold add_target. cbn [alookup aset]. rewrite (proj2 (String.eqb_neq _ _)) by (intros E; apply N; symmetry; exact E). cbn [aset].
  cbn [collect bind]. unfold sort_targets. cbn [map_ok fst snd].
  assert (E : forall g, sorted_specs [g] = k <- sort_key g ;; Ok [g]) by (intros g; unfold sorted_specs; cbn [sort_into]; destruct (sort_key g); reflexivity).
  rewrite !E. vm_compute. reflexivity.
Qed.

(** C102 refuted: one source with a name that is no name of a grid ("N32x" has the type of the
    reduced Gaussian grids) and none of the pages of these grids is made. *)
Theorem C102_abandoned_refuted :
  page unit by_grid "reduced_gg" [pair_of "a" (named "N32") (ll 10 10) (MName "linear"); pair_of "b" (named "N32x") (ll 10 10) (MName "linear")] = Raise ValueError /\
  page unit by_grid "reduced_gg_o" [pair_of "a" (named "O32") (ll 10 10) (MName "linear"); pair_of "b" (named "N32x") (ll 10 10) (MName "linear")] = Raise ValueError.
Proof. split; vm_compute; reflexivity. Qed.

(** C102 refuted: a HEALPix target without an ordering (ring by default) is not shown: the page
    of its source is not made. *)
Theorem C102_default_ordering_refuted :
  order (spec_of (named "H4")) = Ok (VStr "ring") /\
  page unit by_grid "reduced_gg_o" [pair_of "a" (named "O32") (named "H4") (MName "linear")] = Raise ValueError.
Proof. split; vm_compute; reflexivity. Qed.

Print Assumptions C102_page_partial.
Print Assumptions C102_healpix_refuted.
Print Assumptions C102_method_refuted.
Print Assumptions C102_order_refuted.
Print Assumptions C102_abandoned_refuted.
Print Assumptions C102_default_ordering_refuted.
