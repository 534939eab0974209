(** Lemmas for the inventory pages. *)
From Verif Require Import PyBase PyStr ListLemmas Float64 GridSpec GridVocab GridProofs Index Pages PagesSpec.
From Coq Require Import Lia SpecFloat.
Local Open Scope string_scope.
Local Open Scope list_scope.
Local Open Scope nat_scope.
Set Default Proof Using "Type".

(** ** Comparisons *)

Lemma SFcompare_swap x y : SFcompare y x = match SFcompare x y with Some c => Some (CompOpp c) | None => None end.
Proof.
  destruct x as [s|s| |s m e], y as [s'|s'| |s' m' e']; cbn; try destruct s; try destruct s'; try reflexivity.
  - rewrite (Z.compare_antisym e e'). destruct (Z.compare e e'); cbn; try reflexivity. change (Pos.compare_cont Eq m' m) with (Pos.compare m' m). change (Pos.compare_cont Eq m m') with (Pos.compare m m'). rewrite (Pos.compare_antisym m m'). destruct (Pos.compare m m'); reflexivity.
  - rewrite (Z.compare_antisym e e'). destruct (Z.compare e e'); cbn; try reflexivity. change (Pos.compare_cont Eq m' m) with (Pos.compare m' m). change (Pos.compare_cont Eq m m') with (Pos.compare m m'). rewrite (Pos.compare_antisym m m'). destruct (Pos.compare m m'); reflexivity.
Qed.
Lemma ncompare_swap a b : ncompare b a = match ncompare a b with Some c => Some (CompOpp c) | None => None end.
Proof.
  destruct a as [x|x], b as [y|y]; cbn [ncompare].
  - rewrite (Z.compare_antisym x y). reflexivity.
  - reflexivity.
  - destruct (compare_Z y x) as [[]|]; reflexivity.
  - apply SFcompare_swap.
Qed.
Lemma nltb_asym a b : nltb a b = true -> nltb b a = false.
Proof. unfold nltb. rewrite (ncompare_swap a b). destruct (ncompare a b) as [[]|]; cbn; congruence. Qed.
Lemma neqb_sym a b : neqb a b = neqb b a.
Proof. unfold neqb. rewrite (ncompare_swap a b). destruct (ncompare a b) as [[]|]; reflexivity. Qed.
Lemma neqb_not_lt a b : neqb a b = true -> nltb a b = false.
Proof. unfold neqb, nltb. destruct (ncompare a b) as [[]|]; congruence. Qed.
Lemma sltb_asym a b : String.ltb a b = true -> String.ltb b a = false.
Proof. unfold String.ltb. rewrite (String.compare_antisym b a). destruct (String.compare a b); cbn; congruence. Qed.
Lemma sltb_irrefl a : String.ltb a a = false.
Proof. destruct (String.ltb a a) eqn:E; [|reflexivity]. pose proof (sltb_asym _ _ E). congruence. Qed.

Lemma py_eq_num a b x y : as_num a = Some x -> as_num b = Some y -> py_eq a b = neqb x y.
Proof. destruct a, b; cbn; intros X Y; try discriminate; inversion X; inversion Y; reflexivity. Qed.
Lemma val_lt_num a b x y : as_num a = Some x -> as_num b = Some y -> val_lt a b = Ok (nltb x y).
Proof. unfold val_lt. intros -> ->. reflexivity. Qed.

(** One key is before the other, or the other is not before the one. *)
Definition fine (j k : val * val) : Prop := key_lt j k = Ok true \/ key_lt k j = Ok false.

Lemma sort_key_str g s : grid_of g (VStr s) -> sort_key g = Ok (VInt 1000, VStr s).
Proof. intros G. unfold sort_key, dget. rewrite G. reflexivity. Qed.
Lemma sort_key_num g x y : numbers g x y -> exists a b, sort_key g = Ok (a, b) /\ as_num a = Some x /\ as_num b = Some y.
Proof. intros (a & b & r & G & X & Y). exists a, b. unfold sort_key, dget. rewrite G. cbn. auto. Qed.

Lemma fine_in_order g h j k : sort_key g = Ok j -> sort_key h = Ok k -> fine j k -> in_order g h.
Proof.
  intros J K F. split; [|split; [|split]].
  - intros s t G H. rewrite (sort_key_str _ _ G) in J. rewrite (sort_key_str _ _ H) in K. inversion J; inversion K; subst.
    unfold fine, key_lt in F. cbn [fst snd] in F. change (py_eq (VInt 1000) (VInt 1000)) with true in F. cbn [py_eq] in F. destruct F as [F|F].
    + destruct (String.eqb s t); [discriminate|]. cbn in F. inversion F as [F']. apply sltb_asym, F'.
    + destruct (String.eqb_spec t s) as [E|N]; [rewrite E; apply sltb_irrefl|]. cbn in F. inversion F. congruence.
  - intros x y x' y' G H. destruct (sort_key_num _ _ _ G) as (a & b & J' & X & Y). destruct (sort_key_num _ _ _ H) as (a' & b' & K' & X' & Y').
    rewrite J' in J. rewrite K' in K. inversion J; inversion K; subst. unfold fine, key_lt in F. cbn [fst snd] in F.
    rewrite (py_eq_num _ _ _ _ X X'), (py_eq_num _ _ _ _ X' X), (py_eq_num _ _ _ _ Y Y'), (py_eq_num _ _ _ _ Y' Y), (val_lt_num _ _ _ _ X X'), (val_lt_num _ _ _ _ X' X), (val_lt_num _ _ _ _ Y Y'), (val_lt_num _ _ _ _ Y' Y) in F.
    rewrite (neqb_sym x x'), (neqb_sym y y') in F. destruct (neqb x' x) eqn:E.
    + split; [apply neqb_not_lt, E|]. intros _. destruct (neqb y' y) eqn:E'; [apply neqb_not_lt, E'|].
      destruct F as [F|F]; inversion F as [F']; rewrite ?F'; auto using nltb_asym.
    + split; [|discriminate]. destruct F as [F|F]; inversion F as [F']; rewrite ?F'; auto using nltb_asym.
  - intros s x y G H. rewrite (sort_key_str _ _ G) in J. destruct (sort_key_num _ _ _ H) as (a' & b' & K' & X' & Y').
    rewrite K' in K. inversion J; inversion K; subst. unfold fine, key_lt in F. cbn [fst snd] in F.
    assert (T : as_num (VInt 1000) = Some (NI 1000)) by reflexivity.
    rewrite (py_eq_num _ _ _ _ T X'), (py_eq_num _ _ _ _ X' T), (val_lt_num _ _ _ _ T X'), (val_lt_num _ _ _ _ X' T) in F.
    rewrite (neqb_sym (NI 1000) x) in F. destruct (neqb x (NI 1000)) eqn:E; [apply neqb_not_lt, E|].
    destruct F as [F|F]; inversion F as [F']; rewrite ?F'; auto using nltb_asym.
  - intros s x y G H. rewrite (sort_key_str _ _ H) in K. destruct (sort_key_num _ _ _ G) as (a' & b' & K' & X' & Y').
    rewrite K' in J. inversion J; inversion K; subst. unfold fine, key_lt in F. cbn [fst snd] in F.
    assert (T : as_num (VInt 1000) = Some (NI 1000)) by reflexivity.
    rewrite (py_eq_num _ _ _ _ T X'), (py_eq_num _ _ _ _ X' T), (val_lt_num _ _ _ _ T X'), (val_lt_num _ _ _ _ X' T) in F.
    rewrite (neqb_sym x (NI 1000)) in F. destruct (neqb (NI 1000) x) eqn:E; [apply neqb_not_lt, E|].
    destruct F as [F|F]; inversion F as [F']; rewrite ?F'; auto using nltb_asym.
Qed.

(** ** Sorting *)

Definition keyed (p : (val * val) * gspec) : Prop := sort_key (snd p) = Ok (fst p).
Definition fine2 (p q : (val * val) * gspec) : Prop := fine (fst p) (fst q).

Lemma insert_perm k g l l' : insert_spec k g l = Ok l' -> Permutation ((k, g) :: l) l'.
Proof.
  revert l'. induction l as [|[k' g'] l IH]; cbn [insert_spec]; intros l' H; [inversion H; reflexivity|].
  destruct (key_lt k k') as [[]| |]; cbn [bind] in H; try discriminate; [inversion H; reflexivity|].
  destruct (insert_spec k g l) as [r| |]; cbn [bind] in H; try discriminate. inversion H; subst.
  etransitivity; [apply perm_swap|]. constructor. apply IH. reflexivity.
Qed.
Lemma insert_sorted k g l l' : insert_spec k g l = Ok l' -> Sorted fine2 l -> Sorted fine2 l'.
Proof.
  assert (A : forall l l', insert_spec k g l = Ok l' -> Sorted fine2 l ->
            Sorted fine2 l' /\ (forall p, HdRel fine2 p l -> fine2 p (k, g) -> HdRel fine2 p l')).
  { clear l l'. induction l as [|[k' g'] l IH]; cbn [insert_spec]; intros l' H S.
    - inversion H; subst. split; [repeat constructor|]. intros p _ F. constructor. exact F.
    - destruct (key_lt k k') as [[]| |] eqn:E; cbn [bind] in H; try discriminate.
      + inversion H; subst. split.
        * constructor; [exact S|]. constructor. left. exact E.
        * intros p _ F. constructor. exact F.
      + destruct (insert_spec k g l) as [r| |]; cbn [bind] in H; try discriminate. inversion H; subst.
        inversion S; subst. destruct (IH r eq_refl H2) as [S' HD]. split.
        * constructor; [exact S'|]. apply HD; [exact H3|]. right. exact E.
        * intros p HR _. inversion HR; subst. constructor. assumption. }
  intros H S. apply (A l l' H S).
Qed.
Lemma sort_into_ok l : forall acc s, sort_into acc l = Ok s -> Sorted fine2 acc -> Forall keyed acc ->
  Sorted fine2 s /\ Forall keyed s /\ Permutation (map snd acc ++ l) (map snd s).
Proof.
  induction l as [|g l IH]; cbn [sort_into]; intros acc s H S F.
  - inversion H; subst. rewrite app_nil_r. auto.
  - destruct (sort_key g) as [k| |] eqn:K; cbn [bind] in H; try discriminate.
    destruct (insert_spec k g acc) as [acc'| |] eqn:I; cbn [bind] in H; try discriminate.
    pose proof (insert_perm _ _ _ _ I) as P. destruct (IH acc' s H) as (A & B & C).
    + eapply insert_sorted; eauto.
    + eapply Permutation_Forall; [exact P|]. constructor; assumption.
    + split; [exact A|]. split; [exact B|]. etransitivity; [|exact C].
      apply (Permutation_map snd) in P. cbn in P. etransitivity; [|apply Permutation_app_tail, P]. symmetry. apply Permutation_middle.
Qed.
Lemma sorted_specs_ok l t : sorted_specs l = Ok t -> Permutation l t /\ Sorted in_order t.
Proof.
  unfold sorted_specs. destruct (sort_into [] l) as [s| |] eqn:E; cbn [bind]; try discriminate. intros H; inversion H; subst.
  destruct (sort_into_ok l [] s E (Sorted_nil _) (Forall_nil _)) as (A & B & C). split; [exact C|].
  clear -A B. induction A as [|p s A IH HD]; cbn [map]; [constructor|]. inversion B; subst. constructor; [auto|].
  destruct HD as [|q s F]; cbn [map]; constructor. inversion H2; subst. eapply fine_in_order; eauto.
Qed.

(** ** Cells *)

Lemma map_ok_Forall2 {A B} (f : A -> result B) l m : map_ok f l = Ok m -> Forall2 (fun a b => f a = Ok b) l m.
Proof.
  revert m. induction l as [|a l IH]; cbn [map_ok]; intros m H; [inversion H; constructor|].
  destruct (f a) eqn:E; cbn [bind] in H; try discriminate. destruct (map_ok f l); cbn [bind] in H; try discriminate.
  inversion H; subst. constructor; auto.
Qed.
Lemma map_ok_app {A B} (f : A -> result B) l l' m m' : map_ok f l = Ok m -> map_ok f l' = Ok m' -> map_ok f (l ++ l') = Ok (m ++ m').
Proof.
  revert m. induction l as [|a l IH]; cbn [map_ok app]; intros m H H'; [inversion H; exact H'|].
  destruct (f a) eqn:E; cbn [bind] in H |- *; try discriminate. destruct (map_ok f l); cbn [bind] in H; try discriminate.
  inversion H; subst. erewrite IH by eauto. reflexivity.
Qed.
Lemma map_ok_length {A B} (f : A -> result B) l m : map_ok f l = Ok m -> List.length m = List.length l.
Proof. intros H. apply map_ok_Forall2 in H. induction H; cbn; auto. Qed.

Lemma to_str_shows g s : to_str g = Ok s -> shows g s.
Proof.
  unfold to_str, dget. destruct (alookup "grid" (gd g)) as [v|] eqn:G; cbn [bind]; [|discriminate]. intros H.
  assert (C : (exists r, v = VStr (String "H" r)) \/
              match v with VStr s => match chars s with c :: _ => Ascii.eqb c "H" | [] => false end | _ => false end = false /\ ~ starts_with "H" v).
  { destruct v as [| | | |s0| |]; try (right; split; [reflexivity|intros [r E]; discriminate]). destruct s0 as [|c r]; [right; split; [reflexivity|intros [r E]; discriminate]|].
    cbn. destruct (Ascii.eqb_spec c "H") as [->|N]; [left; eauto|right; split; [reflexivity|]]. intros [r' E]. inversion E. congruence. }
  destruct C as [[r ->]|[C N]].
  - cbn [chars Ascii.eqb Bool.eqb] in H. destruct (alookup "ordering" (gd g)) as [o|] eqn:O1.
    + inversion H; subst. split; [exact G|]. cbn. split; [intros N; exfalso; apply N; eexists; reflexivity|]. intros _. exists o. auto.
    + destruct (alookup "order" (gd g)) as [o|] eqn:O2; [|discriminate].
      inversion H; subst. split; [exact G|]. cbn. split; [intros N; exfalso; apply N; eexists; reflexivity|]. intros _. exists o. auto.
  - rewrite C in H. inversion H; subst. split; [exact G|]. cbn. split; [reflexivity|]. intros S. contradiction.
Qed.

Lemma pad_enough l : exists n, pad BLOCK_COL_NUM l = l ++ repeat None n /\ n < 3 /\ exists s, List.length (pad BLOCK_COL_NUM l) = 3 * s.
Proof.
  unfold BLOCK_COL_NUM. pose proof (Nat.div_mod_eq (List.length l) 3) as D. pose proof (Nat.mod_upper_bound (List.length l) 3 ltac:(lia)) as U.
  set (q := Nat.div (List.length l) 3) in *. cbn [pad]. unfold BLOCK_COL_NUM. rewrite !app_length. cbn [List.length].
  destruct (Nat.modulo (List.length l) 3) as [|[|[|r]]] eqn:M; [..|lia]; cbn [Nat.eqb].
  - exists 0. rewrite app_nil_r. split; [reflexivity|]. split; [lia|]. exists q. lia.
  - assert (M1 : Nat.modulo (List.length l + 1) 3 = 2) by (symmetry; apply (Nat.mod_unique _ 3 q); lia). rewrite M1. cbn [Nat.eqb].
    assert (M2 : Nat.modulo (List.length l + 1 + 1) 3 = 0) by (symmetry; apply (Nat.mod_unique _ 3 (S q)); lia). rewrite M2. cbn [Nat.eqb].
    exists 2. rewrite <- app_assoc. cbn. split; [reflexivity|]. split; [lia|]. exists (S q). rewrite ?app_length. cbn [List.length repeat]. lia.
  - assert (M1 : Nat.modulo (List.length l + 1) 3 = 0) by (symmetry; apply (Nat.mod_unique _ 3 (S q)); lia). rewrite M1. cbn [Nat.eqb].
    exists 1. cbn. split; [reflexivity|]. split; [lia|]. exists (S q). rewrite ?app_length. cbn [List.length repeat]. lia.
Qed.
Lemma three {A} (l : list A) s : List.length l = 3 * s ->
  l = firstn s (skipn (0 * s) l) ++ firstn s (skipn (1 * s) l) ++ firstn s (skipn (2 * s) l) /\
  List.length (firstn s (skipn (0 * s) l)) = s /\ List.length (firstn s (skipn (1 * s) l)) = s /\ List.length (firstn s (skipn (2 * s) l)) = s.
Proof.
  intros H. rewrite !firstn_length, !skipn_length. split; [|lia]. cbn [Nat.mul skipn]. rewrite !Nat.add_0_r.
  rewrite <- (firstn_skipn s l) at 1. f_equal. rewrite <- (firstn_skipn s (skipn s l)) at 1. f_equal.
  rewrite (firstn_all2 (n := s) (skipn (s + s) l)) by (rewrite skipn_length; lia). clear.
  generalize s at 1 3. intros m. revert l. induction s as [|s IH]; intros l; [rewrite Nat.add_0_r; reflexivity|].
  rewrite Nat.add_succ_r. destruct l as [|a l]; cbn [skipn]; [now rewrite skipn_nil|]. apply IH.
Qed.
Lemma cells_shown t n ss : map_ok cell_text (map Some t ++ repeat None n) = Ok ss ->
  exists l, ss = map Some l ++ repeat None n /\ Forall2 shows t l.
Proof.
  revert ss. induction t as [|g t IH]; cbn [map app map_ok]; intros ss H.
  - exists []. split; [|constructor]. cbn [map app]. revert ss H. induction n as [|n IH]; cbn [repeat map_ok cell_text bind]; intros ss H; [inversion H; reflexivity|].
    destruct (map_ok cell_text (repeat None n)) as [r| |]; cbn [bind] in H; try discriminate. inversion H; subst. f_equal. apply IH. reflexivity.
  - cbn [cell_text] in H. destruct (to_str g) as [s| |] eqn:E; cbn [bind] in H; try discriminate.
    destruct (map_ok cell_text _) as [r| |]; cbn [bind] in H; try discriminate. inversion H; subst.
    destruct (IH r eq_refl) as (l & -> & F). exists (s :: l). split; [reflexivity|]. constructor; [apply to_str_shows, E|exact F].
Qed.

Lemma block_ok g t b : make_gs_block g t = Ok b ->
  grid_of g (b_title b) /\ shows g (b_source b) /\
  exists ss c1 c2 c3 n, Forall2 shows t ss /\
      b_columns b = [c1; c2; c3] /\ List.length c1 = List.length c2 /\ List.length c2 = List.length c3 /\
      c1 ++ c2 ++ c3 = map Some ss ++ repeat None n /\ n < 3.
Proof.
  unfold make_gs_block. destruct (pad_enough (map Some t)) as (n & P & N & s & L). rewrite L.
  replace (Nat.div (3 * s) BLOCK_COL_NUM) with s by (unfold BLOCK_COL_NUM; rewrite Nat.mul_comm, Nat.div_mul; lia).
  set (p := pad BLOCK_COL_NUM (map Some t)) in *. unfold dget. destruct (alookup "grid" (gd g)) as [v|] eqn:G; cbn [bind]; [|discriminate].
  destruct (to_str g) as [sh| |] eqn:S; cbn [bind]; try discriminate.
  destruct (three p s L) as (E & L1 & L2 & L3).
  unfold BLOCK_COL_NUM. cbn [seq map_ok].
  destruct (map_ok cell_text (firstn s (skipn (0 * s) p))) as [c1| |] eqn:C1; cbn [bind]; try discriminate.
  destruct (map_ok cell_text (firstn s (skipn (1 * s) p))) as [c2| |] eqn:C2; cbn [bind]; try discriminate.
  destruct (map_ok cell_text (firstn s (skipn (2 * s) p))) as [c3| |] eqn:C3; cbn [bind]; try discriminate.
  intros H; inversion H; subst b; clear H. cbn [b_title b_source b_columns]. split; [exact G|]. split; [apply to_str_shows, S|].
  pose proof (map_ok_app _ _ _ _ _ C1 (map_ok_app _ _ _ _ _ C2 C3)) as C. rewrite <- E, P in C. destruct (cells_shown _ _ _ C) as (ss & Q & F).
  exists ss, c1, c2, c3, n. rewrite (map_ok_length _ _ _ C1), (map_ok_length _ _ _ C2), (map_ok_length _ _ _ C3), L1, L2, L3. auto 10.
Qed.

(** ** The type of a specification *)

Lemma type_kept d c : alookup "type" d = Some (VStr (type_name c)) -> forall g, init c d = Ok g ->
  cls g = c /\ alookup "type" (gd g) = Some (VStr (type_name c)).
Proof.
  intros T g H. destruct c; cbn [init] in H.
  - unfold init_LL in H.
    match type of H with bind ?r _ = _ => destruct r as [d1| |] eqn:E; cbn [bind] in H; try discriminate end.
    assert (T1 : alookup "type" d1 = Some (VStr (type_name LL))).
    { destruct (negb (amem "global" d) && negb (amem "area" d)); [|inversion E; subst; exact T].
      destruct (dget "grid" d) as [v| |]; cbn [bind] in E; try discriminate.
      destruct (GridSpec.index v 0) as [x| |]; cbn [bind] in E; try discriminate.
      destruct (GridSpec.index v 1) as [y| |]; cbn [bind] in E; try discriminate.
      destruct (hashable x && hashable y); [|discriminate]. inversion E; subst. rewrite !alookup_aset. exact T. }
    destruct (global_flags _) as [f| |]; cbn [bind] in H; try discriminate. inversion H; subst. cbn [cls gd]. split; [reflexivity|].
    rewrite setdefault_lookup. exact T1.
  - unfold init_RGG in H. destruct (global_flags _) as [f| |]; cbn [bind] in H; try discriminate. inversion H; subst. cbn [cls gd].
    split; [reflexivity|]. rewrite setdefault_lookup. exact T.
  - unfold init_HP in H. inversion H; subst. cbn [cls gd]. split; [reflexivity|]. rewrite setdefault_lookup. cbn [String.eqb Ascii.eqb Bool.eqb].
    destruct (alookup "ordering" d); [|exact T]. rewrite alookup_aset, alookup_aremove. exact T.
  - inversion H; subst. cbn [cls gd]. auto.
Qed.
Lemma from_type d g : from_dict d = Ok g -> alookup "type" (gd g) = Some (VStr (type_name (cls g))).
Proof.
  unfold from_dict. destruct (infer _) as [[c|]| |]; cbn [bind]; try discriminate. intros H.
  destruct (type_kept _ c (alookup_aset_eq "type" _ _) g H) as [-> T]. exact T.
Qed.
(** HealpixGridSpec keeps the ordering under "order". *)
Lemma class_eqb c c' : py_eq (VStr (type_name c)) (VStr (type_name c')) = true -> c = c'.
Proof. destruct c, c'; intros H; (reflexivity || discriminate H). Qed.

Section Collect.
  Context {rest : Type}.
  Variable ident : dict -> string.
  Notation collect := (collect rest ident).
  Notation targets := (@targets rest ident).

  Lemma is_linear_spec (e : entry rest) b : is_linear rest e = Ok b -> (b = true /\ linear e) \/ (b = false /\ ~ linear e).
  Proof.
    unfold is_linear, linear. destruct (r_inter (e_raw e)) as [i|]; [|discriminate]. destruct (i_method i) as [[s|o|]|] eqn:M; [..|discriminate].
    - intros H; inversion H; subst. destruct (String.eqb_spec s "linear") as [->|N]; [left; eauto|right]. split; [reflexivity|].
      intros (i' & X & Y). inversion X; subst. rewrite M in Y. inversion Y. contradiction.
    - intros H; inversion H; subst. right. split; [reflexivity|]. intros (i' & X & Y). inversion X; subst. congruence.
    - intros H; inversion H; subst. right. split; [reflexivity|]. intros (i' & X & Y). inversion X; subst. congruence.
  Qed.

  Lemma add_target_keys sp gi go : NoDup (akeys sp) -> NoDup (akeys (add_target ident sp gi go)).
  Proof.
    intros N. unfold add_target. assert (A : forall v, NoDup (akeys (aset (ident (gd gi)) v sp))).
    { intros v. rewrite akeys_aset. unfold amem. destruct (alookup _ sp) eqn:E; [exact N|]. apply NoDup_snoc; [exact N|]. apply alookup_None, E. }
    destruct (alookup (ident (gd gi)) sp) as [[s l]|]; apply A.
  Qed.
  Lemma add_target_lookup sp gi go id : alookup id (add_target ident sp gi go) =
    if String.eqb (ident (gd gi)) id
    then match alookup id sp with Some (s, l) => Some (s, l ++ [go]) | None => Some (gi, [go]) end
    else alookup id sp.
  Proof.
    unfold add_target. destruct (String.eqb_spec (ident (gd gi)) id) as [E|N].
    - subst id. destruct (alookup (ident (gd gi)) sp) as [[s l]|]; rewrite alookup_aset_eq; reflexivity.
    - destruct (alookup (ident (gd gi)) sp) as [[s l]|]; rewrite alookup_aset_neq by exact N; reflexivity.
  Qed.

  Lemma listed_cons p (idx : index rest) gi go : listed idx gi go -> listed (p :: idx) gi go.
  Proof. intros (n & e & I & L). exists n, e. split; [right; exact I|exact L]. Qed.

  Lemma collect_ok idx : forall sp sp', collect sp idx = Ok sp' -> NoDup (akeys sp) ->
    NoDup (akeys sp') /\
    (forall id, exists l, targets id idx l /\
      match alookup id sp with
      | Some (s, m) => alookup id sp' = Some (s, m ++ l)
      | None => (l = [] /\ alookup id sp' = None) \/
                exists g go, ident (gd g) = id /\ listed idx g go /\ alookup id sp' = Some (g, l)
      end) /\
    (forall g go, listed idx g go -> alookup (ident (gd g)) sp' <> None).
  Proof.
    induction idx as [|[n e] idx IH]; cbn [Pages.collect]; intros sp sp' H N.
    - inversion H; subst. split; [exact N|]. split.
      + intros id. exists []. split; [constructor|]. destruct (alookup id sp') as [[s m]|]; [rewrite app_nil_r; reflexivity|left; auto].
      + intros g go (n & e & [] & _).
    - destruct (from_dict (gd (e_input e))) as [gi| |] eqn:GI; cbn [bind] in H; try discriminate.
      destruct (from_dict (gd (e_output e))) as [go| |] eqn:GO; cbn [bind] in H; try discriminate.
      destruct (is_linear rest e) as [b| |] eqn:L; cbn [bind] in H; try discriminate.
      assert (G : grids e gi go) by (split; assumption).
      destruct (is_linear_spec _ _ L) as [[-> Y]|[-> Y]].
      + destruct (IH _ _ H (add_target_keys _ gi go N)) as (A & B & C). split; [exact A|]. split.
        * intros id. destruct (B id) as (l & T & M). rewrite add_target_lookup in M. destruct (String.eqb_spec (ident (gd gi)) id) as [E|E].
          -- exists (go :: l). split; [eapply T_one; eauto|]. destruct (alookup id sp) as [[s m]|].
             ++ rewrite <- app_assoc in M. exact M.
             ++ right. exists gi, go. split; [exact E|]. split; [|exact M]. exists n, e. split; [left; reflexivity|auto].
          -- exists l. split; [eapply T_other; eauto|]. destruct (alookup id sp) as [[s m]|]; [exact M|]. destruct M as [M|(g & go' & M1 & M2 & M3)]; [left; exact M|].
             right. exists g, go'. auto using listed_cons.
        * intros g go' (n' & e' & [I|I] & Y' & G').
          -- inversion I; subst n' e'. destruct G' as [G1 G2]. rewrite GI in G1. inversion G1; subst g.
             destruct (B (ident (gd gi))) as (l & _ & M). rewrite add_target_lookup, String.eqb_refl in M.
             destruct (alookup (ident (gd gi)) sp) as [[s m]|]; rewrite M; discriminate.
          -- apply (C g go'). exists n', e'. auto.
      + destruct (IH _ _ H N) as (A & B & C). split; [exact A|]. split.
        * intros id. destruct (B id) as (l & T & M). exists l. split; [apply T_method; assumption|].
          destruct (alookup id sp) as [[s m]|]; [exact M|]. destruct M as [M|(g & go' & M1 & M2 & M3)]; [left; exact M|].
          right. exists g, go'. auto using listed_cons.
        * intros g go' (n' & e' & [I|I] & Y' & G').
          -- inversion I; subst n' e'. contradiction.
          -- apply (C g go'). exists n', e'. auto.
  Qed.

  (** What a row of the sorted table holds. *)
  Definition row_ok (idx : index rest) (p : string * (gspec * list gspec)) : Prop :=
    ident (gd (fst (snd p))) = fst p /\ (exists go, listed idx (fst (snd p)) go) /\
    exists l, targets (fst p) idx l /\ Permutation l (snd (snd p)) /\ Sorted in_order (snd (snd p)).

  Lemma load_rows idx sp : load_matrix_index_file rest ident idx = Ok sp ->
    NoDup (akeys sp) /\ Forall (row_ok idx) sp /\ (forall g go, listed idx g go -> alookup (ident (gd g)) sp <> None).
  Proof.
    unfold load_matrix_index_file. destruct (collect [] idx) as [sp0| |] eqn:C; cbn [bind]; try discriminate. intros H.
    destruct (collect_ok idx [] sp0 C (NoDup_nil _)) as (A & B & D). unfold sort_targets in H. apply map_ok_Forall2 in H.
    assert (K : akeys sp = akeys sp0).
    { clear -H. induction H as [|[k [s l]] q sp0 sp F H IH]; [reflexivity|]. cbn [fst snd] in F. destruct (sorted_specs l) as [t| |]; cbn [bind] in F; try discriminate.
      inversion F; subst. cbn. f_equal. exact IH. }
    split; [rewrite K; exact A|]. split.
    - assert (R : forall p, In p sp0 -> ident (gd (fst (snd p))) = fst p /\ (exists go, listed idx (fst (snd p)) go) /\ targets (fst p) idx (snd (snd p))).
      { intros [id [s l]] I. pose proof (In_alookup _ _ _ A I) as Q. destruct (B id) as (l' & T & M). cbn [alookup] in M.
        destruct M as [[_ M]|(g & go & M1 & M2 & M3)]; [congruence|]. rewrite Q in M3. inversion M3; subst. cbn. eauto. }
      clear -H R. induction H as [|[k [s l]] q sp0 sp F H IH]; constructor.
      + cbn [fst snd] in F. destruct (sorted_specs l) as [t| |] eqn:S; cbn [bind] in F; try discriminate. inversion F; subst.
        destruct (R (k, (s, l)) (or_introl eq_refl)) as (R1 & R2 & R3). cbn [fst snd] in *. destruct (sorted_specs_ok _ _ S) as [P Q].
        split; [exact R1|]. split; [exact R2|]. exists l. auto.
      + apply IH. intros p I. apply R. right. exact I.
    - intros g go L E. apply (D g go L). apply alookup_None. rewrite <- K. apply alookup_None, E.
  Qed.

  (** ** The page *)

  Lemma page_row name sp bs : build_gs_page sp (page_grid name) = Ok bs ->
    (forall p, In p sp -> alookup "type" (gd (fst (snd p))) = Some (VStr (type_name (cls (fst (snd p)))))) ->
    exists rows, Forall2 (fun p b => make_gs_block (fst (snd p)) (snd (snd p)) = Ok b) rows bs /\
      (exists keep, rows = filter keep sp /\
        forall p, In p sp -> match dget "type" (page_grid name) with
                             | Ok w => if py_eq (VStr (type_name (cls (fst (snd p))))) w
                                       then match_attrs (fst (snd p)) (page_grid name) = Ok (keep p) else keep p = false
                             | _ => False end).
  Proof.
    assert (W : exists w, dget "type" (page_grid name) = Ok w).
    { unfold page_grid. destruct (String.eqb name "reduced_gg_o"); [eexists; reflexivity|]. destruct (String.eqb name "reduced_gg"); [eexists; reflexivity|].
      destruct (String.eqb name "healpix_ring"); [eexists; reflexivity|]. destruct (String.eqb name "healpix_nested"); eexists; reflexivity. }
    destruct W as [w W]. rewrite W. set (keep := fun p : string * (gspec * list gspec) =>
      py_eq (VStr (type_name (cls (fst (snd p))))) w && match match_attrs (fst (snd p)) (page_grid name) with Ok b => b | _ => false end).
    intros H T.
    assert (X : exists rows, Forall2 (fun p b => make_gs_block (fst (snd p)) (snd (snd p)) = Ok b) rows bs /\ rows = filter keep sp /\
              forall p, In p sp -> py_eq (VStr (type_name (cls (fst (snd p))))) w = true -> exists b, match_attrs (fst (snd p)) (page_grid name) = Ok b).
    { revert bs H. induction sp as [|[k [s l]] sp IH]; cbn [build_gs_page]; intros bs H.
      - inversion H; subst. exists []. split; [constructor|]. split; [reflexivity|]. intros p [].
      - pose proof (T _ (or_introl eq_refl)) as T0. cbn [fst snd] in T0. assert (T1 : forall p, In p sp -> alookup "type" (gd (fst (snd p))) = Some (VStr (type_name (cls (fst (snd p)))))) by (intros p I; apply T; right; exact I).
        specialize (IH T1). unfold dget at 1 in H. rewrite T0, W in H. cbn [bind] in H. cbn [filter]. unfold keep at 1. cbn [fst snd].
        destruct (py_eq (VStr (type_name (cls s))) w) eqn:P; cbn [negb] in H.
        + destruct (match_attrs s (page_grid name)) as [[]| |] eqn:M; cbn [bind] in H; try discriminate.
          * destruct (make_gs_block s l) as [b| |] eqn:B; cbn [bind] in H; try discriminate.
            destruct (build_gs_page sp (page_grid name)) as [bs'| |]; cbn [bind] in H; try discriminate. inversion H; subst.
            destruct (IH bs' eq_refl) as (rows & A & -> & C). eexists. split; [|split; [reflexivity|]].
            -- cbn [andb]. constructor; [exact B|exact A].
            -- intros p [<-|I] Q; [cbn; eauto|auto].
          * destruct (IH bs H) as (rows & A & -> & C). eexists. split; [exact A|]. split; [reflexivity|]. intros p [<-|I] Q; [cbn; eauto|auto].
        + destruct (IH bs H) as (rows & A & -> & C). eexists. split; [exact A|]. split; [reflexivity|].
          intros p [<-|I] Q; [cbn [fst snd] in Q; congruence|auto]. }
    destruct X as (rows & A & B & C). exists rows. split; [exact A|]. exists keep. split; [exact B|]. intros p I.
    destruct (py_eq _ w) eqn:P; unfold keep; rewrite P; [|reflexivity]. destruct (C p I P) as [b ->]. reflexivity.
  Qed.
End Collect.
