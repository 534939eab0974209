(** Properties of grid-definition files and of making matrices with MIR: C58, C87. *)
From Verif Require Import PyBase PyStr ListLemmas KeyProofs Stream StreamSpec StreamProofs Mir MirSpec MirProofs.
Local Open Scope string_scope.
Local Open Scope list_scope.
Local Open Scope Z_scope.

(** ** Strings *)
Lemma los_app a b : list_ascii_of_string (a ++ b) = list_ascii_of_string a ++ list_ascii_of_string b.
Proof. induction a as [|c a IH]; cbn; [reflexivity|now rewrite IH]. Qed.
Lemma los_inj a b : list_ascii_of_string a = list_ascii_of_string b -> a = b.
Proof. intros H. rewrite <- (string_of_list_ascii_of_string a), H. apply string_of_list_ascii_of_string. Qed.
Lemma append_cancel_l a b c : (a ++ b = a ++ c -> b = c)%string.
Proof. intros H. apply (f_equal list_ascii_of_string) in H. rewrite !los_app in H. apply app_inv_head in H. now apply los_inj. Qed.
Lemma append_cancel_r a b c : (a ++ c = b ++ c -> a = b)%string.
Proof. intros H. apply (f_equal list_ascii_of_string) in H. rewrite !los_app in H. apply app_inv_tail in H. now apply los_inj. Qed.

(** splitting at the first occurrence of a character *)
Lemma split_first (c : ascii) (x x' y y' : list ascii) :
  ~ In c x -> ~ In c x' -> x ++ c :: y = x' ++ c :: y' -> x = x' /\ y = y'.
Proof.
  revert x'. induction x as [|a x IH]; intros [|a' x'] N N' E; cbn in *.
  - injection E as E. now split.
  - injection E as -> _. exfalso. apply N'. now left.
  - injection E as -> _. exfalso. apply N. now left.
  - injection E as -> E. destruct (IH x') as [-> ->]; auto.
Qed.

Section Griddef.
  Variable repr : option Z -> string.
  Variable render : bool -> list Z -> string.
  Variable md5 : string -> string.
  Variable dir : string.
  Notation text := (coord_text repr render).
  Notation name := (griddef_name repr render md5 dir).
  Notation from_latlon := (griddef_from_latlon repr render md5 dir).
  Notation run := (grun repr render md5 dir).

  Lemma name_md5 a o a' o' : name a o = name a' o' -> md5 (text a o) = md5 (text a' o').
  Proof. unfold griddef_name. intros H. do 2 apply append_cancel_l in H. now apply append_cancel_r in H. Qed.

  (** a file that is there is never touched again *)
  Lemma from_latlon_keeps stop a o d x f : alookup x d = Some f ->
    alookup x (snd (from_latlon stop a o d)) = Some f.
  Proof.
    intros H. unfold griddef_from_latlon. destruct (amem (name a o) d) eqn:M; [exact H|].
    assert (N : x <> name a o).
    { intros ->. unfold amem in M. now rewrite H in M. }
    unfold mir_write_latlon_to_griddef.
    destruct (negb _ || _); [exact H|]. destruct (griddef_writer _ _ []) as [r b].
    destruct stop as [k|]; [cbn [snd]; now rewrite alookup_aset_neq by congruence|].
    destruct r; cbn [snd]; now rewrite alookup_aset_neq by congruence.
  Qed.
  Lemma run_keeps l d x f : alookup x d = Some f -> alookup x (run l d) = Some f.
  Proof.
    revert d. induction l as [|c l IH]; intros d H; cbn; [exact H|].
    apply IH. unfold grun1. now apply from_latlon_keeps.
  Qed.
  Lemma from_latlon_other stop a o d x : x <> name a o -> alookup x (snd (from_latlon stop a o d)) = alookup x d.
  Proof.
    intros N. unfold griddef_from_latlon. destruct (amem (name a o) d) eqn:M; [reflexivity|].
    unfold mir_write_latlon_to_griddef.
    destruct (negb _ || _); [reflexivity|]. destruct (griddef_writer _ _ []) as [r b].
    destruct stop as [k|]; [cbn [snd]; now rewrite alookup_aset_neq by congruence|].
    destruct r; cbn [snd]; now rewrite alookup_aset_neq by congruence.
  Qed.

  (** Where the file is: in the directory, under the MD5 of the coordinates. *)
  Theorem C58_where stop a o d p d' : from_latlon stop a o d = (Some (Ok p), d') -> p = (dir ++ "/" ++ md5 (text a o) ++ ".griddef")%string /\ alookup p d' <> None.
  Proof.
    unfold griddef_from_latlon. destruct (amem (name a o) d) eqn:M.
    - intros E; injection E as <- <-. split; [reflexivity|]. unfold amem in M. destruct (alookup (name a o) d); discriminate.
    - unfold mir_write_latlon_to_griddef. destruct (negb _ || _); [discriminate|]. destruct (griddef_writer _ _ []) as [r b]. destruct stop as [k|]; [discriminate|].
      destruct r; try discriminate. intros E; injection E as <- <-. split; [reflexivity|]. rewrite alookup_aset_eq. discriminate.
  Qed.
  (** Latitudes and longitudes that do not go together are refused, and nothing is written. *)
  Theorem C58_refused stop a o d : List.length (items a) <> List.length (items o) \/ items a = [] -> alookup (name a o) d = None ->
    from_latlon stop a o d = (Some (Raise ValueError), d).
  Proof.
    intros H N. unfold griddef_from_latlon, amem. rewrite N. unfold mir_write_latlon_to_griddef.
    assert (X : negb (Nat.eqb (List.length (items a)) (List.length (items o))) || Nat.eqb (List.length (items a)) 0 = true).
    { destruct H as [H| ->]; [|cbn; apply orb_true_r]. apply Nat.eqb_neq in H. rewrite H. reflexivity. }
    rewrite X. reflexivity.
  Qed.
  Lemma grid_lengths lats lons a o : is_grid lats lons -> items a = map Some lats -> items o = map Some lons ->
    negb (Nat.eqb (List.length (items a)) (List.length (items o))) || Nat.eqb (List.length (items a)) 0 = false.
  Proof.
    intros (N & L & _) -> ->. rewrite !map_length, L, Nat.eqb_refl. cbn [negb orb].
    destruct lats; [contradiction|]. now rewrite <- L.
  Qed.

  Lemma from_latlon_writes lats lons a o d : is_grid lats lons -> items a = map Some lats -> items o = map Some lons ->
    alookup (name a o) d = None ->
    from_latlon None a o d = (Some (Ok (name a o)), aset (name a o) (Raw (griddef_file lats lons)) d).
  Proof.
    intros G A O N. unfold griddef_from_latlon. unfold amem. rewrite N.
    unfold mir_write_latlon_to_griddef. rewrite (grid_lengths lats lons) by assumption.
    rewrite A, O, griddef_content by exact G. reflexivity.
  Qed.
  Lemma from_latlon_killed lats lons a o d k : is_grid lats lons -> items a = map Some lats -> items o = map Some lons ->
    alookup (name a o) d = None ->
    from_latlon (Some k) a o d = (None, aset (name a o) (Raw (ztake k (griddef_file lats lons))) d).
  Proof.
    intros G A O N. unfold griddef_from_latlon. unfold amem. rewrite N.
    unfold mir_write_latlon_to_griddef. rewrite (grid_lengths lats lons) by assumption.
    rewrite A, O, griddef_content by exact G. reflexivity.
  Qed.

  (** *** C58, what holds *)

  (** Whatever the calls (killed or not) for other grids: when no call for this grid was
      killed, no call for another grid gave the same text, and the hash of no other text
      is the same, then after a call for the grid its file is there with all its points. *)
  Theorem C58_complete_partial (l : list gcall) (d : fs) (c : gcall) (lats lons : list Z) :
    is_grid lats lons -> items (g_lat c) = map Some lats -> items (g_lon c) = map Some lons ->
    alookup (name (g_lat c) (g_lon c)) d = None ->
    In c l ->
    (forall c', In c' l -> text (g_lat c') (g_lon c') = text (g_lat c) (g_lon c) -> g_stop c' = None) ->
    (forall c', In c' l -> text (g_lat c') (g_lon c') = text (g_lat c) (g_lon c) ->
       items (g_lat c') = items (g_lat c) /\ items (g_lon c') = items (g_lon c)) ->
    (forall c', In c' l -> md5 (text (g_lat c') (g_lon c')) = md5 (text (g_lat c) (g_lon c)) ->
       text (g_lat c') (g_lon c') = text (g_lat c) (g_lon c)) ->
    alookup (name (g_lat c) (g_lon c)) (run l d) = Some (Raw (griddef_file lats lons)).
  Proof.
    intros G A O. revert d. induction l as [|c1 l IH]; intros d N I K T M; [contradiction|].
    cbn [grun fold_left]. fold (run l).
    destruct (string_dec (name (g_lat c1) (g_lon c1)) (name (g_lat c) (g_lon c))) as [E|E].
    - apply run_keeps. pose proof (M c1 (or_introl eq_refl) (name_md5 _ _ _ _ E)) as TX.
      pose proof (K c1 (or_introl eq_refl) TX) as KX. destruct (T c1 (or_introl eq_refl) TX) as [TA TO].
      unfold grun1. rewrite KX, <- E.
      rewrite (from_latlon_writes lats lons) by (congruence || assumption).
      cbn [snd]. apply alookup_aset_eq.
    - apply IH.
      + unfold grun1. rewrite from_latlon_other; [exact N|]. congruence.
      + destruct I as [->|I]; [contradiction|exact I].
      + intros c' I'. apply K. now right.
      + intros c' I'. apply T. now right.
      + intros c' I'. apply M. now right.
  Qed.

  (** For Python lists the second condition holds: their text says all the numbers. *)
  Definition token (s : string) : Prop :=
    s <> "" /\ ~ In ","%char (list_ascii_of_string s) /\ ~ In "]"%char (list_ascii_of_string s).

  Lemma joined_chars l c : (forall x, In x l -> ~ In c (list_ascii_of_string x)) -> c <> ","%char -> c <> " "%char ->
    ~ In c (list_ascii_of_string (joined l)).
  Proof.
    intros H C S. induction l as [|x [|y l] IH]; [now intros []|apply H; now left|].
    change (joined (x :: y :: l)) with (x ++ ", " ++ joined (y :: l))%string.
    rewrite !los_app. rewrite !in_app_iff. intros [I|[I|I]].
    - revert I. apply H. now left.
    - cbn in I. destruct I as [I|[I|[]]]; congruence.
    - revert I. apply IH. intros z Z1. apply H. now right.
  Qed.
  Lemma joined_cons x y l : joined (x :: y :: l) = (x ++ ", " ++ joined (y :: l))%string.
  Proof. reflexivity. Qed.
  Lemma joined_inj l l' : (forall x, In x l -> token x) -> (forall x, In x l' -> token x) ->
    joined l = joined l' -> l = l'.
  Proof.
    revert l'. induction l as [|x l IH]; intros [|x' l'] H H' E.
    - reflexivity.
    - exfalso. destruct (H' x' (or_introl eq_refl)) as [N _]. cbn in E.
      destruct l'; [now rewrite <- E in N|]. destruct x'; [now apply N|discriminate].
    - exfalso. destruct (H x (or_introl eq_refl)) as [N _]. cbn in E.
      destruct l; [now rewrite E in N|]. destruct x; [now apply N|discriminate].
    - destruct (H x (or_introl eq_refl)) as (N & C & _). destruct (H' x' (or_introl eq_refl)) as (N' & C' & _).
      destruct l as [|y l], l' as [|y' l'].
      + now cbn in E; rewrite E.
      + exfalso. rewrite joined_cons in E. cbn [joined] in E. apply C. rewrite E, los_app, in_app_iff. right. now left.
      + exfalso. rewrite joined_cons in E. cbn [joined] in E. apply C'. rewrite <- E, los_app, in_app_iff. right. now left.
      + rewrite !joined_cons in E. apply (f_equal list_ascii_of_string) in E. rewrite !los_app in E.
        apply split_first in E as [E1 E2]; try assumption.
        apply los_inj in E1. subst x'. f_equal. apply IH.
        * intros z Z1. apply H. now right.
        * intros z Z1. apply H'. now right.
        * cbn [app] in E2. injection E2 as E2. now apply los_inj.
  Qed.

  Theorem C58_text_partial (a o a' o' : list (option Z)) :
    (forall x, token (repr x)) -> (forall x y, repr x = repr y -> x = y) ->
    text (CList a) (CList o) = text (CList a') (CList o') -> a = a' /\ o = o'.
  Proof.
    intros TK INJ E. unfold coord_text in E. cbn [str_coords] in E. apply append_cancel_l in E.
    apply (f_equal list_ascii_of_string) in E. rewrite !los_app in E. cbn [list_ascii_of_string app] in E.
    injection E as E. rewrite <- !app_assoc in E. cbn [app] in E.
    assert (NB : forall l c, c = "]"%char -> ~ In c (list_ascii_of_string (joined (map repr l)))).
    { intros l c ->. apply joined_chars; try discriminate. intros x X. apply in_map_iff in X as (z & <- & _). apply TK. }
    apply split_first in E as [E1 E2]; [|now apply NB|now apply NB].
    injection E2 as E2. apply split_first in E2 as [E2 _]; [|now apply NB|now apply NB].
    assert (MI : forall l l', list_ascii_of_string (joined (map repr l)) = list_ascii_of_string (joined (map repr l')) -> l = l').
    { intros l l' H. apply los_inj in H. apply joined_inj in H.
      - revert l' H. induction l as [|x l IHl]; intros [|y l'] H; try discriminate H; [reflexivity|].
        cbn in H. injection H as H1 H2. f_equal; [now apply INJ|now apply IHl].
      - intros x X. apply in_map_iff in X as (z & <- & _). apply TK.
      - intros x X. apply in_map_iff in X as (z & <- & _). apply TK. }
    split; now apply MI.
  Qed.

  (** *** C58, what does not *)

  (** A process killed while it writes leaves the beginning of the file under the final
      name, and every later call for the grid is satisfied with it. *)
  Theorem C58_killed_refuted (a o : coords) (lats lons : list Z) (d : fs) (k : Z) :
    is_grid lats lons -> items a = map Some lats -> items o = map Some lons ->
    alookup (name a o) d = None ->
    0 <= k < Z.of_nat (List.length (griddef_file lats lons)) ->
    let d1 := snd (from_latlon (Some k) a o d) in
    exists b, strict_prefix b (griddef_file lats lons) /\
      from_latlon None a o d1 = (Some (Ok (name a o)), d1) /\
      alookup (name a o) d1 = Some (Raw b).
  Proof.
    intros G A O N K. cbv zeta. rewrite (from_latlon_killed lats lons a o) by assumption. cbn [snd].
    exists (ztake k (griddef_file lats lons)). split; [|split].
    - generalize (griddef_file lats lons), k, K. clear. intros w. induction w as [|x w IH]; intros k K.
      + cbn in K. lia.
      + cbn [ztake]. destruct (k <=? 0) eqn:E; [now exists (x :: w)|].
        destruct (IH (k - 1)) as (q & Q & W); [cbn [List.length] in K; lia|].
        exists q. split; [exact Q|]. cbn. now rewrite <- W.
    - unfold griddef_from_latlon, amem. now rewrite alookup_aset_eq.
    - apply alookup_aset_eq.
  Qed.

  (** Two numpy arrays of the same length, above 1000 points, with the same first and last
      three numbers have the same name: the second grid gets the file of the first. *)
  Theorem C58_array_refuted (lats lats' lons : list Z) (d : fs) :
    is_grid lats lons -> is_grid lats' lons ->
    (1000 < List.length lats)%nat ->
    firstn 3 lats = firstn 3 lats' -> skipn (List.length lats - 3) lats = skipn (List.length lats' - 3) lats' ->
    alookup (name (CArray lats) (CArray lons)) d = None ->
    let d1 := snd (from_latlon None (CArray lats) (CArray lons) d) in
    exists n, from_latlon None (CArray lats') (CArray lons) d1 = (Some (Ok n), d1) /\
      alookup n d1 = Some (Raw (griddef_file lats lons)).
  Proof.
    intros G G' L F S N. cbv zeta. rewrite (from_latlon_writes lats lons (CArray lats) (CArray lons)) by (assumption || reflexivity). cbn [snd].
    assert (E : name (CArray lats') (CArray lons) = name (CArray lats) (CArray lons)).
    { unfold griddef_name, coord_text. cbn [str_coords].
      destruct G as (_ & L1 & _), G' as (_ & L2 & _). rewrite L2, <- L1.
      rewrite (proj2 (Nat.ltb_lt _ _)) by exact L. rewrite F, S. now rewrite L2, <- L1. }
    exists (name (CArray lats) (CArray lons)). split.
    - unfold griddef_from_latlon. rewrite E. unfold amem. now rewrite alookup_aset_eq.
    - apply alookup_aset_eq.
  Qed.
End Griddef.

(** the files of different grids are different, so the second grid above has a wrong file *)
Lemma word_inj a b : 0 <= a < 2 ^ 32 -> 0 <= b < 2 ^ 32 -> word a = word b -> a = b.
Proof. intros A B E. rewrite <- (unbe_word a), <- (unbe_word b) by assumption. now rewrite E. Qed.
Lemma double_inj a b r s : 0 <= a < 2 ^ 64 -> 0 <= b < 2 ^ 64 ->
  wire (VDouble a) ++ r = wire (VDouble b) ++ s -> a = b /\ r = s.
Proof.
  intros A B E. cbn [wire] in E.
  assert (W : forall a b c e (x y : bytes), (14 :: word a ++ word c) ++ x = (14 :: word b ++ word e) ++ y ->
            word a = word b /\ word c = word e /\ x = y).
  { clear. intros a b c e x y. unfold word. cbn [app]. intros E. injection E. intros. repeat split; congruence. }
  apply W in E as (E1 & E2 & E3).
  pose proof (Z.mod_pos_bound a (2 ^ 32) ltac:(lia)). pose proof (Z.mod_pos_bound b (2 ^ 32) ltac:(lia)).
  assert (D : forall x, 0 <= x < 2 ^ 64 -> 0 <= x / 2 ^ 32 < 2 ^ 32).
  { intros x X. split; [apply Z.div_pos; lia|]. apply Z.div_lt_upper_bound; lia. }
  apply word_inj in E1; try assumption. apply word_inj in E2; try (now apply D).
  split; [|exact E3]. rewrite (Z.div_mod a (2 ^ 32)), (Z.div_mod b (2 ^ 32)) by lia. congruence.
Qed.
Theorem C58_files_differ (lats lats' lons lons' : list Z) :
  is_grid lats lons -> is_grid lats' lons' ->
  griddef_file lats lons = griddef_file lats' lons' -> lats = lats' /\ lons = lons'.
Proof.
  intros (_ & L & B & FA & FO) (_ & L' & B' & FA' & FO') E. unfold griddef_file in E. cbn [app] in E.
  rewrite !wires_cons in E. apply app_inv_head in E. apply app_inv_head in E. apply app_inv_head in E.
  assert (E' : word (Z.of_nat (List.length lats)) = word (Z.of_nat (List.length lats')) /\ wires (points lats lons) = wires (points lats' lons')).
  { revert E. cbn [wire]. generalize (Z.of_nat (List.length lats)) (Z.of_nat (List.length lats')). clear.
    intros a b. unfold word. cbn [app]. intros E. injection E. intros. split; congruence. }
  destruct E' as [EL EP]. apply word_inj in EL; [|lia|lia]. apply Nat2Z.inj in EL. clear B B' E.
  revert lats' lons lons' L L' FA FA' FO FO' EL EP.
  induction lats as [|a lats IH]; intros [|a' lats'] [|o lons] [|o' lons']; try discriminate; [now split|].
  intros L L' FA FA' FO FO' EL EP.
  unfold points in EP. cbn [combine flat_map fst snd app] in EP. rewrite !wires_cons in EP. cbn [repeat app] in EP.
  apply double_inj in EP as [-> EP]; [|now apply Forall_inv in FA|now apply Forall_inv in FA'].
  apply double_inj in EP as [-> EP]; [|now apply Forall_inv in FO|now apply Forall_inv in FO'].
  destruct (IH lats' lons lons') as [-> ->].
  - now injection L. - now injection L'.
  - now apply Forall_inv_tail in FA. - now apply Forall_inv_tail in FA'.
  - now apply Forall_inv_tail in FO. - now apply Forall_inv_tail in FO'.
  - now injection EL. - exact EP.
  - now split.
Qed.

(** the hypotheses can be met: a way of writing numbers, and grids *)
Definition ex_repr (x : option Z) : string := match x with Some n => show_Z n | None => "None" end.
Lemma show_Z_chars n c : is_digit c = false -> c <> "-"%char -> ~ In c (list_ascii_of_string (show_Z n)).
Proof.
  intros D M. unfold show_Z. destruct (n <? 0) eqn:E.
  - cbn [list_ascii_of_string]. intros [I|I]; [congruence|].
    change (In c (chars (of_chars (show_nonneg (- n))))) in I. rewrite chars_of_chars in I.
    destruct (show_nonneg_ok (- n) ltac:(lia)) as (F & _). rewrite Forall_forall in F. apply F in I. congruence.
  - intros I. change (In c (chars (of_chars (show_nonneg n)))) in I. rewrite chars_of_chars in I.
    destruct (show_nonneg_ok n ltac:(lia)) as (F & _). rewrite Forall_forall in F. apply F in I. congruence.
Qed.
Lemma show_Z_none n : show_Z n <> "None".
Proof.
  intros E. apply (show_Z_chars n "N"%char); [reflexivity|discriminate|]. rewrite E. now left.
Qed.
Example C58_repr_met :
  (forall x, token (ex_repr x)) /\ (forall x y, ex_repr x = ex_repr y -> x = y).
Proof.
  split.
  - intros [n|]; unfold token; cbn [ex_repr].
    + split; [|split; apply show_Z_chars; reflexivity || discriminate].
      unfold show_Z. destruct (n <? 0) eqn:E; [discriminate|].
      destruct (show_nonneg_ok n ltac:(lia)) as (_ & N & _). destruct (show_nonneg n); [contradiction|discriminate].
    + split; [discriminate|]. cbn. split; intros H; decompose [or] H; discriminate || contradiction.
  - intros [n|] [m|]; cbn [ex_repr]; intros E; [|exfalso; now apply show_Z_none in E|exfalso; symmetry in E; now apply show_Z_none in E|reflexivity].
    apply show_Z_inj in E. now subst.
Qed.
Example C58_where_met : exists d, griddef_from_latlon ex_repr (fun _ _ => "") (fun s => s) "/d" None (CList [Some 5]) (CList [Some 6]) [] = (Some (Ok "/d/1[5][6].griddef"), d).
Proof. eexists. vm_compute. reflexivity. Qed.
Definition ex_lats := repeat 7 1001.
Definition ex_lats' := repeat 7 500 ++ [8] ++ repeat 7 500.
Example C58_grids_met :
  is_grid ex_lats ex_lats /\ is_grid ex_lats' ex_lats /\ (1000 < List.length ex_lats)%nat /\
  firstn 3 ex_lats = firstn 3 ex_lats' /\
  skipn (List.length ex_lats - 3) ex_lats = skipn (List.length ex_lats' - 3) ex_lats' /\ ex_lats <> ex_lats'.
Proof.
  assert (B : forall n, Forall (fun b : Z => 0 <= b < 2 ^ 64) (repeat 7 n)).
  { intros n. apply Forall_forall. intros x X. apply repeat_spec in X. lia. }
  assert (B' : Forall (fun b : Z => 0 <= b < 2 ^ 64) ex_lats').
  { apply Forall_app. split; [apply B|]. apply Forall_app. split; [repeat constructor; lia|apply B]. }
  split; [|split; [|split; [|split; [|split]]]].
  - split; [discriminate|]. split; [reflexivity|]. split; [vm_compute; reflexivity|]. split; apply B.
  - split; [discriminate|]. split; [vm_compute; reflexivity|]. split; [vm_compute; reflexivity|]. split; [exact B'|apply B].
  - unfold ex_lats. rewrite repeat_length. lia.
  - reflexivity.
  - vm_compute. reflexivity.
  - vm_compute. discriminate.
Qed.

(** ** C87: the matrix MIR makes is delivered as asked *)
Section Make.
  Variable repr : option Z -> string.
  Variable render : bool -> list Z -> string.
  Variable md5 : string -> string.
  Variable dir : string.
  Variable execute : minput -> list (string * string) -> fs -> result unit * fs.
  Notation make := (mir_make_matrix repr render md5 dir execute).
  Notation source := (source repr render md5 dir).
  Notation name := (griddef_name repr render md5 dir).

  (** A grid is given to MIR by its specification, or by the file of its points (see C58), which is
      there when MIR starts. *)
  Inductive given (d : fs) : option string -> option coords -> option coords -> minput -> Prop :=
  | g_spec y : given d (Some y) None None (GridSpecInput y)
  | g_points a o f : alookup (name a o) d = Some f -> given d None (Some a) (Some o) (GriddefInput (name a o)).
  Inductive target : minput -> string * string -> Prop :=
  | t_spec y : target (GridSpecInput y) ("grid", y)
  | t_points n : target (GriddefInput n) ("griddef", n).
  Lemma target_setting i : target i (out_setting i).
  Proof. destruct i; constructor. Qed.
  Lemma source_given g a o d i d' : source g a o d = (Ok i, d') -> given d' g a o i /\ forall x f, alookup x d = Some f -> alookup x d' = Some f.
  Proof.
    unfold Mir.source. destruct g as [y|], a as [a|], o as [o|]; try discriminate.
    - intros H. injection H as <- <-. split; [constructor|auto].
    - intros H. pose proof (fun x f => from_latlon_keeps repr render md5 dir None a o d x f) as K.
      destruct (griddef_from_latlon repr render md5 dir None a o d) as [[[n|e|]|] d1] eqn:E; try discriminate H. injection H as <- <-. cbn [snd] in K. split; [|exact K].
      assert (X : n = name a o /\ exists f, alookup (name a o) d1 = Some f).
      { unfold griddef_from_latlon in E. destruct (amem (name a o) d) eqn:M.
        - injection E as <- <-. unfold amem in M. destruct (alookup (name a o) d) as [f|]; [eauto|discriminate M].
        - unfold mir_write_latlon_to_griddef in E. destruct (negb _ || _); [discriminate E|]. destruct (griddef_writer _ _ []) as [[[]|e|] b]; try discriminate E.
          injection E as <- <-. split; [reflexivity|]. exists (Raw b). apply alookup_aset_eq. }
      destruct X as (-> & f & L). exact (g_points d1 a o f L).
  Qed.
  Lemma given_more d d' g a o i : (forall x f, alookup x d = Some f -> alookup x d' = Some f) -> given d g a o i -> given d' g a o i.
  Proof. intros K [y|a' o' f L]; [constructor|exact (g_points d' a' o' f (K _ _ L))]. Qed.
  Lemma source_refused g a o d : (forall d' i, ~ given d' g a o i) -> source g a o d = (Raise ValueError, d).
  Proof.
    intros N. unfold Mir.source. destruct g as [y|], a as [a|], o as [o|]; try reflexivity.
    - destruct (N d (GridSpecInput y)). constructor.
    - destruct (N [(name a o, Raw [])] (GriddefInput (name a o))). apply (g_points _ a o (Raw [])). cbn. now rewrite String.eqb_refl.
  Qed.
  (** A grid given in both ways, in none, or by half of its coordinates is refused. *)
  Theorem C87_refused ig ia io og oa oo out kw d :
    (forall p, arg_path out = Some p -> suffix p = ".npz" \/ suffix p = ".mat") ->
    ((forall d' i, ~ given d' ig ia io i) -> make ig ia io og oa oo out kw d = (Raise ValueError, d)) /\
    ((forall d' i, ~ given d' og oa oo i) -> forall r, fst (make ig ia io og oa oo out kw d) <> Ok r) /\
    ((forall d' i, ~ given d' og oa oo i) -> ia = None -> fst (make ig ia io og oa oo out kw d) = Raise ValueError).
  Proof.
    intros S. unfold mir_make_matrix.
    assert (B : match match arg_path out with Some p => Some (suffix p) | None => None end with Some e => negb (String.eqb e ".mat" || String.eqb e ".npz") | None => false end = false).
    { destruct (arg_path out) as [p|]; [|reflexivity]. destruct (S p eq_refl) as [-> | ->]; reflexivity. }
    rewrite B. split; [|split].
    - intros N. now rewrite (source_refused _ _ _ _ N).
    - intros N r. destruct (source ig ia io d) as [[inp|e|] d1]; [rewrite (source_refused _ _ _ _ N)|..]; discriminate.
    - intros N ->. destruct ig as [y|]; cbn [Mir.source]; [destruct io; [reflexivity|]; now rewrite (source_refused _ _ _ _ N)|reflexivity].
  Qed.

  (** Whenever a call for a path ending in .npz returns, MIR was run once from the grid given to the
      grid given, with that path plus ".mat" as its matrix file and the options of the caller, what it wrote there has been decoded and is under
      the path asked for, the intermediate file is gone, and no other file was touched
      since MIR ended. *)
  Theorem C87_npz_partial ig ia io og oa oo p kw d r d' :
    suffix p = ".npz" ->
    make ig ia io og oa oo (APath p) kw d = (Ok r, d') ->
    r = None /\
    exists inp to kv d2 d3 b m,
      given d2 ig ia io inp /\ given d2 og oa oo to /\ target to kv /\
      execute inp (kv :: ("interpolation-matrix", (p ++ ".mat")%string) :: kw) d2 = (Ok tt, d3) /\
      alookup (p ++ ".mat")%string d3 = Some (Raw b) /\
      mir_cached_matrix_to_array b = Ok m /\
      alookup p d' = Some (Npz m) /\
      alookup (p ++ ".mat")%string d' = None /\
      forall q, q <> p -> q <> (p ++ ".mat")%string -> alookup q d' = alookup q d3.
  Proof.
    intros S H. unfold mir_make_matrix in H. cbn [arg_path] in H. rewrite S in H.
    change (negb ((".npz" =? ".mat")%string || (".npz" =? ".npz")%string)) with false in H. cbv iota in H.
    destruct (source ig ia io d) as [[inp|e|] d1] eqn:S1; try discriminate H.
    destruct (source og oa oo d1) as [[out|e|] d2] eqn:S2; try discriminate H. apply source_given in S1, S2. destruct S1 as [S1 _], S2 as [S2 K].
    change (".npz" =? ".npz")%string with true in H. cbv iota zeta in H.
    destruct (execute inp _ d2) as [[[]|e|] d3] eqn:X; try discriminate H.
    destruct (negb (amem _ d3)) eqn:M; [discriminate H|].
    unfold mir_cached_matrix_to_file in H. rewrite S in H.
    change (negb (".npz" =? ".npz")%string) with false in H. cbv iota in H.
    destruct (alookup (p ++ ".mat") d3) as [[b|m]|] eqn:LB; try discriminate H.
    destruct (mir_cached_matrix_to_array b) as [m|e|] eqn:DB; try discriminate H.
    assert (NE : p <> (p ++ ".mat")%string).
    { intros E. apply (f_equal String.length) in E. revert E. clear. induction p as [|c p IH]; cbn; [discriminate|].
      intros E. injection E as E. now apply IH. }
    destruct (amem p _) eqn:MP; [|discriminate H]. injection H as <- <-. split; [reflexivity|].
    exists inp, out, (out_setting out), d2, d3, b, m.
    split; [exact (given_more d1 d2 _ _ _ _ K S1)|]. split; [exact S2|]. split; [apply target_setting|]. split; [exact X|]. split; [exact LB|]. split; [exact DB|].
    split; [rewrite alookup_aremove_neq by congruence; apply alookup_aset_eq|].
    split; [apply alookup_aremove_eq|].
    intros q Q1 Q2. rewrite alookup_aremove_neq by congruence. now apply alookup_aset_neq; congruence.
  Qed.

  (** For a file name ending in .mat, given as a string or a path. *)
  Theorem C87_mat_partial ig ia io og oa oo out p kw d r d' :
    out = AStr p \/ out = APath p -> suffix p = ".mat" ->
    make ig ia io og oa oo out kw d = (Ok r, d') ->
    r = None /\
    exists inp to kv d2,
      given d2 ig ia io inp /\ given d2 og oa oo to /\ target to kv /\
      execute inp (kv :: ("interpolation-matrix", p) :: kw) d2 = (Ok tt, d') /\
      amem p d' = true.
  Proof.
    intros O S H. unfold mir_make_matrix in H.
    assert (A : arg_path out = Some p) by (destruct O as [->| ->]; reflexivity).
    rewrite A, S in H.
    change (negb ((".mat" =? ".mat")%string || (".mat" =? ".npz")%string)) with false in H. cbv iota in H.
    destruct (source ig ia io d) as [[inp|e|] d1] eqn:S1; try discriminate H.
    destruct (source og oa oo d1) as [[o|e|] d2] eqn:S2; try discriminate H. apply source_given in S1, S2. destruct S1 as [S1 _], S2 as [S2 K].
    change (".mat" =? ".npz")%string with false in H. cbv iota zeta in H.
    destruct (execute inp _ d2) as [[[]|e|] d3] eqn:X; try discriminate H.
    destruct (negb (amem _ d3)) eqn:M; [discriminate H|]. injection H as <- <-. split; [reflexivity|].
    exists inp, o, (out_setting o), d2.
    split; [exact (given_more d1 d2 _ _ _ _ K S1)|]. split; [exact S2|]. split; [apply target_setting|]. split; [exact X|]. now apply negb_false_iff in M.
  Qed.

  (** It does return: from two specifications, when MIR writes a matrix. *)
  Theorem C87_returns_partial y z p kw d d3 h m rest :
    suffix p = ".npz" ->
    header_ok h -> matrix_ok (h_scalar h) m -> h_index h = 4%nat -> h_scalar h = 4%nat \/ h_scalar h = 8%nat ->
    execute (GridSpecInput y) (("grid", z) :: ("interpolation-matrix", (p ++ ".mat")%string) :: kw) d = (Ok tt, d3) ->
    alookup (p ++ ".mat")%string d3 = Some (Raw (matrix_file h m ++ rest)) ->
    exists d', make (Some y) None None (Some z) None None (APath p) kw d = (Ok None, d') /\
      alookup p d' = Some (Npz m) /\ alookup (p ++ ".mat")%string d' = None.
  Proof.
    intros S H M I SC X L. unfold mir_make_matrix. cbn [arg_path]. rewrite S.
    change (negb ((".npz" =? ".mat")%string || (".npz" =? ".npz")%string)) with false. cbv iota.
    cbn [Mir.source out_setting]. change (".npz" =? ".npz")%string with true. cbv iota zeta. rewrite X.
    assert (MM : amem (p ++ ".mat")%string d3 = true) by (unfold amem; now rewrite L).
    rewrite MM. cbn [negb]. unfold mir_cached_matrix_to_file. rewrite S, L.
    change (negb (".npz" =? ".npz")%string) with false. cbv iota. rewrite decode_file by assumption.
    assert (NE : p <> (p ++ ".mat")%string).
    { intros E. apply (f_equal String.length) in E. revert E. clear. induction p as [|c p IH]; cbn; [discriminate|].
      intros E. injection E as E. now apply IH. }
    assert (LP : alookup p (aremove (p ++ ".mat")%string (aset p (Npz m) d3)) = Some (Npz m)).
    { rewrite alookup_aremove_neq by congruence. apply alookup_aset_eq. }
    assert (MP : amem p (aremove (p ++ ".mat")%string (aset p (Npz m) d3)) = true).
    { unfold amem. now rewrite LP. }
    rewrite MP. eexists. split; [reflexivity|]. split; [exact LP|apply alookup_aremove_eq].
  Qed.

  (** Without [output] the call never gives the matrix: it raises after it has prepared
      the job (line 146), although line 169 would return one. *)
  Theorem C87_none_refuted ig ia io og oa oo kw d r d' :
    make ig ia io og oa oo ANone kw d <> (Ok r, d').
  Proof.
    intros H. unfold mir_make_matrix in H. cbn [arg_path] in H. cbv iota in H.
    destruct (source ig ia io d) as [[inp|e|] d1]; try discriminate H.
    destruct (source og oa oo d1) as [[o|e|] d2]; discriminate H.
  Qed.

  (** With a name ending in .npz given as a string the call never succeeds: MIR runs,
      then the conversion asks the string for its suffix; the intermediate file stays. *)
  Theorem C87_str_refuted ig ia io og oa oo p kw d :
    suffix p = ".npz" ->
    (forall r d', make ig ia io og oa oo (AStr p) kw d <> (Ok r, d')) /\
    (forall inp d1 out d2 d3,
       source ig ia io d = (Ok inp, d1) -> source og oa oo d1 = (Ok out, d2) ->
       execute inp (out_setting out :: ("interpolation-matrix", (p ++ ".mat")%string) :: kw) d2 = (Ok tt, d3) ->
       amem (p ++ ".mat")%string d3 = true ->
       make ig ia io og oa oo (AStr p) kw d = (Raise AttributeError, d3)).
  Proof.
    intros S. unfold mir_make_matrix. cbn [arg_path]. rewrite S.
    change (negb ((".npz" =? ".mat")%string || (".npz" =? ".npz")%string)) with false. cbv iota.
    change (".npz" =? ".npz")%string with true. cbv iota zeta. cbn [mir_cached_matrix_to_file]. split.
    - intros r d' H.
      destruct (source ig ia io d) as [[inp|e|] d1]; try discriminate H.
      destruct (source og oa oo d1) as [[o|e|] d2]; try discriminate H.
      destruct (execute inp _ d2) as [[[]|e|] d3] eqn:X; try discriminate H.
      destruct (negb (amem _ d3)) eqn:M; discriminate H.
    - intros inp d1 o d2 d3 -> -> -> ->. reflexivity.
  Qed.

  (** The same conversion is what the command line (mir.py:172-180) and builder.py:110 call,
      always with a string. *)
  Theorem C87_to_file_refuted path t d :
    mir_cached_matrix_to_file path (AStr t) d = (Raise AttributeError, d).
  Proof. reflexivity. Qed.
End Make.

(** What the suffix of a path is: the name (what follows the last slash) is a non-empty stem, a dot
    and a non-empty extension without dots; a path has no other non-empty suffix. *)
Definition char_in (c : ascii) (s : string) : Prop := In c (list_ascii_of_string s).
Definition a_suffix (p s : string) : Prop :=
  exists dir stem ext, p = (dir ++ stem ++ s)%string /\ s = ("." ++ ext)%string /\
    (dir = "" \/ exists d, dir = (d ++ "/")%string) /\ stem <> "" /\ ext <> "" /\
    ~ char_in "/"%char stem /\ ~ char_in "/"%char ext /\ ~ char_in "."%char ext.
Lemma slash_in s : existsb (Ascii.eqb "/"%char) (list_ascii_of_string s) = true <-> char_in "/"%char s.
Proof.
  unfold char_in. rewrite existsb_exists. split.
  - intros (c & I & E). apply Ascii.eqb_eq in E. subst c. exact I.
  - intros I. exists "/"%char. split; [exact I|reflexivity].
Qed.
Lemma char_in_app c a b : char_in c (a ++ b)%string <-> char_in c a \/ char_in c b.
Proof. unfold char_in. rewrite los_app, in_app_iff. reflexivity. Qed.
Lemma name_of_split p : exists dir, p = (dir ++ name_of p)%string /\ (dir = "" \/ exists d, dir = (d ++ "/")%string) /\ ~ char_in "/"%char (name_of p).
Proof.
  induction p as [|c r IH]; [exists ""; cbn; auto|]. cbn [name_of].
  destruct (existsb (Ascii.eqb "/"%char) (list_ascii_of_string (String c r))) eqn:E.
  - destruct IH as (dir & Er & D & N). exists (String c dir). split; [cbn; f_equal; exact Er|]. split; [|exact N]. right.
    destruct D as [->|(d & ->)]; [|exists (String c d); reflexivity]. exists "". cbn in Er. rewrite <- Er in N.
    apply slash_in in E. destruct E as [<-|E]; [reflexivity|contradiction].
  - exists "". split; [reflexivity|]. split; [left; reflexivity|]. rewrite <- slash_in, E. discriminate.
Qed.
Lemma name_of_plain s : ~ char_in "/"%char s -> name_of s = s.
Proof. destruct s as [|c r]; [reflexivity|]. intros N. cbn [name_of]. destruct (existsb _ _) eqn:E; [apply slash_in in E; contradiction|reflexivity]. Qed.
Lemma name_of_dir d s : ~ char_in "/"%char s -> name_of (d ++ "/" ++ s)%string = s.
Proof.
  intros N. induction d as [|c d IH].
  - cbn. apply name_of_plain. exact N.
  - change ((String c d ++ "/" ++ s)%string) with (String c (d ++ "/" ++ s)). cbn [name_of].
    destruct (existsb (Ascii.eqb "/"%char) (list_ascii_of_string (String c (d ++ "/" ++ s)))) eqn:E; [exact IH|].
    exfalso. assert (I : char_in "/"%char (String c (d ++ "/" ++ s))). { right. apply char_in_app. right. left. reflexivity. }
    apply slash_in in I. rewrite I in E. discriminate.
Qed.
Lemma last_dot_none s : last_dot s = None <-> ~ char_in "."%char s.
Proof.
  induction s as [|c r IH]; cbn [last_dot]; [split; [intros _ []|reflexivity]|].
  destruct (last_dot r) as [x|] eqn:E; [split; [discriminate|]|].
  - intros N. exfalso. assert (Some x = None) by (apply IH; intros I; apply N; right; exact I). discriminate.
  - destruct (Ascii.eqb_spec c "."%char) as [->|N]; split; try discriminate; intros H.
    + exfalso. apply H. left. reflexivity.
    + intros [I|I]; [congruence|]. revert I. apply IH. reflexivity.
    + reflexivity.
Qed.
Lemma last_dot_some s x : last_dot s = Some x <-> exists a b, s = (a ++ "." ++ b)%string /\ x = ("." ++ b)%string /\ ~ char_in "."%char b.
Proof.
  induction s as [|c r IH]; cbn [last_dot].
  - split; [discriminate|]. intros ([|? ?] & b & E & _); discriminate E.
  - destruct (last_dot r) as [y|] eqn:E.
    + rewrite IH. split; intros (a & b & Er & Ex & N).
      * exists (String c a), b. cbn. rewrite Er. auto.
      * destruct a as [|c' a]; cbn in Er; injection Er as -> Er; [|exists a, b; auto].
        exfalso. apply N. rewrite <- Er. destruct (In_dec Ascii.ascii_dec "."%char (list_ascii_of_string r)) as [I|I]; [exact I|].
        apply last_dot_none in I. congruence.
    + assert (NR := proj1 (last_dot_none r) E). destruct (Ascii.eqb_spec c "."%char) as [->|N]; split.
      * intros H. injection H as <-. exists "", r. auto.
      * intros (a & b & Er & -> & Nb). destruct a as [|c' a]; cbn in Er; [injection Er as ->; reflexivity|]. injection Er as E1 E2.
        exfalso. apply NR. rewrite E2. apply char_in_app. right. left. reflexivity.
      * discriminate.
      * intros (a & b & Er & -> & Nb). destruct a as [|c' a]; cbn in Er; injection Er as E1 E2; [congruence|].
        exfalso. apply NR. rewrite E2. apply char_in_app. right. left. reflexivity.
Qed.
Theorem C87_suffix p s : s <> "" -> suffix p = s <-> a_suffix p s.
Proof.
  intros NE. split.
  - intros H. destruct (name_of_split p) as (dir & Ep & D & NS). unfold suffix in H. destruct (name_of p) as [|c r] eqn:N; [congruence|].
    destruct (last_dot r) as [x|] eqn:L; [|congruence]. destruct (String.eqb_spec x ".") as [|NX]; [congruence|]. subst x.
    apply last_dot_some in L. destruct L as (a & b & -> & -> & Nb). exists dir, (String c a), b.
    split; [exact Ep|]. split; [reflexivity|]. split; [exact D|]. split; [discriminate|]. split; [intros ->; apply NX; reflexivity|].
    assert (NS' : ~ char_in "/"%char (String c a) /\ ~ char_in "/"%char b).
    { split; intros I; apply NS; [change (char_in "/"%char (String c a ++ "." ++ b)%string); apply char_in_app; left; exact I|].
      change (char_in "/"%char (String c a ++ "." ++ b)%string). apply char_in_app. right. right. exact I. }
    destruct NS'. auto.
  - intros (dir & stem & ext & -> & -> & D & ST & EX & S1 & S2 & Nd).
    assert (NN : ~ char_in "/"%char (stem ++ "." ++ ext)%string).
    { intros I. apply char_in_app in I. destruct I as [I|[I|I]]; [contradiction|discriminate|contradiction]. }
    assert (N : name_of (dir ++ stem ++ "." ++ ext)%string = (stem ++ "." ++ ext)%string).
    { destruct D as [->|(d & ->)]; [apply name_of_plain; exact NN|]. rewrite sapp_assoc. apply name_of_dir. exact NN. }
    unfold suffix. rewrite N. destruct stem as [|c stem]; [congruence|]. cbn [append].
    assert (L : last_dot (stem ++ String "." ext)%string = Some (String "." ext)). { apply last_dot_some. exists stem, ext. auto. }
    rewrite L. destruct (String.eqb_spec (String "." ext) ".") as [E|_]; [|reflexivity]. injection E as E. congruence.
Qed.
Example C87_suffix_met : a_suffix "/out.d/m.1.npz" ".npz".
Proof.
  exists "/out.d/", "m.1", "npz". repeat split; try discriminate.
  - right. exists "/out.d". reflexivity.
  - intros I. cbn in I. intuition discriminate.
  - intros I. cbn in I. intuition discriminate.
  - intros I. cbn in I. intuition discriminate.
Qed.

(** a MIR that writes a matrix where it is told to *)
Definition ex_execute (i : minput) (st : list (string * string)) (d : fs) : result unit * fs :=
  match alookup "interpolation-matrix" st with
  | Some p => (Ok tt, aset p (Raw (matrix_file (mkHeader 1 1 4 4 8) (mkCsrz 1 1 [0; 1] [0] [1065353216]))) d)
  | None => (Raise RuntimeError, d)
  end.
Example C87_hyp_met :
  suffix "/out/m.npz" = ".npz" /\ suffix "m.mat" = ".mat" /\ suffix "/a.b/m" = "" /\ suffix ".npz" = "" /\
  mir_make_matrix ex_repr (fun _ _ => "") (fun s => s) "/c" ex_execute
    (Some "{grid: [1, 1]}") None None (Some "{grid: O32}") None None (APath "/out/m.npz") [] []
  = (Ok None, [("/out/m.npz", Npz (mkCsrz 1 1 [0; 1] [0] [1065353216]))]).
Proof. vm_compute. repeat split. Qed.

Print Assumptions C58_refused.
Print Assumptions C58_where.
Print Assumptions C58_complete_partial.
Print Assumptions C58_text_partial.
Print Assumptions C58_killed_refuted.
Print Assumptions C58_array_refuted.
Print Assumptions C58_files_differ.
Print Assumptions C87_refused.
Print Assumptions C87_npz_partial.
Print Assumptions C87_mat_partial.
Print Assumptions C87_returns_partial.
Print Assumptions C87_none_refuted.
Print Assumptions C87_str_refuted.
Print Assumptions C87_to_file_refuted.
Print Assumptions C87_suffix.
