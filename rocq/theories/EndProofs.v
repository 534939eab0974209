(** Proofs behind the statements about whole calls: dictionaries read as grids, indexes, files. *)
From Coq Require Import Reals Psatz.
From Verif Require Import PyBase ListLemmas PyStr Float64 GridSpec GridVocab GridProofs GridProofs2 FloatReal GridLon GridMatchSpec GridReal GridMatch GridMatch2 GridMatch3 GridDecide
  Index IndexSpec Inventory MemCache Regrid RegridSpec System SystemSpec EndSpec.
Set Default Proof Using "Type".
Local Open Scope string_scope.
Local Open Scope list_scope.
Local Open Scope Z_scope.

(** ** Dictionaries *)
Lemma number_hashable v x : number v x -> hashable v = true.
Proof. intros (a & E & _). destruct v; try discriminate; reflexivity. Qed.
Lemma number_finite v x : number v x -> finite_num v.
Proof. intros (a & E & G & _). destruct v; try discriminate; try exact I. cbn in E. injection E as <-. exact G. Qed.
Lemma number_eq v u x y : number v x -> number u y -> py_eq v u = true <-> x = y.
Proof.
  intros (a & E1 & G1 & R1 & _) (b & E2 & G2 & R2 & _). subst x y. rewrite <- (neqb_real a b G1 G2).
  destruct v, u; try discriminate E1; try discriminate E2; cbn in E1, E2; injection E1 as <-; injection E2 as <-; reflexivity.
Qed.
Lemma four_numbers v n w s e : four v n w s e -> numbers_ok v.
Proof.
  intros (vn & vw & vs & ve & -> & N1 & N2 & N3 & N4). exists [vn; vw; vs; ve]. split; [reflexivity|].
  repeat constructor; eapply number_finite; eassumption.
Qed.
Lemma number_int z : Z.abs z <= 1000 -> number (VInt z) (IZR z).
Proof.
  intros H. exists (NI z). split; [reflexivity|]. split; [cbn [good]; lia|]. split; [reflexivity|]. rewrite <- abs_IZR. apply IZR_le.
  apply Z.le_trans with 1000; [exact H|]. vm_compute. discriminate.
Qed.
Lemma whole_four n w s e : globe n w s e -> four whole_globe n w s e.
Proof.
  intros (-> & -> & -> & ->). exists (VInt 90), (VInt 0), (VInt (-90)), (VInt 360). split; [reflexivity|].
  split; [|split; [|split]]; apply number_int; vm_compute; discriminate.
Qed.
(** The documented areas, whichever way the increments are written. *)
Lemma GLOBAL_keys : map fst GLOBAL_AREAS = map degrees increments. Proof. vm_compute. reflexivity. Qed.
Lemma degrees_number k : In k increments -> exists x, number (degrees k) x.
Proof.
  intros I.
  assert (F : forallb (fun k => match degrees k with VInt z => Z.abs z <=? 1000 | VFloat f => is_float64 f && finite f && SFleb (fabs f) (of_Z 1000) | _ => false end) increments = true) by (vm_compute; reflexivity).
  rewrite forallb_forall in F. specialize (F k I). destruct (degrees k); try discriminate F.
  - apply Z.leb_le in F. eexists. apply number_int, F.
  - apply andb_prop in F. destruct F as [F F3]. apply andb_prop in F. destruct F as [F1 F2].
    exists (F2Rv f). exists (NF f). split; [reflexivity|]. split; [split; assumption|]. split; [reflexivity|].
    destruct (of_Z_exact 1000) as [A B]; [lia|]. apply SFleb_real in F3; [|split; [apply valid_fabs, F1|rewrite fabs_finite; exact F2]|split; [apply valid_of_Z|exact A]].
    rewrite fabs_real, B in F3. eapply Rle_trans; [exact F3|]. apply IZR_le. vm_compute. discriminate.
Qed.
Lemma find_ext_in {T} (f g : T -> bool) l : (forall x, In x l -> f x = g x) -> List.find f l = List.find g l.
Proof. induction l as [|x l IH]; intros H; [reflexivity|]. cbn. rewrite (H x (or_introl eq_refl)), IH; [reflexivity|]. intros y Y. apply H. right. exact Y. Qed.
Lemma table_keys v : In v (map fst GLOBAL_AREAS) -> exists k, In k increments /\ v = degrees k.
Proof. rewrite GLOBAL_keys. intros I. apply in_map_iff in I. destruct I as (k & <- & I). exists k. auto. Qed.
Lemma table_same x y u dx dy : number x dx -> number y dy -> number u dx -> number u dy -> table_area x y = table_area u u.
Proof.
  intros N1 N2 N3 N4. unfold table_area.
  rewrite (find_ext_in (fun p => py_eq x (fst p) && py_eq y (fst p)) (fun p => py_eq u (fst p) && py_eq u (fst p)) GLOBAL_AREAS); [reflexivity|].
  intros p I. destruct (table_keys (fst p)) as (k & K & E); [apply in_map, I|]. rewrite E. destruct (degrees_number k K) as (r & NR).
  pose proof (number_eq x (degrees k) dx r N1 NR) as Q1. pose proof (number_eq y (degrees k) dy r N2 NR) as Q2. pose proof (number_eq u (degrees k) dx r N3 NR) as Q3.
  assert (Q4 : py_eq u (degrees k) = true <-> dy = r) by (apply number_eq; assumption).
  destruct (py_eq x (degrees k)), (py_eq y (degrees k)), (py_eq u (degrees k)); intuition congruence.
Qed.
Lemma number_same v u x : number v x -> py_eq u v = true -> (match u with VInt z => Z.abs z <= 1000 | VFloat f => is_float64 f = true /\ finite f = true | _ => False end) -> number u x.
Proof.
  intros (a & E & G & R & B) Q W. nums. destruct u; try contradiction.
  - assert (H : neqb (NI z) a = true) by (destruct v; try discriminate E; cbn in E; injection E as <-; exact Q).
    assert (GZ : good (NI z)) by (cbn [good]; lia). rewrite (neqb_real (NI z) a GZ G), R in H. cbn [N2R] in H. exists (NI z). split; [reflexivity|]. split; [exact GZ|]. cbn [N2R]. rewrite H. auto.
  - assert (H : neqb (NF f) a = true) by (destruct v; try discriminate E; cbn in E; injection E as <-; exact Q).
    assert (GF : good (NF f)) by (destruct W; split; assumption).
    rewrite (neqb_real (NF f) a GF G), R in H. cbn [N2R] in H. exists (NF f). split; [reflexivity|]. split; [exact GF|]. cbn [N2R]. rewrite H. auto.
Qed.
Lemma table_aligned k n w s e : In k increments -> four (aligned_area k) n w s e -> four (table_area (degrees k) (degrees k)) n w s e.
Proof.
  intros I (vn & vw & vs & ve & E & N1 & N2 & N3 & N4).
  set (fine := fun u : val => match u with VInt z => Z.abs z <=? 1000 | VFloat f => is_float64 f && finite f | _ => false end).
  assert (F : forallb (fun k => match table_area (degrees k) (degrees k), aligned_area k with
     | VList [a; b; c; d], VList [a'; b'; c'; d'] => (py_eq a a' && fine a) && (py_eq b b' && fine b) && (py_eq c c' && fine c) && (py_eq d d' && fine d) | _, _ => false end) increments = true) by (vm_compute; reflexivity).
  rewrite forallb_forall in F. specialize (F k I). rewrite E in F.
  destruct (table_area (degrees k) (degrees k)) as [| | | | |[|a [|b [|c [|d [|? ?]]]]]|]; try discriminate F.
  assert (M : forall u v x, number v x -> py_eq u v && fine u = true -> number u x).
  { intros u v x NV H. apply andb_prop in H. destruct H as [H1 H2]. apply (number_same v u x NV H1). unfold fine in H2. destruct u; try discriminate H2; [apply Z.leb_le, H2|]. apply andb_prop in H2. exact H2. }
  apply andb_prop in F. destruct F as [F F4]. apply andb_prop in F. destruct F as [F F3]. apply andb_prop in F. destruct F as [F1 F2].
  exists a, b, c, d. split; [reflexivity|]. split; [exact (M _ _ _ N1 F1)|]. split; [exact (M _ _ _ N2 F2)|]. split; [exact (M _ _ _ N3 F3)|exact (M _ _ _ N4 F4)].
Qed.
Lemma table_none x y dx dy : number x dx -> number y dy -> (forall k r, In k increments -> number (degrees k) r -> r <> dx \/ r <> dy) -> table_area x y = whole_globe.
Proof.
  intros N1 N2 H. unfold table_area. destruct (List.find _ GLOBAL_AREAS) as [[v a]|] eqn:F; [|reflexivity]. exfalso.
  apply find_some in F. destruct F as [I F]. cbn [fst] in F. destruct (table_keys v) as (k & K & ->); [apply in_map_iff; exists (v, a); auto|].
  destruct (degrees_number k K) as (r & NR). apply andb_prop in F. destruct F as [F1 F2].
  apply (number_eq _ _ _ _ N1 NR) in F1. apply (number_eq _ _ _ _ N2 NR) in F2. destruct (H k r K NR); congruence.
Qed.

Lemma given_raw d k : given d k = None -> alookup k d = None.
Proof. unfold given. destruct (alookup k d); [discriminate|reflexivity]. Qed.
Lemma area_given d v n w s e : given d "area" = Some v -> four v n w s e -> forall a, alookup "area" d = Some a -> numbers_ok a.
Proof.
  intros G F a E. unfold given in G. rewrite E in G. cbn in G. injection G as <-. destruct (four_numbers _ _ _ _ _ F) as (l & EL & FL).
  exists l. split; [|exact FL]. destruct a; exact EL.
Qed.
Lemma kind_built d c : NoDup (akeys d) -> said_to_be d c -> (exists v, given d "grid" = Some v) ->
  (c = LL -> exists x y, given d "grid" = Some (VList [x; y]) /\ hashable x = true /\ hashable y = true) ->
  (c = LL \/ c = RGG -> forall a, alookup "area" d = Some a -> numbers_ok a) ->
  exists g, from_dict d = Ok g /\ cls g = c.
Proof.
  intros ND SB (v0 & GV) HH HA. assert (exists v, alookup "grid" d = Some v) as (v & E).
  { unfold given in GV. destruct (alookup "grid" d); [eauto|discriminate]. }
  assert (HH' : c = LL -> exists x y, (v = VList [x; y] \/ v = VTup [x; y]) /\ hashable x = true /\ hashable y = true).
  { intros C. destruct (HH C) as (x & y & G & H1 & H2). unfold given in G. rewrite E in G. cbn in G. exists x, y. split; [|auto].
    destruct v; cbn in G; inversion G; subst; auto. }
  destruct SB as [T|(U & v' & E' & D)].
  - apply (typed_built d v c); assumption.
  - rewrite E in E'. injection E' as <-. apply (inferred_built d v c ND); try assumption.
    rewrite infer_untyped by assumption. rewrite E, (find_class v c (or_introl D)). reflexivity.
Qed.

Lemma reading d a : reads_as d a -> exists g, from_dict d = Ok g /\ describes_grid g a.
Proof.
  intros (ND & GE & SH & SC).
  assert (FIN : forall c, (exists g, from_dict d = Ok g /\ cls g = c) ->
     (forall g, from_dict d = Ok g -> cls g = c -> describes_geometry g (geometry a)) -> exists g, from_dict d = Ok g /\ describes_grid g a).
  { intros c (g & E & C) H. exists g. split; [exact E|]. constructor.
    - exact (H g E C).
    - intros k K. specialize (SC k K). unfold its_scanning in SC. unfold flag. rewrite (contents_ok d g k ND E). unfold contents.
      assert (NT : String.eqb k "type" = false) by (cbn in K; destruct K as [<-|[<-|[<-|[]]]]; reflexivity).
      assert (EF : existsb (String.eqb k) flags = true) by (cbn in K; destruct K as [<-|[<-|[<-|[]]]]; reflexivity).
      rewrite NT, EF. destruct (given d k) as [v|]; cbn [or_else]; [exists v; auto|]. rewrite SC. exists (VInt 0). auto.
    - unfold its_shape in SH. assert (Q : alookup "shape" (gd g) = given d "shape").
      { rewrite (contents_ok d g "shape" ND E). unfold contents. destruct (cls g); reflexivity. }
      rewrite Q, SH. destruct (sizes a); reflexivity. }
  destruct (geometry a) as [[] name o|dx dy n w s e dec|name dx n w s e dec] eqn:GA; cbn [its_geometry] in GE.
  - destruct GE as (SB & G & ->). apply (FIN ORCA).
    + apply kind_built; eauto; [discriminate|intros [?|?]; discriminate].
    + intros g E C. split; [|split; [exact C|reflexivity]]. rewrite (contents_ok d g "grid" ND E), C. exact G.
  - destruct GE as (SB & OR & IO & c & ds & G & EN & Q). apply (FIN HP).
    + apply kind_built; eauto; [discriminate|intros [?|?]; discriminate].
    + intros g E C. split; [rewrite (contents_ok d g "grid" ND E), C; exact G|]. split; [exact C|]. split; [|split; [exact IO|]].
      * unfold order_name. rewrite (contents_ok d g "order" ND E), C. unfold contents. cbn [String.eqb Ascii.eqb Bool.eqb existsb flags orb].
        unfold its_ordering in OR. destruct (given d "ordering"); [exact OR|]. destruct (given d "order"); exact OR.
      * exists c, ds. split; [exact EN|]. exact Q.
  - destruct GE as (SB & (x & y & G & NX & NY) & B1 & B2 & AR & DE). apply (FIN LL).
    + apply kind_built; eauto.
      * intros _. exists x, y. split; [exact G|]. split; eapply number_hashable; eassumption.
      * intros _ aa EA. destruct AR as [v GAr F|v GAr|k GAr|GAr]; [exact (area_given d v n w s e GAr F aa EA)|..];
          apply given_raw in GAr; congruence.
    + intros g E C.
      assert (TO : table_of d = table_area x y) by (unfold table_of; rewrite G; reflexivity).
      assert (LA : exists v, alookup "area" (gd g) = Some v /\ four v n w s e).
      { rewrite (contents_ok d g "area" ND E), C. unfold contents. cbn [String.eqb Ascii.eqb Bool.eqb existsb flags orb]. rewrite TO.
        destruct AR as [v GAr F|v GAr GG F|k GAr GG IK D1 D2 F|GAr GG NN F]; rewrite GAr; cbn [or_else]; rewrite ?GG.
        - eauto.
        - eexists. split; [reflexivity|]. apply whole_four, F.
        - eexists. split; [reflexivity|]. rewrite (table_same x y (degrees k) dx dy NX NY D1 D2). apply table_aligned; assumption.
        - eexists. split; [reflexivity|]. rewrite (table_none x y dx dy NX NY NN). apply whole_four, F. }
      split; [exact C|]. split; [exists x, y; split; [rewrite (contents_ok d g "grid" ND E), C; exact G|auto]|]. split; [exact B1|]. split; [exact B2|]. split.
      * destruct LA as (v & LA & vn & vw & vs & ve & -> & R). exists vn, vw, vs, ve. auto.
      * rewrite DE. unfold declared. rewrite (contents_ok d g "global" ND E), C. unfold contents. cbn [String.eqb Ascii.eqb Bool.eqb existsb flags orb].
        destruct (given d "global") as [v|].
        -- split; [intros [H|[H _]]; [exact H|discriminate]|left; assumption].
        -- destruct (given d "area"); (split; [intros [(v9 & H & _)|[_ H]]; try discriminate|intros (v9 & H & HC); try discriminate; auto]).
           exists (VInt 1). split; [reflexivity|]. constructor. discriminate.
  - destruct GE as (SB & (c & ds & G & EN & P1 & P2 & P3 & P4 & P5) & AR & DE). apply (FIN RGG).
    + apply kind_built; eauto; [discriminate|]. intros _ aa EA. destruct (given d "area") as [v|] eqn:GAr; [exact (area_given d v n w s e GAr AR aa EA)|].
      apply given_raw in GAr. congruence.
    + intros g E C. assert (EG : alookup "grid" (gd g) = Some (VStr name)) by (rewrite (contents_ok d g "grid" ND E), C; exact G).
      split; [exact C|]. split; [exact EG|]. split; [|split].
      * unfold increment. rewrite C, EG, EN. exists c, ds. auto 8.
      * assert (LA : exists v, alookup "area" (gd g) = Some v /\ four v n w s e).
        { rewrite (contents_ok d g "area" ND E), C. unfold contents. cbn [String.eqb Ascii.eqb Bool.eqb existsb flags orb].
          destruct (given d "area") as [v|]; cbn [or_else]; [eauto|]. eexists. split; [reflexivity|]. apply whole_four, AR. }
        destruct LA as (v & LA & vn & vw & vs & ve & -> & R). exists vn, vw, vs, ve. auto.
      * rewrite DE. unfold declared. rewrite (contents_ok d g "global" ND E), C. reflexivity.
Qed.

Lemma reading_of d a g : reads_as d a -> from_dict d = Ok g -> describes_grid g a.
Proof. intros R E. destruct (reading d a R) as (g' & E' & D). congruence. Qed.

(** ** Paths *)
Lemma sapp_assoc a b c : ((a ++ b) ++ c)%string = (a ++ b ++ c)%string.
Proof. induction a as [|x a IH]; [reflexivity|]. cbn. rewrite IH. reflexivity. Qed.
Lemma plain_start_slash s : plain_start s -> starts_with_slash s = false.
Proof. destruct s as [|c s]; cbn; [intros []|]. intros H. destruct (Ascii.eqb_spec c "/"); [contradiction|reflexivity]. Qed.
Lemma plain_end_slash s t : plain_end s -> ends_with_slash (t ++ s)%string = false /\ (t ++ s)%string <> "".
Proof.
  intros (u & c & -> & N). split.
  - unfold ends_with_slash. rewrite !chars_app, !rev_app_distr. cbn. destruct (Ascii.eqb_spec c "/"); [contradiction|reflexivity].
  - intros E. apply (f_equal chars) in E. rewrite !chars_app in E. cbn in E. destruct (chars t); [|discriminate]. destruct (chars u); discriminate.
Qed.
Lemma join_plain a t b : plain_end a -> starts_with_slash b = false -> join_path (t ++ a) b = (t ++ a ++ "/" ++ b)%string.
Proof.
  intros P S. unfold join_path. rewrite S. destruct (plain_end_slash a t P) as [E N]. rewrite E.
  destruct (String.eqb_spec (t ++ a) ""); [contradiction|]. cbn [orb]. rewrite !sapp_assoc. reflexivity.
Qed.
Lemma alias_known m m' : known_as m m' <-> m' = method_alias m.
Proof.
  unfold known_as, method_alias. cbn [existsb]. destruct (String.eqb_spec m "nn") as [->|N1]; cbn [orb]; [intuition congruence|].
  destruct (String.eqb_spec m "nearest-neighbor") as [->|N2]; cbn [orb]; intuition congruence.
Qed.

Section Files.
  Context {A rest : Type}.
  Variables (py_str : val -> string) (key_order : list string) (fuel : nat).
  Variable files : fs rest (csr A).
  Notation lists := (@lists rest fuel).
  Notation is_inventory := (@is_inventory A rest fuel files).

  Lemma listed_method n r a b m p : lists n r a b m p -> interpolation_method_name r = Ok m.
  Proof. intros [_ _ (en & ve & how & E & M & _)]. unfold interpolation_method_name. rewrite E. cbn. destruct M as [->| ->]; reflexivity. Qed.
  Lemma listed_path n r a b m p e path : lists n r a b m p -> plain_end path -> e_raw e = r -> e_name e = n ->
    matrix_path e = Ok p /\ join_path path p = (path ++ "/" ++ p)%string.
  Proof.
    intros L PP ER EN. pose proof (listed_method _ _ _ _ _ _ L) as M. destruct L as [_ _ (en & ve & how & E & HM & -> & S1 & S2 & S3)].
    unfold matrix_path, matrix_dir_name. rewrite ER, EN, E. cbn [i_engine i_version]. rewrite M. cbn [bind].
    assert (SN : starts_with_slash (n ++ ".npz") = false) by (apply plain_start_slash; destruct n; [contradiction|exact S3]).
    assert (SE : starts_with_slash (en ++ "_" ++ ve ++ "_" ++ m ++ "/" ++ n ++ ".npz") = false) by (apply plain_start_slash; destruct en; [contradiction|exact S1]).
    split.
    - f_equal. replace (en ++ "_" ++ ve ++ "_" ++ m)%string with ((en ++ "_" ++ ve ++ "_") ++ m)%string by (rewrite !sapp_assoc; reflexivity).
      rewrite (join_plain m _ _ S2 SN). rewrite !sapp_assoc. reflexivity.
    - exact (join_plain path "" _ PP SE).
  Qed.

  (** The index of an inventory: its entries in order. *)
  Definition loaded (q : string * raw rest) (x : string * entry rest) : Prop := fst x = fst q /\ reads (fst q) (snd q) (snd x).
  Lemma load_all l : (forall n r, In (n, r) l -> exists a b m p, lists n r a b m p) -> forall idx, NoDup (akeys idx ++ map fst l) ->
    exists i, fold_left load_item l idx = idx ++ i /\ Forall2 loaded l i.
  Proof.
    induction l as [|[n r] l IH]; intros H idx N; cbn [fold_left map fst] in *; [exists []; rewrite app_nil_r; auto|].
    destruct (H n r (or_introl eq_refl)) as (a & b & m & p & [(di & do & R1 & R2 & RA & RB) _ _]).
    destruct (reading di a RA) as (gi & E1 & _), (reading do b RB) as (go & E2 & _).
    set (e := mkEntry gi go n r). assert (LE : load_item idx (n, r) = idx ++ [(n, e)]).
    { unfold load_item, load_entry. cbn [fst snd]. rewrite R1, R2, E1. cbn [bind]. rewrite E2. cbn [bind]. fold e.
      assert (NI : ~ In n (akeys idx)) by (intros I; apply NoDup_remove_2 in N; apply N, in_or_app; left; exact I).
      clear -NI. induction idx as [|[k v] idx IH]; [reflexivity|]. cbn in NI |- *. destruct (String.eqb_spec n k) as [->|D]; [destruct NI; auto|]. rewrite IH by tauto. reflexivity. }
    rewrite LE. destruct (IH (fun n' r' I => H n' r' (or_intror I)) (idx ++ [(n, e)])) as (i & E & F).
    { assert (AK : akeys (idx ++ [(n, e)]) = akeys idx ++ [n]) by (clear; induction idx as [|[k v] idx IH]; [reflexivity|]; cbn; rewrite IH; reflexivity). rewrite AK, <- app_assoc. exact N. }
    exists ((n, e) :: i). split; [rewrite E, <- app_assoc; reflexivity|]. constructor; [|exact F]. split; [reflexivity|].
    split; [reflexivity|]. split; [reflexivity|]. exists di, do. auto.
  Qed.
  Lemma indexed path l : is_inventory path l -> exists i, local_index path files = Ok i /\ Forall2 loaded l i.
  Proof.
    intros [F P N E]. destruct (load_all l E [] N) as (i & EI & LD). exists i. split; [|exact LD].
    unfold local_index, read_index. replace (join_path path "index.json") with (path ++ "/index.json")%string; [rewrite F; cbn; rewrite EI; reflexivity|].
    symmetry. exact (join_plain path "" "index.json" P eq_refl).
  Qed.

  Hypotheses (K1 : incl COMPARE_KEYS key_order) (K2 : incl key_order COMPARE_KEYS).
  (** What becomes of an entry. *)
  Lemma entry_decided_of n r a b m' p e di do gi go a0 b0 m : lists n r a b m' p -> reads n r e -> from_dict di = Ok gi -> from_dict do = Ok go ->
    NoDup (akeys di) -> NoDup (akeys do) -> describes_grid gi a0 -> describes_grid go b0 -> bounded fuel a0 -> bounded fuel b0 ->
    (answers py_str key_order fuel e gi go (method_alias m) /\ known_as m m' /\ near_grid a a0 /\ near_grid b b0) \/
    (does_not_answer py_str key_order fuel e gi go (method_alias m) /\ ~ (known_as m m' /\ same_grid a a0 /\ same_grid b b0)).
  Proof using K1 K2.
    intros L (EN & ER & i & o & R1 & F1 & R2 & F2) G1 G2 NA NB DA DB BA BB. pose proof (listed_method _ _ _ _ _ _ L) as M. rewrite <- ER in M.
    destruct L as [(i' & o' & R1' & R2' & RI & RO) [BI BO] _]. rewrite R1 in R1'. rewrite R2 in R2'. injection R1' as <-. injection R2' as <-.
    destruct (decide py_str key_order fuel i di (e_input e) gi a a0) as (b1 & E1 & T1 & U1); eauto using reading_of; try apply RI.
    destruct (decide py_str key_order fuel o do (e_output e) go b b0) as (b2 & E2 & T2 & U2); eauto using reading_of; try apply RO.
    unfold answers, does_not_answer, compares. rewrite M.
    destruct (string_dec m' (method_alias m)) as [EM|NM].
    2:{ right. split; [exists m'; auto|]. intros [KM _]. apply alias_known in KM. contradiction. }
    destruct b1.
    2:{ right. split; [exists m'; split; [reflexivity|]; auto|]. intros (_ & S & _). specialize (T1 S). discriminate. }
    destruct b2.
    2:{ right. split; [exists m'; split; [reflexivity|]; auto|]. intros (_ & _ & S). specialize (T2 S). discriminate. }
    left. split; [rewrite EM; auto|]. split; [apply alias_known, EM|]. auto.
  Qed.
  Lemma entry_decided n r a b m' p e di do gi go a0 b0 m : lists n r a b m' p -> reads n r e -> from_dict di = Ok gi -> from_dict do = Ok go ->
    reads_as di a0 -> reads_as do b0 -> bounded fuel a0 -> bounded fuel b0 ->
    (answers py_str key_order fuel e gi go (method_alias m) /\ known_as m m' /\ near_grid a a0 /\ near_grid b b0) \/
    (does_not_answer py_str key_order fuel e gi go (method_alias m) /\ ~ (known_as m m' /\ same_grid a a0 /\ same_grid b b0)).
  Proof using K1 K2.
    intros L RD G1 G2 RA RB BA BB. apply (entry_decided_of n r a b m' p e di do gi go a0 b0 m); eauto using reading_of; [apply RA|apply RB].
  Qed.
End Files.
