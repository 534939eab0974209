(** Proofs about the matrix builder: built grids match their natural specifications. *)
From Coq Require Import Reals Psatz.
From Verif Require Import PyBase ListLemmas PyStr Float64 GridSpec GridVocab GridProofs GridProofs2 FloatReal GridLon GridMatchSpec GridReal GridMatch GridMatch2 Builder BuilderSpec.
Set Default Proof Using "Type".
Local Open Scope string_scope.
Local Open Scope list_scope.
Local Open Scope Z_scope.
Local Open Scope R_scope.

Lemma number_finite v x : number v x -> finite_num v.
Proof.
  intros (a & E & G & _ & _). destruct v; cbn in E; try discriminate; cbn; auto. inversion E; subst. exact G.
Qed.
Lemma number_int z : (Z.abs z <= 2 ^ 52)%Z -> number (VInt z) (IZR z).
Proof.
  intros Hz. exists (NI z). split; [reflexivity|]. split; [cbn; lia|]. split; [reflexivity|].
  rewrite <- abs_IZR. apply IZR_le. exact Hz.
Qed.
Lemma finite_hashable v : finite_num v -> hashable v = true.
Proof. destruct v; cbn; try contradiction; reflexivity. Qed.
Lemma finite_no_nan v : finite_num v -> no_nan v.
Proof. destruct v; cbn; try contradiction; auto. intros [A B]. split; [exact A|]. intros ->. discriminate. Qed.
Lemma enough_12 fuel x : (12 <= fuel)%nat -> Rabs x <= 3600 -> enough fuel x.
Proof.
  intros F H. unfold enough. assert (12 <= IZR (Z.of_nat fuel)) by (apply IZR_le; lia). lra.
Qed.

(** ** The rows of the octahedral grid *)
Lemma rows_start n : (2 <= n)%nat -> exists r, octahedral_rows n = 20%Z :: 24%Z :: r.
Proof. intros H. destruct n as [|[|n]]; try lia. eexists. reflexivity. Qed.
Lemma sum_app l m : fold_right Z.add 0%Z (l ++ m) = (fold_right Z.add 0 l + fold_right Z.add 0 m)%Z.
Proof. induction l as [|x l IH]; cbn; [reflexivity|]. rewrite IH. ring. Qed.
Lemma sum_rev l : fold_right Z.add 0%Z (rev l) = fold_right Z.add 0%Z l.
Proof. induction l as [|x l IH]; cbn; [reflexivity|]. rewrite sum_app, IH. cbn. ring. Qed.
Lemma half_sum n : fold_right Z.add 0%Z (half_rows n) = (2 * Z.of_nat n * (Z.of_nat n + 9))%Z.
Proof.
  induction n as [|n IH]; [reflexivity|]. unfold half_rows in *. rewrite seq_S, map_app, sum_app, IH. cbn [map fold_right plus]. lia.
Qed.
Lemma rows_sum n : fold_right Z.add 0%Z (octahedral_rows n) = (4 * Z.of_nat n * (Z.of_nat n + 9))%Z.
Proof. unfold octahedral_rows. rewrite sum_app, sum_rev, half_sum. ring. Qed.

Lemma named_ok pl k s : named pl k s -> exists c c', gaussian pl k = Ok (String c (show_Z k)) /\ s = String c' (show_Z k) /\
  (c = "O" /\ In c' ["O"; "o"] \/ c = "N" /\ In c' ["N"; "n"])%char.
Proof.
  intros (R & c & -> & [(I & -> & H)|(I & a & b & r & -> & H)]).
  - destruct (rows_start (Z.to_nat k)) as (r & ->); [lia|]. exists "O"%char, c. split; [reflexivity|]. auto.
  - exists "N"%char, c. cbn [gaussian]. destruct (Z.eqb_spec (b - a) 4); [contradiction|]. auto.
Qed.

Ltac dup := cbn; repeat (constructor; [cbn; intuition discriminate|]); constructor.
Ltac bare := let k := fresh in let I := fresh in intros k I; cbn in I; intuition (subst k; reflexivity).

Definition ll (we sn nj ni n w s e : val) gl : dict := add_global (mkGrid KOther gl) [("grid", VList [we; sn]); ("shape", VList [nj; ni]); ("area", VList [n; w; s; e])].
Definition gg (name : string) (sh : Z) (n w s e : val) gl : dict := add_global (mkGrid KOther gl) [("grid", VStr name); ("shape", VList [VInt sh]); ("area", VList [n; w; s; e])].

Lemma ll_built we sn nj ni n w s e gl : coordinate we -> coordinate sn -> Forall finite_num [n; w; s; e] ->
  exists g, from_dict (ll we sn nj ni n w s e gl) = Ok g /\ cls g = LL.
Proof.
  intros [A B] [C D] F. apply (untyped_built _ (VList [we; sn])).
  - destruct gl; dup.
  - left. destruct gl; reflexivity.
  - destruct gl; reflexivity.
  - left. constructor.
  - intros x y [E|E]; inversion E; subst. split; apply finite_hashable; assumption.
  - intros a E. exists [n; w; s; e]. split; [|exact F]. destruct gl; cbn in E; inversion E; reflexivity.
Qed.
Lemma gaussian_gram c k : (1 <= k <= 1000000)%Z -> In c ["O"; "o"; "N"; "n"]%char -> gaussian_name (String c (show_Z k)).
Proof.
  intros R I. unfold show_Z. destruct (Z.ltb_spec k 0); [lia|]. destruct (show_nonneg_ok k ltac:(lia)) as (F & N & _).
  destruct (show_nonneg k) as [|d ds]; [contradiction|]. inversion F; subst. exists c, d, (of_chars ds). auto.
Qed.
Lemma gg_built c k sh n w s e gl : (1 <= k <= 1000000)%Z -> In c ["O"; "o"; "N"; "n"]%char -> Forall finite_num [n; w; s; e] ->
  exists g, from_dict (gg (String c (show_Z k)) sh n w s e gl) = Ok g /\ cls g = RGG.
Proof.
  intros R I F. apply (untyped_built _ (VStr (String c (show_Z k)))).
  - destruct gl; dup.
  - left. destruct gl; reflexivity.
  - destruct gl; reflexivity.
  - left. constructor. apply gaussian_gram; assumption.
  - intros x y [E|E]; discriminate.
  - intros a E. exists [n; w; s; e]. split; [|exact F]. destruct gl; cbn in E; inversion E; reflexivity.
Qed.

(** ** The areas of the table *)
Definition small (v : val) : bool :=
  match v with
  | VInt z => (Z.abs z <=? 360)%Z
  | VFloat f => is_float64 f && finite f && SFleb (fabs f) FULL_GLOBE
  | _ => false
  end.
Lemma small_number v : small v = true -> exists x, number v x /\ Rabs x <= 360.
Proof.
  destruct v as [|b|z|f|s|l|l]; cbn [small]; try discriminate.
  - intros H. apply Z.leb_le in H. exists (IZR z). split; [apply number_int; lia|]. rewrite <- abs_IZR. apply IZR_le. exact H.
  - intros H. apply andb_prop in H. destruct H as [H C]. apply andb_prop in H. destruct H as [A B]. destruct FULL_real as [GF RF].
    apply SFleb_real in C; [|split; [apply valid_fabs, A|rewrite fabs_finite; exact B]|exact GF]. rewrite fabs_real, RF in C.
    exists (F2Rv f). split; [|exact C]. exists (NF f). split; [reflexivity|]. split; [split; assumption|]. split; [reflexivity|].
    apply Rle_trans with 360; [exact C|apply IZR_le; lia].
Qed.
Lemma table_area_ok x y : exists n s e rn rs re, table_area x y = VList [n; VInt 0; s; e] /\ number n rn /\ number s rs /\ number e re /\ Rabs re <= 360.
Proof.
  assert (X : exists n s e, table_area x y = VList [n; VInt 0; s; e] /\ small n && small s && small e = true).
  { unfold table_area. destruct (find _ GLOBAL_AREAS) as [[k a]|] eqn:E; [|repeat eexists].
    apply find_some in E. destruct E as [E _].
    assert (F : forallb (fun p => match snd p with VList [n; VInt 0; s; e] => small n && small s && small e | _ => false end) GLOBAL_AREAS = true)
      by (vm_compute; reflexivity).
    rewrite forallb_forall in F. specialize (F _ E). cbn [snd] in F.
    destruct a as [| | | | |[|n [|[| |[]| | | |] [|s [|e [|]]]]]|]; try discriminate. eauto. }
  destruct X as (n & s & e & E & S). apply andb_prop in S. destruct S as [S S3]. apply andb_prop in S. destruct S as [S1 S2].
  destruct (small_number n S1) as (rn & N1 & _), (small_number s S2) as (rs & N2 & _), (small_number e S3) as (re & N3 & B).
  exists n, s, e, rn, rs, re. auto.
Qed.
Lemma documented_table x y a : documented x y a -> table_area x y = a.
Proof.
  intros [(k & I & -> & -> & ->)|(H & ->)].
  - assert (Q : map (fun k => table_area (degrees k) (degrees k)) increments = map aligned_area increments) by (vm_compute; reflexivity).
    revert Q I. generalize increments. induction l as [|j l IH]; intros Q I; [destruct I|]. cbn in Q. inversion Q. destruct I as [->|I]; auto.
  - unfold table_area. destruct (find _ GLOBAL_AREAS) as [[k a]|] eqn:F; [|reflexivity]. exfalso.
    apply find_some in F. destruct F as [I E]. apply andb_prop in E. destruct E as [E1 E2]. cbn [fst] in E1, E2.
    assert (K : exists j, In j increments /\ k = degrees j).
    { apply (in_map fst) in I. cbn [fst] in I. assert (Q : map fst GLOBAL_AREAS = map degrees increments) by (vm_compute; reflexivity).
      rewrite Q in I. apply in_map_iff in I. destruct I as (j & <- & I). eauto. }
    destruct K as (j & J & ->). destruct (H j J); congruence.
Qed.
Lemma number_inj v x y : number v x -> number v y -> x = y.
Proof. intros (a & A & _ & B & _) (b & C & _ & D & _). congruence. Qed.

Section Match.
  Variables (py_str : val -> string) (key_order : list string) (fuel : nat).
  Hypothesis HK : incl key_order COMPARE_KEYS.

  (** The keys compared agree, and one of the two has no shape. *)
  Lemma base_ok g h v1 v2 : cls g = cls h ->
    alookup "type" (gd g) = Some (VStr (type_name (cls g))) -> alookup "type" (gd h) = Some (VStr (type_name (cls h))) ->
    alookup "grid" (gd g) = Some v1 -> alookup "grid" (gd h) = Some v2 -> compare_key py_str "grid" v1 v2 = Ok true ->
    (forall k, In k flags -> alookup k (gd g) = Some (VInt 0) /\ alookup k (gd h) = Some (VInt 0)) ->
    alookup "shape" (gd h) = None -> eq_base py_str key_order g h = Ok true.
  Proof using HK.
    intros HC T1 T2 G1 G2 HG HF HS. unfold eq_base, get_type. rewrite T1, T2, <- HC. cbn [py_eq]. rewrite String.eqb_refl. cbn [negb].
    assert (C : compare_keys py_str key_order (gd g) (gd h) = Ok true).
    { assert (X : forall k, In k COMPARE_KEYS -> exists v w, dget k (gd g) = Ok v /\ dget k (gd h) = Ok w /\ compare_key py_str k v w = Ok true).
      { intros k I. unfold dget. cbn in I. destruct I as [<-|[<-|I]].
        - rewrite T1, T2, <- HC. eexists. eexists. split; [reflexivity|]. split; [reflexivity|]. cbn. rewrite String.eqb_refl. reflexivity.
        - rewrite G1, G2. eauto.
        - destruct (HF k I) as [-> ->]. eexists. eexists. split; [reflexivity|]. split; reflexivity. }
      clear -HK X. induction key_order as [|k r IH]; [reflexivity|]. cbn [compare_keys].
      destruct (X k (HK k (or_introl eq_refl))) as (v & w & -> & -> & E). cbn [bind]. rewrite E. cbn [bind].
      apply IH. intros y Y. apply HK. right. exact Y. }
    rewrite C. cbn [bind]. rewrite HS. destruct (alookup "shape" (gd g)); reflexivity.
  Qed.

  (** What the two specifications hold. *)
  Definition bare (d : dict) : Prop := forall k, In k ("type" :: flags) -> alookup k d = None.
  Lemma holds d g k : NoDup (akeys d) -> from_dict d = Ok g -> alookup k (gd g) = contents (table_of d) (cls g) d k.
  Proof. apply contents_ok. Qed.
  Lemma holds_type d g : NoDup (akeys d) -> from_dict d = Ok g -> alookup "type" (gd g) = Some (VStr (type_name (cls g))).
  Proof. intros N F. rewrite (holds d g _ N F). reflexivity. Qed.
  Lemma holds_flags d g k : NoDup (akeys d) -> from_dict d = Ok g -> bare d -> In k flags -> alookup k (gd g) = Some (VInt 0).
  Proof.
    intros N F B I. rewrite (holds d g _ N F). assert (E : given d k = None) by (unfold given; rewrite B by (right; exact I); reflexivity).
    cbn in I. destruct I as [<-|[<-|[<-|[]]]]; unfold contents; cbn [String.eqb Ascii.eqb Bool.eqb existsb flags orb]; rewrite E; reflexivity.
  Qed.
  Lemma holds_grid d g : NoDup (akeys d) -> from_dict d = Ok g -> alookup "grid" (gd g) = given d "grid".
  Proof. intros N F. rewrite (holds d g _ N F). destruct (cls g); reflexivity. Qed.
  Lemma holds_shape d g : NoDup (akeys d) -> from_dict d = Ok g -> alookup "shape" (gd g) = given d "shape".
  Proof. intros N F. rewrite (holds d g _ N F). destruct (cls g); reflexivity. Qed.
  Lemma holds_area d g a : NoDup (akeys d) -> from_dict d = Ok g -> cls g = LL \/ cls g = RGG -> given d "area" = Some a -> alookup "area" (gd g) = Some a.
  Proof. intros N F C E. rewrite (holds d g _ N F). destruct C as [-> | ->]; cbn; rewrite E; reflexivity. Qed.
  Lemma holds_global d g a : NoDup (akeys d) -> from_dict d = Ok g -> cls g = LL \/ cls g = RGG -> given d "area" = Some a ->
    alookup "global" (gd g) = given d "global".
  Proof. intros N F C E. rewrite (holds d g _ N F). destruct C as [-> | ->]; cbn; rewrite ?E; [|reflexivity]. destruct (given d "global"); reflexivity. Qed.

  Lemma base_of d e g h v1 v2 : NoDup (akeys d) -> NoDup (akeys e) -> from_dict d = Ok g -> from_dict e = Ok h -> bare d -> bare e ->
    cls g = cls h -> given d "grid" = Some v1 -> given e "grid" = Some v2 -> compare_key py_str "grid" v1 v2 = Ok true ->
    given e "shape" = None -> eq_base py_str key_order g h = Ok true.
  Proof using HK.
    intros N1 N2 F1 F2 B1 B2 C G1 G2 HG S. apply (base_ok g h v1 v2); auto.
    - apply (holds_type d g N1 F1).
    - apply (holds_type e h N2 F2).
    - rewrite (holds_grid d g N1 F1). exact G1.
    - rewrite (holds_grid e h N2 F2). exact G2.
    - intros k I. split; [exact (holds_flags d g k N1 F1 B1 I)|exact (holds_flags e h k N2 F2 B2 I)].
    - rewrite (holds_shape e h N2 F2). exact S.
  Qed.

  Lemma list_grid we sn : coordinate we -> coordinate sn -> compare_key py_str "grid" (VList [we; sn]) (VList [we; sn]) = Ok true.
  Proof.
    intros [A B] [C D]. apply compare_key_refl.
    - cbn. split; [apply finite_no_nan, A|]. split; [apply finite_no_nan, C|exact I].
    - intros _ l E. inversion E; subst. repeat constructor; assumption.
  Qed.
  Lemma name_grid c c' k : (c = "O" /\ In c' ["O"; "o"] \/ c = "N" /\ In c' ["N"; "n"])%char ->
    compare_key py_str "grid" (VStr (String c (show_Z k))) (VStr (String c' (show_Z k))) = Ok true.
  Proof.
    intros H. cbn [compare_key String.eqb Ascii.eqb Bool.eqb]. f_equal. apply String.eqb_eq. unfold lower. cbn [chars list_ascii_of_string map].
    f_equal. cbn in H. intuition (subst; reflexivity).
  Qed.
  Lemma rgg_increment d g c k : from_dict d = Ok g -> NoDup (akeys d) -> cls g = RGG -> given d "grid" = Some (VStr (String c (show_Z k))) ->
    (1 <= k <= 1000000)%Z -> In c ["O"; "o"; "N"; "n"]%char -> increment g (gaussian_step (String c (show_Z k)) k).
  Proof.
    intros F N C E R I. unfold increment. rewrite C. rewrite (holds_grid d g N F), E.
    destruct (show_nonneg_ok k ltac:(lia)) as (A & B & D). exists c, (show_nonneg k). unfold show_Z. destruct (Z.ltb_spec k 0); [lia|].
    split; [reflexivity|]. split; [exact I|]. split; [exact B|]. split; [exact A|]. rewrite D. split; [exact R|]. reflexivity.
  Qed.

  Definition matches (g : mgrid) (d : dict) : Prop := exists dg a b, convert g = Ok dg /\ from_dict dg = Ok a /\ from_dict d = Ok b /\
    snd (eq py_str key_order fuel a b) = Ok true.

  Lemma match_ll_area we sn nj ni n w s e gl : coordinate we -> coordinate sn -> Forall finite_num [n; w; s; e] ->
    matches (mkGrid (KLL we sn nj ni n w s e) gl) [("grid", VList [we; sn]); ("area", VList [n; w; s; e])].
  Proof using HK.
    intros W S F.
    exists (ll we sn nj ni n w s e gl). destruct (ll_built we sn nj ni n w s e gl W S F) as (a & Fa & Ca).
    set (d := [("grid", VList [we; sn]); ("area", VList [n; w; s; e])]).
    assert (ND2 : NoDup (akeys d)) by dup.
    destruct (untyped_built d (VList [we; sn]) LL) as (b & Fb & Cb); [exact ND2|left; reflexivity|reflexivity|left; constructor| | |].
    { intros x y [E|E]; inversion E; subst. split; apply finite_hashable; [apply W|apply S]. }
    { intros v E. cbn in E. inversion E. eexists. split; [reflexivity|exact F]. }
    exists a, b. split; [reflexivity|]. split; [exact Fa|]. split; [exact Fb|].
    assert (ND : NoDup (akeys (ll we sn nj ni n w s e gl))) by (destruct gl; dup).
    unfold eq. rewrite (base_of (ll we sn nj ni n w s e gl) d a b (VList [we; sn]) (VList [we; sn]) ND ND2 Fa Fb);
      try reflexivity; try congruence; [|destruct gl; bare|bare|destruct gl; reflexivity|apply list_grid; assumption].
    rewrite Ca. unfold dget.
    rewrite (holds_area _ a (VList [n; w; s; e]) ND Fa (or_introl Ca)) by (destruct gl; reflexivity).
    rewrite (holds_area _ b (VList [n; w; s; e]) ND2 Fb (or_introl Cb)) by reflexivity.
    cbn [bind]. destruct DEG_real as [GD BD]. rewrite same_area_self; [reflexivity|exact F|exact GD|lra].
  Qed.

  Lemma spanning_declared k gl d g w e x ar : NoDup (akeys d) -> from_dict d = Ok g -> cls g = LL \/ cls g = RGG -> given d "area" = Some ar ->
    (forall v, gl = Some v -> given d "global" = Some (untuple v)) ->
    spanning (mkGrid k gl) w e x -> declared g \/ full_extent 0.000000009 w e x.
  Proof.
    intros N F C A G [(v & E & T)|H]; [left|right; exact H]. exists (untuple v). split.
    - rewrite (holds_global d g ar N F C A). apply G. exact E.
    - destruct T; cbn; constructor; assumption.
  Qed.

  Lemma match_ll_global we sn nj ni n w s e gl x rn rw rs re n' w' s' e' rn' rs' : (12 <= fuel)%nat ->
    coordinate we -> coordinate sn -> number we x -> Rabs x <= 360 ->
    number n rn -> longitude w rw -> number s rs -> longitude e re ->
    spanning (mkGrid (KLL we sn nj ni n w s e) gl) rw re (Rabs x) -> congruent rw 0 ->
    documented we sn (VList [n'; w'; s'; e']) -> number n' rn' -> number s' rs' ->
    Rabs (rn - rn') <= 0.000000009 -> Rabs (rs - rs') <= 0.000000009 ->
    matches (mkGrid (KLL we sn nj ni n w s e) gl) [("grid", VList [we; sn])].
  Proof using HK.
    intros HF W S Nx Bx Nn Nw Ns Ne Sp Cg Doc Nn' Ns' Hn Hs.
    assert (F : Forall finite_num [n; w; s; e]).
    { repeat constructor; [exact (number_finite _ _ Nn)|exact (number_finite _ _ (proj1 Nw))|exact (number_finite _ _ Ns)|exact (number_finite _ _ (proj1 Ne))]. }
    exists (ll we sn nj ni n w s e gl). destruct (ll_built we sn nj ni n w s e gl W S F) as (a & Fa & Ca).
    set (d := [("grid", VList [we; sn])]). assert (ND2 : NoDup (akeys d)) by dup.
    destruct (untyped_built d (VList [we; sn]) LL) as (b & Fb & Cb); [exact ND2|left; reflexivity|reflexivity|left; constructor| | |].
    { intros y z [E|E]; inversion E; subst. split; apply finite_hashable; [apply W|apply S]. }
    { intros v E. discriminate. }
    exists a, b. split; [reflexivity|]. split; [exact Fa|]. split; [exact Fb|].
    assert (ND : NoDup (akeys (ll we sn nj ni n w s e gl))) by (destruct gl; dup).
    destruct (table_area_ok we sn) as (tn & ts & te & xn & xs & xe & TA & T1 & T2 & T3 & T4).
    pose proof (documented_table _ _ _ Doc) as DT. rewrite TA in DT. inversion DT; subst n' w' s' e'. clear DT.
    rewrite (number_inj _ _ _ Nn' T1) in Hn. rewrite (number_inj _ _ _ Ns' T2) in Hs.
    assert (AB : alookup "area" (gd b) = Some (VList [tn; VInt 0; ts; te])).
    { rewrite (holds d b _ ND2 Fb), Cb. cbn. unfold table_of. cbn. rewrite TA. reflexivity. }
    assert (AA : alookup "area" (gd a) = Some (VList [n; w; s; e])) by (apply (holds_area _ a _ ND Fa (or_introl Ca)); destruct gl; reflexivity).
    assert (IA : increment a (Rabs x)).
    { unfold increment. rewrite Ca. exists we, [sn], x. split; [|auto]. rewrite (holds_grid _ a ND Fa). destruct gl; reflexivity. }
    assert (IB : increment b (Rabs x)).
    { unfold increment. rewrite Cb. exists we, [sn], x. split; [|auto]. rewrite (holds_grid _ b ND2 Fb). reflexivity. }
    apply (global_LL py_str key_order fuel (ll we sn nj ni n w s e gl) d a b rn rw rs re (Rabs x) xn 0 xs xe (Rabs x)); try assumption.
    - apply (base_of (ll we sn nj ni n w s e gl) d a b (VList [we; sn]) (VList [we; sn]) ND ND2 Fa Fb);
        try reflexivity; try congruence; [destruct gl; bare|bare|destruct gl; reflexivity|apply list_grid; assumption].
    - exists n, w, s, e. split; [exact AA|]. split; [exact Nn|]. split; [apply Nw|]. split; [exact Ns|apply Ne].
    - exists tn, (VInt 0), ts, te. split; [exact AB|]. split; [exact T1|]. split; [apply (number_int 0); lia|]. split; [exact T2|exact T3].
    - apply enough_12; [exact HF|apply Nw].
    - apply enough_12; [exact HF|apply Ne].
    - apply enough_12; [exact HF|rewrite Rabs_R0; lra].
    - apply enough_12; [exact HF|lra].
    - apply (spanning_declared _ gl _ a _ _ _ (VList [n; w; s; e]) ND Fa (or_introl Ca)) in Sp; [exact Sp|destruct gl; reflexivity|].
      intros v ->. reflexivity.
    - left. exists (VInt 1). split; [|constructor; lia]. rewrite (holds d b _ ND2 Fb), Cb. reflexivity.
  Qed.

  Lemma named_range pl k s : named pl k s -> (1 <= k <= 1000000)%Z. Proof. intros [R _]. exact R. Qed.
  Lemma letters c c' : (c = "O" /\ In c' ["O"; "o"] \/ c = "N" /\ In c' ["N"; "n"])%char ->
    (In c ["O"; "o"; "N"; "n"] /\ In c' ["O"; "o"; "N"; "n"])%char /\ octahedral c = octahedral c'.
  Proof. cbn. intuition (subst; auto). Qed.

  Lemma match_gg_area pl k name n w s e gl : named pl k name -> Forall finite_num [n; w; s; e] ->
    matches (mkGrid (KRGG pl k n w s e) gl) [("grid", VStr name); ("area", VList [n; w; s; e])].
  Proof using HK.
    intros Nm F. pose proof (named_range _ _ _ Nm) as R. destruct (named_ok _ _ _ Nm) as (c & c' & G & -> & L). pose proof (letters _ _ L) as [[I1 I2] _].
    set (sh := fold_right Z.add 0%Z pl). exists (gg (String c (show_Z k)) sh n w s e gl).
    destruct (gg_built c k sh n w s e gl R I1 F) as (a & Fa & Ca).
    set (d := [("grid", VStr (String c' (show_Z k))); ("area", VList [n; w; s; e])]). assert (ND2 : NoDup (akeys d)) by dup.
    destruct (untyped_built d (VStr (String c' (show_Z k))) RGG) as (b & Fb & Cb);
      [exact ND2|left; reflexivity|reflexivity|left; constructor; apply gaussian_gram; assumption| | |].
    { intros x y [E|E]; discriminate. }
    { intros v E. cbn in E. inversion E. eexists. split; [reflexivity|exact F]. }
    exists a, b. split; [unfold convert; cbn [g_kind]; rewrite G; reflexivity|]. split; [exact Fa|]. split; [exact Fb|].
    assert (ND : NoDup (akeys (gg (String c (show_Z k)) sh n w s e gl))) by (destruct gl; dup).
    unfold eq. rewrite (base_of (gg (String c (show_Z k)) sh n w s e gl) d a b (VStr (String c (show_Z k))) (VStr (String c' (show_Z k))) ND ND2 Fa Fb);
      try reflexivity; try congruence; [|destruct gl; bare|bare|destruct gl; reflexivity|apply name_grid; assumption].
    rewrite Ca. unfold dget.
    rewrite (holds_area _ a (VList [n; w; s; e]) ND Fa (or_intror Ca)) by (destruct gl; reflexivity).
    rewrite (holds_area _ b (VList [n; w; s; e]) ND2 Fb (or_intror Cb)) by reflexivity.
    cbn [bind]. destruct RGGEPS_real as [GD BD]. rewrite same_area_self; [reflexivity|exact F|exact GD|lra].
  Qed.

  Lemma match_gg_global pl k name n w s e gl rn rw rs re : (12 <= fuel)%nat ->
    named pl k name -> number n rn -> longitude w rw -> number s rs -> longitude e re ->
    spanning (mkGrid (KRGG pl k n w s e) gl) rw re (gaussian_step name k) -> congruent rw 0 ->
    matches (mkGrid (KRGG pl k n w s e) gl) [("grid", VStr name)].
  Proof using HK.
    intros HF Nm Nn Nw Ns Ne Sp Cg.
    assert (F : Forall finite_num [n; w; s; e]).
    { repeat constructor; [exact (number_finite _ _ Nn)|exact (number_finite _ _ (proj1 Nw))|exact (number_finite _ _ Ns)|exact (number_finite _ _ (proj1 Ne))]. }
    pose proof (named_range _ _ _ Nm) as R. destruct (named_ok _ _ _ Nm) as (c & c' & G & -> & L). pose proof (letters _ _ L) as [[I1 I2] OC].
    set (sh := fold_right Z.add 0%Z pl). exists (gg (String c (show_Z k)) sh n w s e gl).
    destruct (gg_built c k sh n w s e gl R I1 F) as (a & Fa & Ca).
    set (d := [("grid", VStr (String c' (show_Z k)))]). assert (ND2 : NoDup (akeys d)) by dup.
    destruct (untyped_built d (VStr (String c' (show_Z k))) RGG) as (b & Fb & Cb);
      [exact ND2|left; reflexivity|reflexivity|left; constructor; apply gaussian_gram; assumption| | |].
    { intros x y [E|E]; discriminate. }
    { intros v E. discriminate. }
    exists a, b. split; [unfold convert; cbn [g_kind]; rewrite G; reflexivity|]. split; [exact Fa|]. split; [exact Fb|].
    assert (ND : NoDup (akeys (gg (String c (show_Z k)) sh n w s e gl))) by (destruct gl; dup).
    assert (AA : alookup "area" (gd a) = Some (VList [n; w; s; e])) by (apply (holds_area _ a _ ND Fa (or_intror Ca)); destruct gl; reflexivity).
    assert (AB : alookup "area" (gd b) = Some whole_globe) by (rewrite (holds d b _ ND2 Fb), Cb; reflexivity).
    assert (GS : gaussian_step (String c (show_Z k)) k = gaussian_step (String c' (show_Z k)) k) by (unfold gaussian_step; rewrite OC; reflexivity).
    apply (global_RGG py_str key_order fuel (gg (String c (show_Z k)) sh n w s e gl) d a b rn rw rs re (gaussian_step (String c' (show_Z k)) k)
             90 0 (-90) 360 (gaussian_step (String c' (show_Z k)) k)); try assumption.
    - apply (base_of (gg (String c (show_Z k)) sh n w s e gl) d a b (VStr (String c (show_Z k))) (VStr (String c' (show_Z k))) ND ND2 Fa Fb);
        try reflexivity; try congruence; [destruct gl; bare|bare|destruct gl; reflexivity|apply name_grid; assumption].
    - exists n, w, s, e. split; [exact AA|]. split; [exact Nn|]. split; [apply Nw|]. split; [exact Ns|apply Ne].
    - exists (VInt 90), (VInt 0), (VInt (-90)), (VInt 360). split; [exact AB|]. repeat split; apply (number_int); lia.
    - rewrite <- GS. apply (rgg_increment (gg (String c (show_Z k)) sh n w s e gl) a c k Fa ND Ca); try assumption. destruct gl; reflexivity.
    - apply (rgg_increment d b c' k Fb ND2 Cb); try assumption. reflexivity.
    - apply enough_12; [exact HF|apply Nw].
    - apply enough_12; [exact HF|apply Ne].
    - apply enough_12; [exact HF|rewrite Rabs_R0; lra].
    - apply enough_12; [exact HF|rewrite Rabs_pos_eq by lra; lra].
    - apply (spanning_declared _ gl _ a _ _ _ (VList [n; w; s; e]) ND Fa (or_intror Ca)) in Sp; [exact Sp|destruct gl; reflexivity|].
      intros v ->. reflexivity.
    - right. exists 1%Z. left. replace (360 - 0 - 360 * 1) with 0 by ring. rewrite Rabs_R0. lra.
  Qed.

  Lemma order_ok g grid o : healpix_grid grid -> alookup "grid" (gd g) = Some grid -> In o ["ring"; "nested"] ->
    alookup "order" (gd g) = Some (VStr o) \/ (alookup "order" (gd g) = None /\ o = "ring") -> order g = Ok (VStr o).
  Proof.
    intros (c & ds & -> & Ic & Nd & Fd & Rd) Eg Io Eo. unfold order, dget. rewrite Eg. cbn [bind].
    assert (M : HEALPIX_match (String c (of_chars ds)) = true).
    { apply HEALPIX_match_spec. destruct ds as [|d0 ds]; [contradiction|]. exists c, d0, (of_chars ds). inversion Fd; subst. auto. }
    rewrite M. change (tl (chars (String c (of_chars ds)))) with (chars (of_chars ds)). rewrite chars_of_chars, py_int_digits by assumption.
    replace ((digits_val ds <? 1)%Z) with false by (symmetry; apply Z.ltb_ge; lia).
    replace ((1000000 <? digits_val ds)%Z) with false by (symmetry; apply Z.ltb_ge; lia). cbn [orb].
    destruct Eo as [-> | [-> ->]]; [|reflexivity]. destruct Io as [<-|[<-|[]]]; reflexivity.
  Qed.
  Lemma hp_describes grid : healpix_grid grid -> describes grid HP.
  Proof.
    intros (c & ds & -> & Ic & Nd & Fd & Rd). constructor. destruct ds as [|d0 ds]; [contradiction|]. exists c, d0, (of_chars ds). inversion Fd; subst. auto.
  Qed.
  Lemma hp_built grid d : healpix_grid grid -> NoDup (akeys d) -> alookup "type" d = None -> alookup "area" d = None -> alookup "grid" d = Some grid ->
    exists g, from_dict d = Ok g /\ cls g = HP.
  Proof.
    intros H N T A E. apply (untyped_built d grid); auto.
    - left. exact T.
    - left. apply hp_describes, H.
    - destruct H as (c & ds & -> & _). intros x y [X|X]; discriminate.
    - intros a X. congruence.
  Qed.
  Lemma match_hp grid o gl d : healpix_grid grid -> In o ["ring"; "nested"] -> NoDup (akeys d) -> bare d -> alookup "area" d = None ->
    alookup "grid" d = Some grid -> given d "shape" = None ->
    contents (table_of d) HP d "order" = Some (VStr o) \/ (contents (table_of d) HP d "order" = None /\ o = "ring") ->
    matches (mkGrid (KHP grid (VStr o)) gl) d.
  Proof using HK.
    intros Hg Ho ND2 B A E Sh Or. set (dg := [("grid", grid); ("order", VStr o)]). assert (ND : NoDup (akeys dg)) by dup.
    destruct (hp_built grid dg Hg ND eq_refl eq_refl eq_refl) as (a & Fa & Ca).
    destruct (hp_built grid d Hg ND2 (B "type" ltac:(left; reflexivity)) A E) as (b & Fb & Cb).
    exists dg, a, b. split; [reflexivity|]. split; [exact Fa|]. split; [exact Fb|].
    assert (UT : untuple grid = grid) by (destruct Hg as (c & ds & -> & _); reflexivity).
    assert (G1 : given dg "grid" = Some grid) by (cbn; rewrite UT; reflexivity).
    assert (G2 : given d "grid" = Some grid) by (unfold given; rewrite E; cbn; rewrite UT; reflexivity).
    unfold eq. rewrite (base_of dg d a b grid grid ND ND2 Fa Fb); try assumption; try reflexivity; try congruence; [|bare|].
    - rewrite Ca. rewrite (order_ok a grid o); [|exact Hg|rewrite (holds_grid dg a ND Fa); exact G1|exact Ho|left; rewrite (holds dg a _ ND Fa), Ca; reflexivity].
      rewrite (order_ok b grid o); [|exact Hg|rewrite (holds_grid d b ND2 Fb); exact G2|exact Ho|rewrite (holds d b _ ND2 Fb), Cb; exact Or].
      cbn. rewrite String.eqb_refl. reflexivity.
    - destruct Hg as (c & ds & -> & _). cbn [compare_key]. rewrite !String.eqb_refl. reflexivity.
  Qed.
  Lemma match_orca t s gl : orca_name (t ++ "_" ++ s)%string -> matches (mkGrid (KORCA t s) gl) [("grid", VStr (t ++ "_" ++ s))].
  Proof using HK.
    intros H. set (d := [("grid", VStr (t ++ "_" ++ s))]). assert (ND : NoDup (akeys d)) by dup.
    destruct (untyped_built d (VStr (t ++ "_" ++ s)) ORCA) as (a & Fa & Ca); [exact ND|left; reflexivity|reflexivity|left; constructor; exact H| | |].
    { intros x y [E|E]; discriminate. } { intros v E. discriminate. }
    exists d, a, a. split; [reflexivity|]. split; [exact Fa|]. split; [exact Fa|].
    unfold eq. rewrite (base_of d d a a (VStr (t ++ "_" ++ s)) (VStr (t ++ "_" ++ s)) ND ND Fa Fa); try reflexivity; [|bare|bare|].
    - rewrite Ca. reflexivity.
    - cbn [compare_key]. rewrite !String.eqb_refl. reflexivity.
  Qed.

  Lemma matched g d : (12 <= fuel)%nat -> natural g d -> matches g d.
  Proof using HK.
    intros HF H. destruct H.
    - apply match_ll_area; assumption.
    - eapply match_ll_global; eassumption.
    - apply match_gg_area; assumption.
    - eapply match_gg_global; eassumption.
    - cbn in H1. destruct H1 as [<-|[<-|[]]]; (apply match_hp; [assumption|assumption|dup|bare|reflexivity|reflexivity|reflexivity|left; reflexivity]).
    - apply match_hp; [assumption|left; reflexivity|dup|bare|reflexivity|reflexivity|reflexivity|right; split; reflexivity].
    - apply match_orca. assumption.
  Qed.
End Match.
