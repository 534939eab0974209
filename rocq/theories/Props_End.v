(** C118: from the files of an inventory and the dictionaries of the caller to the numbers of the
    result. *)
From Coq Require Import Reals Psatz.
From Verif Require Import PyBase MemCacheProofs MemCacheProofs2 ListLemmas PyStr Float64 GridSpec GridVocab FloatReal GridMatchSpec GridReal GridMatch3 GridDecide
  Index IndexSpec Db MemCache Inventory Regrid RegridSpec Key KeySpec System SystemSpec SystemProofs EndSpec EndProofs Props_System.
Set Default Proof Using "Type".
Local Open Scope string_scope.
Local Open Scope list_scope.
Local Open Scope Z_scope.

(** ** Comparing two grids *)
(** The comparison of two grids that can be read always has a verdict; it is yes if they are certainly the
    same, and yes only if they may be the same. *)
Theorem C118_compared py_str key_order d1 d2 a b :
  incl COMPARE_KEYS key_order -> incl key_order COMPARE_KEYS -> reads_as d1 a -> reads_as d2 b ->
  exists g h N, from_dict d1 = Ok g /\ from_dict d2 = Ok h /\
  forall fuel, (N <= fuel)%nat ->
  exists r, snd (eq py_str key_order fuel g h) = Ok r /\ (same_grid a b -> r = true) /\ (r = true -> near_grid a b).
Proof.
  intros K1 K2 R1 R2. destruct (reading d1 a R1) as (g & E1 & D1), (reading d2 b R2) as (h & E2 & D2).
  assert (BD : forall a, exists N, forall fuel, (N <= fuel)%nat -> bounded fuel a).
  { clear. intros a. assert (X : forall x, exists N, forall fuel, (N <= fuel)%nat -> enough fuel x).
    { intros x. destruct (archimed (Rabs x + 720)) as [A _]. pose proof (Rabs_pos x) as P. exists (Z.to_nat (up (Rabs x + 720))). intros fuel L. unfold enough.
      assert (IZR (up (Rabs x + 720)) <= IZR (Z.of_nat fuel))%R by (apply IZR_le; lia). lra. }
    unfold bounded. destruct (geometry a) as [? ? ?|dx dy n w s e dec|nm dx n w s e dec]; [exists 0%nat; auto|..];
      (destruct (X w) as (N & HN), (X e) as (M & HM); exists (N + M)%nat; intros fuel L; split; [apply HN|apply HM]; lia). }
  destruct (BD a) as (N & HN), (BD b) as (M & HM). exists g, h, (N + M)%nat. split; [exact E1|]. split; [exact E2|]. intros fuel L.
  apply (decide py_str key_order fuel d1 d2 g h a b); try assumption; [apply R1|apply R2|apply HN; lia|apply HM; lia].
Qed.
(** Certainly the same implies possibly the same. *)
Theorem C118_same_near a b : same_grid a b -> near_grid a b.
Proof.
  unfold same_grid, near_grid, agree. intros (S1 & S2 & G). split; [exact S1|]. split; [exact S2|].
  assert (W : forall dx w e dec, global 0.000000009 w e dx dec -> global 0.000000021 w e dx dec).
  { intros dx w e dec [H|(k & H)]; [left; exact H|]. right. exists k. lra. }
  assert (T : forall tol w v, (0 <= tol)%R -> near_congruent 0 w v -> near_congruent tol w v) by (intros tol w v P (k & H); exists k; lra).
  destruct (geometry a) as [x n o|dx dy n w s e dec|nm dx n w s e dec], (geometry b) as [x' n' o'|dx' dy' n' w' s' e' dec'|nm' dx' n' w' s' e' dec']; try exact G.
  - destruct G as (Q1 & Q2 & G). pose proof (Rabs_pos dx'). pose proof (Rabs_pos dy'). split; [lra|]. split; [lra|].
    destruct G as [G|(G1 & G2 & G3 & G4 & G5)]; [left; unfold apart in *; lra|]. right. split; [lra|]. split; [lra|]. split; [apply W, G3|]. split; [apply W, G4|]. apply T; [lra|exact G5].
  - destruct G as (Q1 & G). split; [exact Q1|].
    destruct G as [G|(G3 & G4 & G5)]; [left; unfold apart in *; lra|]. right. split; [apply W, G3|]. split; [apply W, G4|]. apply T; [lra|exact G5].
Qed.

Section Any.
  Context {A rest : Type}.
  Variables (zero : A) (add mul : A -> A -> A).
  Variable memory_of : rest -> Z.
  Variable sha : string -> string.
  Variable float_text : f64 -> string.
  Variables (py_str : val -> string) (key_order : list string) (fuel : nat).
  Variable files : fs rest (csr A).
  Notation regrid_call := (sys_regrid zero add mul memory_of sha float_text py_str key_order fuel files).
  Notation sys_after := (sys_after zero add mul memory_of sha float_text py_str key_order fuel files).
  Notation sound := (SystemSpec.sound py_str key_order fuel files).
  Notation proper_files := (@SystemSpec.proper_files A rest files).
  Notation configured := (SystemSpec.configured py_str key_order fuel files zero add mul memory_of sha float_text).
  Notation is_inventory := (@is_inventory A rest fuel files).
  Notation perhaps := (@perhaps rest fuel).
  Notation surely := (@surely rest fuel).
  Notation provides := (@provides A rest fuel files).
  Notation lists := (@lists rest fuel).
  Notation asks := (@asks A fuel).
  Notation answers := (IndexSpec.answers py_str key_order fuel).
  Notation does_not_answer := (IndexSpec.does_not_answer py_str key_order fuel).
  Implicit Types (h : list (sop A)) (values : array A) (l : list (string * raw rest)) (e : entry rest).

  Lemma exclusive (e : entry rest) gi go m : answers e gi go m -> does_not_answer e gi go m -> False.
  Proof. intros (E1 & E2 & E3) (s & F1 & [F|[F|[F F']]]); unfold compares in *; congruence. Qed.
  Lemma listed_entry l i n e : Forall2 loaded l i -> In (n, e) i -> exists r, In (n, r) l /\ reads n r e.
  Proof.
    induction 1 as [|[n' r'] [x y] l i [L1 L2] F IH]; [intros []|]. cbn in L1, L2. subst x. intros [E|I].
    - injection E as -> ->. exists r'. split; [left; reflexivity|exact L2].
    - destruct (IH I) as (r & I' & R). exists r. split; [right; exact I'|exact R].
  Qed.

  Hypotheses (K1 : incl COMPARE_KEYS key_order) (K2 : incl key_order COMPARE_KEYS).
  Lemma asked_sound path l o : is_inventory path l -> asks path o -> sound o.
  Proof using K1 K2.
    intros IV AS. destruct o as [path' values di do m|c|]; [|exact I|exact I]. destruct AS as (-> & P1 & P2 & a & b & RA & RB & BA & BB).
    split; [exact P1|]. split; [exact P2|]. intros gi go [G1 G2] i n e LI IN. destruct (indexed fuel files path l IV) as (i' & LI' & F2).
    rewrite LI in LI'. injection LI' as <-. destruct (listed_entry l i n e F2 IN) as (r & IL & RD). destruct (i_entries fuel files path l IV n r IL) as (a' & b' & m' & p & LS).
    destruct (entry_decided py_str key_order fuel K1 K2 n r a' b' m' p e di do gi go a b m LS RD G1 G2 RA RB BA BB) as [[H _]|[H _]]; auto.
  Qed.
  Lemma asked_same path h gi go m : Forall (asks path) h -> asked_only path h gi go m.
  Proof. intros F path' values di do gi' go' I _ _ _. rewrite Forall_forall in F. apply (F _ I). Qed.
  Lemma entry_shape n r e a b m p sh k : lists n r a b m p -> reads n r e -> alookup "shape" (gd (e_output e)) = Some sh ->
    is_shape sh k <-> sizes b = Some (map Z.of_nat k).
  Proof.
    intros [(i & o & R1 & R2 & RA & RB) _ _] (_ & ER & i' & o' & R1' & F1 & R2' & F2) SH. rewrite R2 in R2'. injection R2' as <-.
    pose proof (dg_sizes _ _ (reading_of o b (e_output e) RB F2)) as S. rewrite SH in S. unfold is_shape. destruct (sizes b) as [l|]; [|discriminate S].
    injection S as ->. split.
    - intros [(k0 & E & _)|[E|E]]; [discriminate E| |discriminate E]. injection E as E. f_equal. revert k E. clear. induction l as [|x l IH]; intros [|y k] E; try discriminate E; [reflexivity|].
      cbn in E |- *. injection E as -> E. f_equal. apply IH, E.
    - intros E. injection E as ->. right. left. rewrite map_map. reflexivity.
  Qed.
  Lemma split_loaded l i pre n e post : Forall2 loaded l i -> i = pre ++ (n, e) :: post ->
    exists pre' r post', l = pre' ++ (n, r) :: post' /\ Forall2 loaded pre' pre /\ reads n r e.
  Proof.
    intros F ->. apply Forall2_app_inv_r in F. destruct F as (pre' & l2 & F1 & F2 & ->). inversion F2 as [|[n' r'] ? l3 ? [L1 L2] F3]; subst. cbn in L1, L2. subst n'.
    exists pre', r', l3. auto.
  Qed.

  (** An answered call: the values with the weights of an entry of index.json applied; the method of the
      entry is the one asked for, its grids may be the ones asked for, and no entry before it certainly
      has these grids and this method. *)
  Theorem C118_sound c h0 h path l values di do a0 b0 m r g :
    float_texts float_text -> proper_files -> forgotten h0 -> is_inventory path l -> Forall (asks path) (h0 ++ h ++ [Call path values di do m]) ->
    reads_as di a0 -> reads_as do b0 -> bounded fuel a0 -> bounded fuel b0 ->
    snd (regrid_call path values di do m (sys_after c (h0 ++ h))) = Ok (r, g) ->
    g = do /\
    ((exists gi go, IndexSpec.request di do gi go /\ collides sha float_text h gi go m) \/
     exists pre q post z n, l = pre ++ q :: post /\ perhaps a0 b0 m q /\ Forall (fun q => ~ surely a0 b0 m q) pre /\
       provides path q z n /\ applies zero add mul z n values r).
  Proof using K1 K2.
    intros FT PF FG IV AS RA RB BA BB H.
    assert (SO : Forall sound (h0 ++ h ++ [Call path values di do m])) by (eapply Forall_impl; [|exact AS]; intros o; apply (asked_sound path l o IV)).
    assert (AH : Forall (asks path) h) by (apply Forall_app in AS; destruct AS as [_ AS]; apply Forall_app in AS; apply AS).
    destruct (C92_end_to_end_partial zero add mul memory_of sha float_text py_str key_order fuel files c h0 h path values di do m r g FT PF FG SO
                (fun gi go _ => asked_same path h gi go m AH) H) as (-> & gi & go & [G1 G2] & [C|W]); (split; [reflexivity|]); [left; exists gi, go; split; [split; assumption|exact C]|right].
    destruct W as (z & sh & n & (i & pre & nm & e & post & p & LI & EI & AN & DN & MP & WZ & SH) & IS & AP).
    destruct (indexed fuel files path l IV) as (i' & LI' & F2). rewrite LI in LI'. injection LI' as <-.
    destruct (split_loaded l i pre nm e post F2 EI) as (pre' & r0 & post' & EL & FP & RD).
    destruct (i_entries fuel files path l IV nm r0) as (a & b & m' & p' & LS). { rewrite EL. apply in_or_app. right. left. reflexivity. }
    exists pre', (nm, r0), post', z, n. split; [exact EL|]. split; [|split; [|split; [|exact AP]]].
    - destruct (entry_decided py_str key_order fuel K1 K2 nm r0 a b m' p' e di do gi go a0 b0 m LS RD G1 G2 RA RB BA BB) as [[_ (KM & N1 & N2)]|[D _]].
      + exists a, b, m', p'. auto.
      + destruct (exclusive e gi go _ AN D).
    - clear -FP DN G1 G2 RA RB BA BB K1 K2. revert DN. induction FP as [|[n r] [x y] l i [L1 L2] FP IH]; intros DN; [constructor|]. inversion DN as [|? ? D1 D2]; subst. constructor; [|apply IH, D2].
      cbn in L1, L2, D1. subst x. intros (a & b & m' & p & LS & KM & S1 & S2). cbn [fst snd] in LS.
      destruct (entry_decided py_str key_order fuel K1 K2 n r a b m' p y di do gi go a0 b0 m LS L2 G1 G2 RA RB BA BB) as [[Y _]|[_ N]]; [exact (exclusive y gi go _ Y D1)|]. apply N. auto.
    - exists a, b, m', p'. split; [exact LS|]. destruct (listed_path fuel nm r0 a b m' p' e path LS (i_path fuel files path l IV) (proj1 (proj2 RD)) (proj1 RD)) as [P1 P2].
      rewrite MP in P1. injection P1 as ->. rewrite <- P2. split; [exact WZ|]. apply (entry_shape nm r0 e a b m' p' sh n LS RD SH), IS.
  Qed.

  (** The entry that certainly has the grids and the method asked for is used if no entry before it may
      have them. *)
  Theorem C118_answered c h0 h path l pre q post values di do a0 b0 m z n :
    float_texts float_text -> proper_files -> forgotten h0 -> is_inventory path l -> Forall (asks path) (h0 ++ h ++ [Call path values di do m]) -> configured c (h0 ++ h) ->
    reads_as di a0 -> reads_as do b0 -> bounded fuel a0 -> bounded fuel b0 ->
    l = pre ++ q :: post -> surely a0 b0 m q -> Forall (fun q => ~ perhaps a0 b0 m q) pre -> provides path q z n ->
    prod (shape values) = n_cols z -> prod n = n_rows z ->
    (exists r, snd (regrid_call path values di do m (sys_after c (h0 ++ h))) = Ok (r, do) /\ applies zero add mul z n values r) \/
    (snd (regrid_call path values di do m (sys_after c (h0 ++ h))) = Raise WeightsTooLarge /\ strict (y_mem (sys_after c (h0 ++ h))) = true) \/
    (exists gi go, IndexSpec.request di do gi go /\ collides sha float_text h gi go m).
  Proof using K1 K2.
    intros FT PF FG IV AS CF RA RB BA BB EL (a & b & m' & p & LS & KM & S1 & S2) NP (a' & b' & m'' & p' & LS' & WZ & SZ) E1 E2.
    assert (SO : Forall sound (h0 ++ h ++ [Call path values di do m])) by (eapply Forall_impl; [|exact AS]; intros o; apply (asked_sound path l o IV)).
    assert (AH : Forall (asks path) h) by (apply Forall_app in AS; destruct AS as [_ AS]; apply Forall_app in AS; apply AS).
    destruct (reading di a0 RA) as (gi & G1 & _), (reading do b0 RB) as (go & G2 & _).
    destruct (indexed fuel files path l IV) as (i & LI & F2). rewrite EL in F2. apply Forall2_app_inv_l in F2. destruct F2 as (ipre & irest & FP & FR & EI).
    inversion FR as [|? [x e] ? ipost [L1 L2] FQ]; subst irest. cbn in L1. subst x. destruct q as [nm r0]. cbn [fst snd] in *.
    destruct (listed_path fuel nm r0 a' b' m'' p' e path LS' (i_path fuel files path l IV) (proj1 (proj2 L2)) (proj1 L2)) as [P1 P2].
    assert (SH : alookup "shape" (gd (e_output e)) = Some (VList (map VInt (map Z.of_nat n)))).
    { destruct LS' as [(i0 & o & R1 & R2 & RA' & RB') _ _]. destruct L2 as (_ & ER & i1 & o1 & R1' & F1 & R2' & FO). rewrite R2 in R2'. injection R2' as <-.
      pose proof (dg_sizes _ _ (reading_of o b' (e_output e) RB' FO)) as S. rewrite SZ in S. exact S. }
    assert (WF : weights_for py_str key_order fuel files path gi go m z (VList (map VInt (map Z.of_nat n)))).
    { exists i, ipre, nm, e, ipost, p'. split; [exact LI|]. split; [exact EI|]. split; [|split; [|split; [exact P1|split; [rewrite P2; exact WZ|exact SH]]]].
      - destruct (entry_decided py_str key_order fuel K1 K2 nm r0 a b m' p e di do gi go a0 b0 m LS L2 G1 G2 RA RB BA BB) as [[Y _]|[_ N]]; [exact Y|]. destruct N. auto.
      - assert (IE : forall n r, In (n, r) pre -> exists a b m p, lists n r a b m p).
        { intros n1 r1 I1. apply (i_entries fuel files path l IV). rewrite EL. apply in_or_app. left. exact I1. }
        clear -FP NP IE G1 G2 RA RB BA BB K1 K2. revert NP IE. induction FP as [|[n r] [x y] l i [L1 L2] FP IH]; intros NP IE; [constructor|].
        inversion NP as [|? ? N1 N2]; subst. constructor; [|apply IH; [exact N2|intros n1 r1 I1; apply IE; right; exact I1]]. cbn in L1, L2. subst x. cbn [snd].
        destruct (IE n r (or_introl eq_refl)) as (a & b & m' & p & LS).
        destruct (entry_decided py_str key_order fuel K1 K2 n r a b m' p y di do gi go a0 b0 m LS L2 G1 G2 RA RB BA BB) as [[_ (KM & Q1 & Q2)]|[D _]]; [|exact D].
        destruct N1. exists a, b, m', p. auto. }
    assert (IS : is_shape (VList (map VInt (map Z.of_nat n))) n) by (right; left; rewrite map_map; reflexivity).
    destruct (C92_answered_partial zero add mul memory_of sha float_text py_str key_order fuel files c h0 h path values di do m gi go z _ n FT PF FG SO CF (conj G1 G2)
                (asked_same path h gi go m AH) WF IS E1 E2) as [R|[[R [T _]]|C]]; [left; exact R|right; left; auto|right; right; exists gi, go; split; [split; assumption|exact C]].
  Qed.

  (** In a process that made no request since it started: the result itself. *)
  Theorem C118_first_call c path l pre q post values di do a0 b0 m z n :
    float_texts float_text -> proper_files -> is_inventory path l -> asks path (Call path values di do m) ->
    snd (@MemCache.init (weights A) c) = Ok tt -> c_strict c = false ->
    reads_as di a0 -> reads_as do b0 -> bounded fuel a0 -> bounded fuel b0 ->
    l = pre ++ q :: post -> surely a0 b0 m q -> Forall (fun q => ~ perhaps a0 b0 m q) pre -> provides path q z n ->
    prod (shape values) = n_cols z -> prod n = n_rows z ->
    exists r, snd (regrid_call path values di do m (sys_after c [])) = Ok (r, do) /\ applies zero add mul z n values r.
  Proof using K1 K2.
    intros FT PF IV AS CF ST RA RB BA BB EL SU NP PV E1 E2.
    destruct (C118_answered c [] [] path l pre q post values di do a0 b0 m z n) as [R|[[_ T]|(gi & go & _ & ? & ? & ? & ? & ? & ? & ? & [] & _)]]; try assumption.
    - left. reflexivity.
    - apply Forall_cons; [exact AS|apply Forall_nil].
    - split; [exact CF|]. intros [|x p'] c' p'' E; discriminate E.
    - exfalso. change (strict (fst (@MemCache.init (weights A) c)) = true) in T. unfold MemCache.init in *.
      destruct (MemCache.update c fresh) as [s x] eqn:EU. cbn [fst snd] in *. subst x.
      destruct (MemCacheProofs2.update_ok _ c fresh s (MemCacheProofs2.fresh_ginv _) EU) as [_ [_ RF]].
      destruct (pol s); destruct RF as [_ RF]; congruence.
  Qed.

  (** If no entry may have the grids and the method asked for, ValueError. *)
  Theorem C118_refused c h0 h path l values di do a0 b0 m :
    float_texts float_text -> forgotten h0 -> is_inventory path l -> Forall (asks path) (h0 ++ h ++ [Call path values di do m]) ->
    reads_as di a0 -> reads_as do b0 -> bounded fuel a0 -> bounded fuel b0 -> Forall (fun q => ~ perhaps a0 b0 m q) l ->
    snd (regrid_call path values di do m (sys_after c (h0 ++ h))) = Raise ValueError \/ exists gi go, IndexSpec.request di do gi go /\ collides sha float_text h gi go m.
  Proof using K1 K2.
    intros FT FG IV AS RA RB BA BB NP.
    assert (SO : Forall sound (h0 ++ h ++ [Call path values di do m])) by (eapply Forall_impl; [|exact AS]; intros o; apply (asked_sound path l o IV)).
    assert (AH : Forall (asks path) h) by (apply Forall_app in AS; destruct AS as [_ AS]; apply Forall_app in AS; apply AS).
    destruct (reading di a0 RA) as (gi & G1 & _), (reading do b0 RB) as (go & G2 & _).
    destruct (indexed fuel files path l IV) as (i & LI & F2).
    assert (NW : no_weights_for py_str key_order fuel files path gi go m).
    { exists i. split; [exact LI|]. pose proof (i_entries fuel files path l IV) as IE. clear -F2 NP IE G1 G2 RA RB BA BB K1 K2. revert NP IE.
      induction F2 as [|[n r] [x y] l i [L1 L2] FP IH]; intros NP IE; [constructor|].
      inversion NP as [|? ? N1 N2]; subst. constructor; [|apply IH; [exact N2|intros n1 r1 I1; apply IE; right; exact I1]]. cbn in L1, L2. subst x. cbn [snd].
      destruct (IE n r (or_introl eq_refl)) as (a & b & m' & p & LS).
      destruct (entry_decided py_str key_order fuel K1 K2 n r a b m' p y di do gi go a0 b0 m LS L2 G1 G2 RA RB BA BB) as [[_ (KM & Q1 & Q2)]|[D _]]; [|exact D].
      destruct N1. exists a, b, m', p. auto. }
    destruct (C92_refused_partial zero add mul memory_of sha float_text py_str key_order fuel files c h0 h path values di do m gi go FT FG SO (conj G1 G2)
                (asked_same path h gi go m AH) NW) as [R|C]; [left; exact R|right; exists gi, go; split; [split; assumption|exact C]].
  Qed.
End Any.

(** ** A concrete inventory *)
Definition end_raw : raw Z := mkRaw (Some [("grid", VStr "H1"); ("ordering", VStr "nested")]) (Some [("grid", VStr "O32"); ("shape", VList [VInt 2])])
  (Some (mkInter (Some "mir") (Some "16") (Some (MObject (Some "nearest-neighbour"))))) 48.
Definition end_list : list (string * raw Z) := [("h", end_raw); ("w", demo_raw)].
Definition end_files : fs Z (csr Z) :=
  [("a/index.json", IndexFile (mkFile (Some 1) (Some end_list))); ("a/mir_16_linear/w.npz", Weights matrix_b)].
Definition end_a : grid := mkGrid (LatLon 1 1 90 0 0 (21 / 2) False) (fun _ => 0) None.
Definition end_b (sh : option (list Z)) : grid := mkGrid (Gauss "O32" (360 / 144) 90 0 (-90) 360 False) (fun _ => 0) sh.
Definition end_h : grid := mkGrid (Named false "H1" "nested") (fun _ => 0) None.

Lemma half_number : number (VFloat (lit 21 2)) (21 / 2)%R.
Proof.
  assert (E : lit 21 2 = S754_finite false 5910974510923776 (-49)) by (vm_compute; reflexivity).
  exists (NF (lit 21 2)). split; [reflexivity|]. rewrite E. split; [split; reflexivity|]. split.
  - cbn. unfold F2Rv, Flocq.IEEE754.BinarySingleNaN.SF2R, Flocq.Core.Defs.F2R. cbn. lra.
  - rewrite Rabs_pos_eq by lra. change (IZR (2 ^ 52)) with 4503599627370496%R. lra.
Qed.
Lemma end_reads_a : reads_as demo_in end_a.
Proof.
  split; [cbn; repeat (apply NoDup_cons; [cbn; intuition discriminate|]); apply NoDup_nil|]. split; [|split; [reflexivity|intros k [<-|[<-|[<-|[]]]]; reflexivity]].
  assert (B : (Rabs 1 <= 360)%R) by (rewrite Rabs_pos_eq; lra).
  split; [right; split; [left; reflexivity|]; exists (VList [VInt 1; VInt 1]); split; [reflexivity|constructor]|].
  split; [exists (VInt 1), (VInt 1); split; [reflexivity|]; split; apply number_int; lia|]. split; [exact B|]. split; [exact B|]. split.
  - apply (as_given _ _ _ _ _ _ _ (VList [VInt 90; VInt 0; VInt 0; VFloat (lit 21 2)])); [reflexivity|]. exists (VInt 90), (VInt 0), (VInt 0), (VFloat (lit 21 2)).
    split; [reflexivity|]. split; [apply number_int; lia|]. split; [apply number_int; lia|]. split; [apply number_int; lia|exact half_number].
  - split; [contradiction|]. intros [(v & E & _)|[_ E]]; discriminate E.
Qed.
Lemma end_reads_b d sh : NoDup (akeys d) -> untyped d -> alookup "grid" d = Some (VStr "O32") -> alookup "area" d = None -> alookup "global" d = None ->
  its_shape d sh -> (forall k, In k flags -> alookup k d = None) -> reads_as d (end_b sh).
Proof.
  intros N U G AR GL SH FL. assert (GG : given d "grid" = Some (VStr "O32")) by (unfold given; rewrite G; reflexivity).
  assert (GA : given d "area" = None) by (unfold given; rewrite AR; reflexivity). assert (GB : given d "global" = None) by (unfold given; rewrite GL; reflexivity).
  split; [exact N|]. split; [|split; [exact SH|intros k K; unfold its_scanning, given; rewrite (FL k K); reflexivity]].
  cbn [geometry end_b its_geometry]. rewrite GA, GB. split; [right; split; [exact U|]; exists (VStr "O32"); split; [exact G|]; constructor; exists "O"%char, "3"%char, "2"; cbn; auto|].
  split.
  - exists "O"%char, ["3"; "2"]%char. split; [exact GG|]. split; [reflexivity|]. split; [cbn; auto|]. split; [discriminate|]. split; [repeat constructor|]. split; [cbn; lia|]. cbn. reflexivity.
  - split; [repeat split; lra|]. split; [contradiction|]. intros (v & E & _). discriminate E.
Qed.
Lemma end_reads_out : reads_as demo_out (end_b None).
Proof. apply end_reads_b; try reflexivity; [repeat constructor; intros []|left; reflexivity|intros k [<-|[<-|[<-|[]]]]; reflexivity]. Qed.
Lemma end_reads_shaped : reads_as [("grid", VStr "O32"); ("shape", VList [VInt 2])] (end_b (Some [2])).
Proof. apply end_reads_b; try reflexivity; [cbn; repeat (apply NoDup_cons; [cbn; intuition discriminate|]); apply NoDup_nil|left; reflexivity|intros k [<-|[<-|[<-|[]]]]; reflexivity]. Qed.
Lemma end_reads_h : reads_as [("grid", VStr "H1"); ("ordering", VStr "nested")] end_h.
Proof.
  split; [cbn; repeat (apply NoDup_cons; [cbn; intuition discriminate|]); apply NoDup_nil|]. split; [|split; [reflexivity|intros k [<-|[<-|[<-|[]]]]; reflexivity]].
  split; [right; split; [left; reflexivity|]; exists (VStr "H1"); split; [reflexivity|]; constructor; exists "H"%char, "1"%char, ""; cbn; auto|].
  split; [reflexivity|]. split; [cbn; auto|]. exists "H"%char, ["1"]%char. split; [reflexivity|]. split; [reflexivity|]. split; [cbn; auto|]. split; [discriminate|]. split; [repeat constructor|]. cbn. lia.
Qed.
Lemma end_bounded : bounded 10 end_a /\ forall sh, bounded 10 (end_b sh).
Proof. split; [|intros sh]; (split; unfold enough; cbn; rewrite Rabs_pos_eq; lra). Qed.
Lemma end_lists_w : lists 10 "w" demo_raw end_a (end_b (Some [2])) "linear" "mir_16_linear/w.npz".
Proof.
  destruct end_bounded as [B1 B2]. constructor.
  - eexists; eexists. split; [reflexivity|]. split; [reflexivity|]. split; [exact end_reads_a|exact end_reads_shaped].
  - auto.
  - exists "mir", "16", (MName "linear"). split; [reflexivity|]. split; [left; reflexivity|]. split; [reflexivity|]. split; [discriminate|]. split; [exists "linea", "r"%char; split; [reflexivity|discriminate]|discriminate].
Qed.
Lemma end_lists_h : lists 10 "h" end_raw end_h (end_b (Some [2])) "nearest-neighbour" "mir_16_nearest-neighbour/h.npz".
Proof.
  destruct end_bounded as [B1 B2]. constructor.
  - eexists; eexists. split; [reflexivity|]. split; [reflexivity|]. split; [exact end_reads_h|exact end_reads_shaped].
  - split; [exact I|auto].
  - exists "mir", "16", (MObject (Some "nearest-neighbour")). split; [reflexivity|]. split; [right; reflexivity|]. split; [reflexivity|]. split; [discriminate|].
    split; [exists "nearest-neighbou", "r"%char; split; [reflexivity|discriminate]|discriminate].
Qed.
(** The hypotheses of the theorems are met by it. *)
Example C118_met : is_inventory 10 end_files "a" end_list /\ asks 10 "a" (demo_call "a") /\ proper_files end_files /\
  surely 10 end_a (end_b None) "linear" ("w", demo_raw) /\ ~ perhaps 10 end_a (end_b None) "linear" ("h", end_raw) /\
  provides 10 end_files "a" ("w", demo_raw) matrix_b [2%nat].
Proof.
  destruct end_bounded as [B1 B2]. split; [|split; [|split; [|split; [|split]]]].
  - constructor.
    + reflexivity.
    + exists "", "a"%char. split; [reflexivity|discriminate].
    + cbn. repeat (apply NoDup_cons; [cbn; intuition discriminate|]). apply NoDup_nil.
    + intros n r [E|[E|[]]]; injection E as <- <-; [exists end_h, (end_b (Some [2])), "nearest-neighbour"|exists end_a, (end_b (Some [2])), "linear"]; eexists; [exact end_lists_h|exact end_lists_w].
  - split; [reflexivity|]. destruct demo_plain as [P1 P2]. split; [exact P1|]. split; [exact P2|]. exists end_a, (end_b None). split; [exact end_reads_a|]. split; [exact end_reads_out|]. auto.
  - intros p z. unfold end_files. cbn [alookup]. repeat (destruct (String.eqb _ _); [intros H; try discriminate H; injection H as <-|]); [|discriminate];
    (split; cbn; [reflexivity|reflexivity| |reflexivity|reflexivity|repeat constructor]); intros [|[|i]] L; cbn; lia.
  - exists end_a, (end_b (Some [2])), "linear", "mir_16_linear/w.npz". split; [exact end_lists_w|]. split; [right; split; [discriminate|]; split; [discriminate|reflexivity]|].
    assert (Z0 : forall x, (Rabs (x - x) <= 0.0000000001)%R) by (intros x; rewrite Rminus_eq_0, Rabs_R0; lra). split.
    + split; [reflexivity|]. split; [intros; discriminate|]. cbn. pose proof (Z0 1%R). pose proof (Z0 90%R). pose proof (Z0 0%R). pose proof (Z0 (21/2)%R). split; [lra|]. split; [lra|]. left. lra.
    + split; [reflexivity|]. split; [intros; discriminate|]. cbn. split; [reflexivity|]. left. pose proof (Z0 90%R). pose proof (Z0 0%R). pose proof (Z0 (-90)%R). pose proof (Z0 360%R). lra.
  - intros (a & b & m' & p & [(i & o & R1 & R2 & (_ & GE & _) & _) _ _] & _ & (_ & _ & N) & _). cbn [fst snd] in R1. injection R1 as <-.
    cbn [geometry end_a] in N. destruct (geometry a) as [x nm o'|dx dy n w s e dec|nm dx n w s e dec]; try contradiction. destruct GE as (_ & (x & y & E & _) & _). discriminate E.
  - exists end_a, (end_b (Some [2])), "linear", "mir_16_linear/w.npz". split; [exact end_lists_w|]. split; reflexivity.
Qed.
(** And this is the result. *)
Theorem C118_example : exists r,
  snd (sys_regrid 0 Z.add Z.mul (fun x : Z => x) (fun s => s) demo_text demo_py COMPARE_KEYS 10 end_files "a" demo_values demo_in demo_out "linear"
        (sys_after 0 Z.add Z.mul (fun x : Z => x) (fun s => s) demo_text demo_py COMPARE_KEYS 10 end_files (mkConf (Some 1000000) false "largest") [])) = Ok (r, demo_out) /\
  applies 0 Z.add Z.mul matrix_b [2%nat] demo_values r.
Proof.
  destruct C118_met as (IV & AS & PF & SU & NP & PV). destruct end_bounded as [B1 B2].
  apply (C118_first_call 0 Z.add Z.mul (fun x : Z => x) (fun s => s) demo_text demo_py COMPARE_KEYS 10 end_files (incl_refl _) (incl_refl _)
           (mkConf (Some 1000000) false "largest") "a" end_list [("h", end_raw)] ("w", demo_raw) [] demo_values demo_in demo_out end_a (end_b None) "linear" matrix_b [2%nat]); try assumption; try reflexivity.
  - exact demo_texts.
  - exact end_reads_a.
  - exact end_reads_out.
  - apply B2.
  - constructor; [exact NP|constructor].
Qed.

Print Assumptions C118_compared.
Print Assumptions C118_same_near.
Print Assumptions C118_sound.
Print Assumptions C118_answered.
Print Assumptions C118_first_call.
Print Assumptions C118_refused.
Print Assumptions C118_example.
