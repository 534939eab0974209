(** C127: public calls with a local inventory, from its files and the dictionaries of the caller to the
    numbers of the result. *)
From Coq Require Import Reals Psatz.
From Verif Require Import PyBase MemCacheProofs MemCacheProofs2 ListLemmas PyStr Float64 GridSpec GridVocab GridProofs FloatReal GridMatchSpec GridReal GridMatch3 GridDecide
  Index IndexSpec Db MemCache Inventory Regrid RegridSpec Key KeySpec KeyProofs System SystemSpec SystemProofs EndSpec EndProofs Props_System Props_End
  Disk DiskSpec Props_Key CacheFile Remote RemoteSpec Dispatch Api ApiSpec ApiProofs Props_Api Props_ApiLocal EndRemoteSpec Props_EndRemote EndApiSpec Props_EndApi EndLocalSpec.
Set Default Proof Using "Type".
Local Open Scope string_scope.
Local Open Scope list_scope.
Local Open Scope Z_scope.

Lemma same_refl a : same_grid a a.
Proof.
  assert (Z0 : forall x, Rabs (x - x) = 0%R) by (intros x; rewrite Rminus_eq_0; apply Rabs_R0).
  unfold same_grid, agree. split; [reflexivity|]. split; [intros l m E1 E2; congruence|].
  destruct (geometry a) as [x n o|dx dy n w s e dec|nm dx n w s e dec]; [auto|..]; unfold apart.
  - pose proof (Rabs_pos dx). pose proof (Rabs_pos dy). split; [rewrite Z0; lra|]. split; [rewrite Z0; lra|]. left. repeat split; rewrite Z0; lra.
  - split; [reflexivity|]. left. repeat split; rewrite Z0; lra.
Qed.

Section Any.
  Context {A rest field : Type}.
  Variables (zero : A) (add mul : A -> A -> A).
  Variable memory_of : rest -> Z.
  Variable sha : string -> string.
  Variable float_text : f64 -> string.
  Variables (py_str : val -> string) (key_order : list string) (fuel : nat).
  Variable files : fs rest (csr A).
  Variable mir_array : array A -> option dict -> option dict -> dict -> result (array A * dict).
  Variable mir_grib : string -> option dict -> dict -> result string.
  Variable field_values : field -> result (array A).
  Variable field_grid : field -> result (option dict).
  Variable field_with : field -> array A -> dict -> result field.
  Variable field_message : field -> result string.
  Variable message_field : string -> result field.
  Notation S := (sys A rest).
  Notation W := (weights A).
  Notation lfind := (local_find memory_of sha float_text py_str key_order fuel files).
  Notation array_regrid := (array_regrid zero add mul lfind mir_array).
  Notation regrid_call := (regrid_call zero add mul lfind mir_array mir_grib field_values field_grid field_with field_message message_field).
  Notation interpolate_call := (interpolate_call zero add mul lfind field_values field_grid field_with).
  Notation pafter := (pafter zero add mul lfind mir_array mir_grib field_values field_grid field_with field_message message_field).
  Notation pstep := (pstep zero add mul lfind mir_array mir_grib field_values field_grid field_with field_message message_field).
  Notation sys_step := (sys_step zero add mul memory_of sha float_text py_str key_order fuel files).
  Notation sys_after := (sys_after zero add mul memory_of sha float_text py_str key_order fuel files).
  Notation weights_for := (weights_for py_str key_order fuel files).
  Notation no_weights_for := (no_weights_for py_str key_order fuel files).
  Notation sound := (SystemSpec.sound py_str key_order fuel files).
  Notation proper_files := (@SystemSpec.proper_files A rest files).
  Notation pcall := (@pop_call A S unit field).
  Notation asks := (ApiSpec.asks (S := S) (E := unit) field_values field_grid).
  Notation call_collides := (call_collides (S := S) (E := unit) field_values field_grid sha float_text).
  Notation call_asked_only := (call_asked_only (S := S) (E := unit) field_values field_grid).
  Notation known_else := (@known_else A rest field zero add mul memory_of sha float_text py_str key_order fuel files).
  Notation cleared := (@Props_ApiLocal.cleared A rest field zero add mul memory_of sha float_text py_str key_order fuel files).
  Notation all_sound := (@Props_ApiLocal.all_sound A rest field py_str key_order fuel files field_values field_grid).
  Notation is_inventory := (@is_inventory A rest fuel files).
  Notation provides := (@provides A rest fuel files).
  Notation means := (means fuel).
  Notation asks_inventories := (@asks_inventories A rest field field_values field_grid fuel files).
  Notation asked_only_here := (@asked_only_here A rest field field_values field_grid fuel).
  Implicit Types (H : list pcall) (values r : array A) (l : list (string * raw rest)) (x : unit).

  (** The settings of the memory cache were accepted whenever they were read. *)
  Definition settings_taken (c : mconf) H : Prop :=
    snd (@MemCache.init W c) = Ok tt /\
    forall pre f post, H = pre ++ PElse f :: post -> (forall y, f y = sys_step y ClearMemory) \/
      exists c', (forall y, f y = sys_step y (Configure c')) /\ snd (MemCache.update c' (y_mem (p_sys (pafter (sys_init c) pre)))) = Ok tt.
  Lemma taken_known c H : settings_taken c H -> known_else H.
  Proof. intros [_ C] f I. apply in_split in I. destruct I as (pre & post & E). destruct (C pre f post E) as [Q|(c' & Q & _)]; eauto. Qed.
  Lemma asked_ginv h : Forall (fun k => exists p v di do m, k = Call p v di do m) h -> forall y : S, GInv W (y_mem y) -> GInv W (y_mem (fold_left sys_step h y)).
  Proof.
    induction 1 as [|k h (p & v & di & do & m & ->) _ IH]; intros y G; [exact G|]. cbn [fold_left System.sys_step]. apply IH. unfold System.sys_regrid.
    pose proof (db_find_ginv memory_of sha float_text py_str key_order fuel files p di do m y G) as G'. destruct (System.db_find _ _ _ _ _ _ _ p di do m y). exact G'.
  Qed.
  Lemma taken_ginv c H : settings_taken c H -> GInv W (y_mem (p_sys (pafter (sys_init c) H))).
  Proof.
    intros (C0 & C1). induction H as [|d H IH] using rev_ind.
    - cbn. unfold MemCache.init in *. destruct (MemCache.update c fresh) as [s r] eqn:E. cbn in C0. subst r. exact (proj1 (MemCacheProofs2.update_ok W c fresh s (fresh_ginv W) E)).
    - assert (Y : GInv W (y_mem (p_sys (pafter (sys_init c) H)))). { apply IH. intros pre f post Q. apply (C1 pre f (post ++ [d])). rewrite Q, <- app_assoc. reflexivity. }
      pose proof (after_fine zero add mul lfind mir_array mir_grib field_values field_grid field_with field_message message_field (sys_init c) H) as F.
      specialize (C1 H). unfold Api.pafter in *. rewrite fold_left_app. cbn [fold_left]. set (s := fold_left pstep H _) in *. clearbody s. destruct s as [y mk]. cbn [p_sys p_maker] in *.
      assert (AL : forall k, asks d k -> exists p v di do m, k = Call p v di do m) by (intros k K; inversion K; subst; eauto 10).
      assert (X : forall (T : Type) (a : act (api S) T), emits zero add mul memory_of sha float_text py_str key_order fuel files (asks d) (fun _ => True) a -> GInv W (y_mem (p_sys (fst (a (mkApi y mk)))))).
      { intros T a EM. destruct (EM y mk F) as (h & -> & FH & _). apply asked_ginv; [|exact Y]. eapply Forall_impl; [|exact FH]. exact AL. }
      destruct d as [x v i g m b kw|x d g m b kw|x d i g m kw|f]; cbn [Api.pstep].
      + apply X. apply array_emits.
      + apply X. apply regrid_emits.
      + apply X. apply interpolate_emits.
      + cbn [p_sys]. destruct (C1 f [] eq_refl) as [Q|(c' & Q & C)]; rewrite Q; cbn [System.sys_step y_mem].
        * exact (step_ginv mreq (entry rest) W (key_of sha float_text) (System.est_size memory_of) System.size_of size_nonneg (y_mem y) OpClear Y Logic.I).
        * destruct (MemCache.update c' (y_mem y)) as [s r] eqn:E. cbn in C. subst r. exact (proj1 (MemCacheProofs2.update_ok W c' _ s Y E)).
  Qed.

  Hypotheses (K1 : incl COMPARE_KEYS key_order) (K2 : incl key_order COMPARE_KEYS) (FT : float_texts float_text).

  Section Calls.
    Variables (path : string) (l : list (string * raw rest)).
    Hypothesis IV : is_inventory path l.
    Lemma local_sound v di do m a b : means di a -> means do b -> sound (Call path v di do m).
    Proof using K1 K2 IV.
      intros MA MB. destruct (means_reading _ _ _ MA) as (P1 & N1 & B1 & _), (means_reading _ _ _ MB) as (P2 & N2 & B2 & _). split; [exact P1|]. split; [exact P2|].
      intros gi go [G1 G2] i n e LI J. destruct (indexed fuel files path l IV) as (i' & LI' & LD). rewrite LI in LI'. injection LI' as <-.
      exact (entries_compared py_str key_order fuel K1 K2 di do gi go a b m G1 G2 N1 N2 (means_of _ _ _ _ MA G1) (means_of _ _ _ _ MB G2) B1 B2 l i LD (i_entries _ _ _ _ IV) n e J).
    Qed.
    Variables (di do : dict) (a0 b0 : grid) (m : string).
    Hypotheses (MA : means di a0) (MB : means do b0).
    Lemma here_entry gi go z sh n : IndexSpec.request di do gi go -> weights_for path gi go m z sh -> is_shape sh n ->
      exists pre q post, l = pre ++ q :: post /\ perhaps fuel a0 b0 m q /\ Forall (fun q => ~ surely fuel a0 b0 m q) pre /\ provides path q z n.
    Proof using K1 K2 IV MA MB.
      intros [G1 G2] (i & pre & nm & e & post & p & LI & EI & AN & DN & MP & WZ & SH) IS.
      destruct (means_reading _ _ _ MA) as (_ & N1 & B1 & _), (means_reading _ _ _ MB) as (_ & N2 & B2 & _).
      destruct (indexed fuel files path l IV) as (i' & LI' & LD). rewrite LI in LI'. injection LI' as <-.
      destruct (entries_first py_str key_order fuel K1 K2 di do gi go a0 b0 m G1 G2 N1 N2 (means_of _ _ _ _ MA G1) (means_of _ _ _ _ MB G2) B1 B2 l i LD (i_entries _ _ _ _ IV) pre nm e post EI AN DN) as (pre' & r0 & post' & EL & RD & PQ & NS).
      exists pre', (nm, r0), post'. split; [exact EL|]. split; [exact PQ|]. split; [exact NS|].
      destruct (i_entries _ _ _ _ IV nm r0) as (a & b & m' & p' & LS). { rewrite EL. apply in_or_app. right. left. reflexivity. }
      exists a, b, m', p'. split; [exact LS|]. destruct (listed_path fuel nm r0 a b m' p' e path LS (i_path _ _ _ _ IV) (proj1 (proj2 RD)) (proj1 RD)) as [P1 P2].
      rewrite MP in P1. injection P1 as ->. rewrite <- P2. split; [exact WZ|]. apply (entry_shape fuel nm r0 e a b m' p' sh n LS RD SH), IS.
    Qed.
    Lemma entry_here gi go pre q post z n : IndexSpec.request di do gi go -> l = pre ++ q :: post -> surely fuel a0 b0 m q -> Forall (fun q => ~ perhaps fuel a0 b0 m q) pre -> provides path q z n ->
      weights_for path gi go m z (VList (map VInt (map Z.of_nat n))).
    Proof using K1 K2 IV MA MB.
      intros [G1 G2] EL SQ NP (a & b & m' & p & LS & WZ & SZ).
      destruct (means_reading _ _ _ MA) as (_ & N1 & B1 & _), (means_reading _ _ _ MB) as (_ & N2 & B2 & _).
      destruct (indexed fuel files path l IV) as (i & LI & LD).
      destruct (entries_found py_str key_order fuel K1 K2 di do gi go a0 b0 m G1 G2 N1 N2 (means_of _ _ _ _ MA G1) (means_of _ _ _ _ MB G2) B1 B2 l i LD (i_entries _ _ _ _ IV) pre q post EL SQ NP) as (ipre & e & ipost & EI & RD & AN & DN).
      destruct (listed_path fuel _ _ a b m' p e path LS (i_path _ _ _ _ IV) (proj1 (proj2 RD)) (proj1 RD)) as [P1 P2].
      exists i, ipre, (fst q), e, ipost, p. split; [exact LI|]. split; [exact EI|]. split; [exact AN|]. split; [exact DN|]. split; [exact P1|]. split; [rewrite P2; exact WZ|].
      destruct LS as [(i0 & o & R1 & R2 & RA' & RB') _ _]. destruct RD as (_ & ER & i1 & o1 & R1' & F1 & R2' & FO). rewrite R2 in R2'. injection R2' as <-.
      pose proof (dg_sizes _ _ (reading_of o b (e_output e) RB' FO)) as Q. rewrite SZ in Q. exact Q.
    Qed.
    Lemma none_here gi go : IndexSpec.request di do gi go -> Forall (fun q => ~ perhaps fuel a0 b0 m q) l -> no_weights_for path gi go m.
    Proof using K1 K2 IV MA MB.
      intros [G1 G2] NP. destruct (means_reading _ _ _ MA) as (_ & N1 & B1 & _), (means_reading _ _ _ MB) as (_ & N2 & B2 & _).
      destruct (indexed fuel files path l IV) as (i & LI & LD). exists i. split; [exact LI|].
      exact (entries_none py_str key_order fuel K1 K2 di do gi go a0 b0 m G1 G2 N1 N2 (means_of _ _ _ _ MA G1) (means_of _ _ _ _ MB G2) B1 B2 l (i_entries _ _ _ _ IV) l i LD (fun _ Q => Q) NP).
    Qed.
  End Calls.

  Lemma local_all_sound H : Forall asks_inventories H -> all_sound H.
  Proof using K1 K2.
    intros AS d k I K. rewrite Forall_forall in AS. assert (X : exists p v di do m, k = Call p v di do m) by (inversion K; subst; eauto 10). destruct X as (p & v & di & do & m & ->).
    destruct (AS d I p v di do m K) as ((l & IV) & a & b & MA & MB). exact (local_sound p l IV v di do m a b MA MB).
  Qed.
  Lemma means_same d d' a a' g g' : means d a -> means d' a' -> from_dict d = Ok g -> from_dict d' = Ok g' -> same_spec g g' -> near_grid a' a.
  Proof using K1 K2 py_str.
    intros M M' E E' SP. destruct (means_reading _ _ _ M) as (_ & _ & B & _), (means_reading _ _ _ M') as (_ & N' & B' & _).
    pose proof (describes_same g g' a SP (means_of _ _ _ _ M E)) as D. pose proof (means_of _ _ _ _ M' E') as D'.
    destruct (GridDecide.decide py_str key_order fuel d' d' g' g' a' a' N' N' E' E' K1 K2 D' D' B' B') as (r & Q & T & _).
    destruct (GridDecide.decide py_str key_order fuel d' d' g' g' a' a N' N' E' E' K1 K2 D' D B' B) as (r' & Q' & _ & U). rewrite Q in Q'. injection Q' as <-. apply U, T, same_refl.
  Qed.
  Lemma local_only path H di do a0 b0 m : Forall asks_inventories H -> asked_only_here path H a0 b0 m -> means di a0 -> means do b0 ->
    forall gi go, IndexSpec.request di do gi go -> call_asked_only path H gi go m.
  Proof using K1 K2 py_str.
    intros AS OH MA MB gi go [G1 G2] d p v di' do' gi' go' I K [G1' G2'] S1 S2. rewrite Forall_forall in AS. destruct (AS d I p v di' do' m K) as (_ & a & b & MA' & MB').
    apply (OH d p v di' do' a b I K MA' MB'); [exact (means_same di di' a0 a gi gi' MA MA' G1 G1' S1)|exact (means_same do do' b0 b go go' MB MB' G2 G2' S2)].
  Qed.
  Lemma local_call x path l values di do m a b : is_inventory path l -> names_db (VStr path) (FromPath path) -> means di a -> means do b ->
    asks_inventories (PArray x values (Some di) (Some do) (VStr m) (VStr "precomputed") [("inventory", VStr path)]).
  Proof.
    intros IV ND MA MB p v di' do' m' K. inversion K as [? ? ? ? ? ? ? (w & L & N)| | | |]; subst. cbn [alookup] in L. rewrite String.eqb_refl in L. injection L as <-.
    apply names_get in N. apply names_get in ND. rewrite ND in N. injection N as <-. eauto 6.
  Qed.

  (** What an answered request gives: the weights of an entry of index.json, from the file of that entry;
      its method is the one asked for, its grids may be the ones asked for, and no entry before it
      certainly has these grids and this method. *)
  Definition answered_here path l a0 b0 m values r : Prop :=
    exists pre q post z n, l = pre ++ q :: post /\ perhaps fuel a0 b0 m q /\ Forall (fun q => ~ surely fuel a0 b0 m q) pre /\ provides path q z n /\ applies zero add mul z n values r.
  Definition clash H di do m : Prop := exists gi go, IndexSpec.request di do gi go /\ call_collides H gi go m.

  (** An answered call of regrid for arrays. *)
  Theorem C127_array c H0 H x path l values di do a0 b0 m r g :
    is_inventory path l -> proper_files -> names_db (VStr path) (FromPath path) ->
    cleared H0 -> known_else (H0 ++ H) -> Forall asks_inventories (H0 ++ H) -> asked_only_here path H a0 b0 m -> means di a0 -> means do b0 ->
    snd (array_regrid x values (Some di) (Some do) (VStr m) (VStr "precomputed") [("inventory", VStr path)] (pafter (sys_init c) (H0 ++ H))) = Ok (r, g) ->
    g = do /\ (clash H di do m \/ answered_here path l a0 b0 m values r).
  Proof using K1 K2 FT.
    intros IV PF ND CL KE AS OH MA MB R. set (cl := PArray (S := S) (field := field) x values (Some di) (Some do) (VStr m) (VStr "precomputed") [("inventory", VStr path)]).
    assert (AS' : Forall asks_inventories (H0 ++ H ++ [cl])) by (rewrite app_assoc; apply Forall_app; split; [exact AS|]; constructor; [exact (local_call x path l values di do m a0 b0 IV ND MA MB)|constructor]).
    assert (AH : Forall asks_inventories H) by (apply Forall_app in AS; apply AS).
    destruct (C101_array_partial zero add mul memory_of sha float_text py_str key_order fuel files mir_array mir_grib field_values field_grid field_with field_message message_field
      c H0 H x path values di do m r g FT PF CL KE (local_all_sound _ AS') (local_only path H di do a0 b0 m AH OH MA MB) ND R) as (-> & gi & go & RQ & [C|(z & sh & n & WF & IS & AP)]); (split; [reflexivity|]); [left; exists gi, go; auto|right].
    destruct (here_entry path l IV di do a0 b0 m MA MB gi go z sh n RQ WF IS) as (pre & q & post & EL & PQ & NS & OF). exists pre, q, post, z, n. auto 8.
  Qed.

  (** The same for fields: each is answered so; the output grid in the new metadata is the completed
      dictionary; it is regular. *)
  Theorem C127_fields c H0 H x path l fs g gs b0 m d :
    forall cl, cl = PRegrid x (DFields fs) (Some g) (VStr m) (VStr "precomputed") [("inventory", VStr path)] ->
    is_inventory path l -> proper_files -> names_db (VStr path) (FromPath path) ->
    cleared H0 -> known_else (H0 ++ H) -> Forall asks_inventories (H0 ++ H ++ [cl]) -> (forall f v di a0, In f fs -> of_field field_values field_grid f None v di -> means di a0 -> asked_only_here path H a0 b0 m) -> for_grid fuel g b0 -> from_dict g = Ok gs ->
    snd (regrid_call x (DFields fs) (Some g) (VStr m) (VStr "precomputed") [("inventory", VStr path)] (pafter (sys_init c) (H0 ++ H))) = Ok d ->
    (exists dx dy n w s e dec, geometry b0 = LatLon dx dy n w s e dec) /\
    exists rs, d = DFields rs /\
      Forall2 (fun f f' => exists v di u a0, of_field field_values field_grid f None v di /\ means di a0 /\ field_with f u (gd gs) = Ok f' /\
        (clash (H ++ [cl]) di (gd gs) m \/ answered_here path l a0 b0 m v u)) fs rs.
  Proof using K1 K2 FT.
    intros cl Ecl IV PF ND CL KE AS OH MB GS R. subst cl. set (cl := PRegrid x (DFields fs) (Some g) (VStr m) (VStr "precomputed") [("inventory", VStr path)]) in *.
    assert (AH : Forall asks_inventories H) by (apply Forall_app in AS; destruct AS as [_ AS]; apply Forall_app in AS; apply AS).
    assert (MG : means (gd gs) b0) by (exists g; split; [exact MB|right; eauto]).
    assert (IC : In cl (H0 ++ H ++ [cl])) by (apply in_or_app; right; apply in_or_app; right; left; reflexivity).
    assert (DF : forall f v di, In f fs -> of_field field_values field_grid f None v di -> exists a0, means di a0).
    { intros f v di I OF. rewrite Forall_forall in AS. destruct (AS cl IC path v di (gd gs) m) as (_ & a0 & _ & MA & _); [|eauto]. apply (a_fields field_values field_grid x fs f v di g gs m _ path I OF GS). exists (VStr path). split; [reflexivity|exact ND]. }
    assert (ON : forall f v di, In f fs -> of_field field_values field_grid f None v di -> forall gi go, IndexSpec.request di (gd gs) gi go -> call_asked_only path H gi go m).
    { intros f v di I OF. destruct (DF f v di I OF) as (a0 & MA). exact (local_only path H di (gd gs) a0 b0 m AH (OH f v di a0 I OF MA) MA MG). }
    destruct (C101_fields_partial zero add mul memory_of sha float_text py_str key_order fuel files mir_array mir_grib field_values field_grid field_with field_message message_field
      c H0 H x path fs g gs m d FT PF CL KE (local_all_sound _ AS) ND GS ON R) as (LL & rs & -> & F2).
    split.
    - pose proof (dg_geometry _ _ (reading_of g b0 gs (proj1 (proj2 MB)) GS)) as D. unfold is_regular_ll in LL. destruct (geometry b0) as [[] nm o|dx dy n w s e dec|nm dx n w s e dec]; cbn in D; [| |eauto 10|].
      + destruct D as (_ & CC & _). rewrite CC in LL. discriminate LL.
      + destruct D as (_ & CC & _). rewrite CC in LL. discriminate LL.
      + destruct D as (CC & _). rewrite CC in LL. discriminate LL.
    - exists rs. split; [reflexivity|]. refine (Forall2_in_impl _ _ _ _ _ F2). intros f f' I (v & di & u & OF & FW & gi & go & RQ & K).
      destruct (DF f v di I OF) as (a0 & MA).
      exists v, di, u, a0. split; [exact OF|]. split; [exact MA|]. split; [exact FW|].
      destruct K as [C|(z & sh & n & WF & IS & AP)]; [left; exists gi, go; auto|right].
      destruct (here_entry path l IV di (gd gs) a0 b0 m MA MG gi go z sh n RQ WF IS) as (pre & q & post & EL & PQ & NS & OFF). exists pre, q, post, z, n. auto 8.
  Qed.

  (** If an entry certainly has the grids and the method asked for, none before it may, and the sizes
      fit: answered with its weights (unless they are too large for a strict memory cache). *)
  Theorem C127_answered c H0 H x path l pre q post values di do a0 b0 m z n :
    is_inventory path l -> proper_files -> names_db (VStr path) (FromPath path) ->
    cleared H0 -> settings_taken c (H0 ++ H) -> Forall asks_inventories (H0 ++ H) -> asked_only_here path H a0 b0 m -> means di a0 -> means do b0 ->
    l = pre ++ q :: post -> surely fuel a0 b0 m q -> Forall (fun q => ~ perhaps fuel a0 b0 m q) pre -> provides path q z n ->
    prod (shape values) = n_cols z -> prod n = n_rows z ->
    (exists r, snd (array_regrid x values (Some di) (Some do) (VStr m) (VStr "precomputed") [("inventory", VStr path)] (pafter (sys_init c) (H0 ++ H))) = Ok (r, do) /\ applies zero add mul z n values r) \/
    (snd (array_regrid x values (Some di) (Some do) (VStr m) (VStr "precomputed") [("inventory", VStr path)] (pafter (sys_init c) (H0 ++ H))) = Raise WeightsTooLarge /\ strict (y_mem (p_sys (pafter (sys_init c) (H0 ++ H)))) = true) \/
    clash H di do m.
  Proof using K1 K2 FT.
    intros IV PF ND CL ST AS OH MA MB EL SQ NP OF E1 E2.
    pose proof (taken_ginv c (H0 ++ H) ST) as GV. destruct (trace2 zero add mul memory_of sha float_text py_str key_order fuel files mir_array mir_grib field_values field_grid field_with field_message message_field c H0 H CL (taken_known c _ ST)) as (h0 & h & PS & FG & A0 & A1 & F).
    destruct (means_reading _ _ _ MA) as (_ & _ & _ & gi & G1 & _), (means_reading _ _ _ MB) as (_ & _ & _ & go & G2 & _).
    apply Forall_app in AS. destruct AS as [AS0 AS1].
    assert (SO : Forall sound (h0 ++ h ++ [Call path values di do m])).
    { rewrite !Forall_app. split; [|split].
      - exact (Props_ApiLocal.asked_sound py_str key_order fuel files field_values field_grid H0 h0 (local_all_sound H0 AS0) A0).
      - exact (Props_ApiLocal.asked_sound py_str key_order fuel files field_values field_grid H h (local_all_sound H AS1) A1).
      - constructor; [exact (local_sound path l IV values di do m a0 b0 MA MB)|constructor]. }
    assert (IS : is_shape (VList (map VInt (map Z.of_nat n))) n) by (right; left; rewrite map_map; reflexivity).
    destruct (pafter (sys_init c) (H0 ++ H)) as [y mk] eqn:PA. cbn [p_sys p_maker] in *.
    destruct (array_direct zero add mul lfind mir_array x (FromPath path) values di do (VStr m) [("inventory", VStr path)] (oi_some _ _ _ ND) y mk mk F F) as (_ & _ & _ & R).
    unfold direct in R. cbn [p_sys local_find] in R. rewrite PS in GV.
    pose proof (answered_good zero add mul memory_of sha float_text py_str key_order fuel files c h0 h path values di do m gi go z _ n FT PF FG SO GV (conj G1 G2)
      (asked_asked_only field_values field_grid H h path gi go m A1 (local_only path H di do a0 b0 m AS1 OH MA MB gi go (conj G1 G2))) (entry_here path l IV di do a0 b0 m MA MB gi go pre q post z n (conj G1 G2) EL SQ NP OF) IS E1 E2) as O.
    rewrite <- PS in O. unfold System.sys_regrid in O. destruct (System.db_find _ _ _ _ _ _ _ path di do m y) as [y' found]. cbn [snd fst] in *.
    destruct O as [(r & Q & AP)|[[Q [T _]]|C]].
    - left. exists r. split; [|exact AP]. rewrite Q in R. destruct (snd _) in *; cbn in R; congruence || contradiction.
    - right. left. split; [|exact T]. rewrite Q in R. destruct (snd _) in *; cbn in R; congruence || contradiction.
    - right. right. exists gi, go. split; [split; assumption|]. exact (asked_collides sha float_text field_values field_grid H h gi go m A1 C).
  Qed.
  (** If no entry may have the grids and the method asked for, ValueError. *)
  Theorem C127_refused c H0 H x path l values di do a0 b0 m :
    is_inventory path l -> names_db (VStr path) (FromPath path) ->
    cleared H0 -> known_else (H0 ++ H) -> Forall asks_inventories (H0 ++ H) -> asked_only_here path H a0 b0 m -> means di a0 -> means do b0 ->
    Forall (fun q => ~ perhaps fuel a0 b0 m q) l ->
    snd (array_regrid x values (Some di) (Some do) (VStr m) (VStr "precomputed") [("inventory", VStr path)] (pafter (sys_init c) (H0 ++ H))) = Raise ValueError \/ clash H di do m.
  Proof using K1 K2 FT.
    intros IV ND CL KE AS OH MA MB NP. set (cl := PArray (S := S) (field := field) x values (Some di) (Some do) (VStr m) (VStr "precomputed") [("inventory", VStr path)]).
    destruct (means_reading _ _ _ MA) as (_ & _ & _ & gi & G1 & _), (means_reading _ _ _ MB) as (_ & _ & _ & go & G2 & _).
    assert (AS' : Forall asks_inventories (H0 ++ H ++ [cl])) by (rewrite app_assoc; apply Forall_app; split; [exact AS|]; constructor; [exact (local_call x path l values di do m a0 b0 IV ND MA MB)|constructor]).
    assert (AH : Forall asks_inventories H) by (apply Forall_app in AS; apply AS).
    destruct (C101_refused_partial zero add mul memory_of sha float_text py_str key_order fuel files mir_array mir_grib field_values field_grid field_with field_message message_field
      c H0 H x path values di do m gi go FT CL KE (local_all_sound _ AS') (conj G1 G2) (local_only path H di do a0 b0 m AH OH MA MB gi go (conj G1 G2)) ND (none_here path l IV di do a0 b0 m MA MB gi go (conj G1 G2) NP)) as [R|C];
      [left; exact R|right; exists gi, go; split; [split; assumption|exact C]].
  Qed.

  (** The older function interpolate() with arrays: the same values. *)
  Theorem C127_interpolate c H0 H x path l values di do a0 b0 m d :
    is_inventory path l -> proper_files -> names_db (VStr path) (FromPath path) ->
    cleared H0 -> known_else (H0 ++ H) -> Forall asks_inventories (H0 ++ H) -> asked_only_here path H a0 b0 m -> means di a0 -> means do b0 ->
    snd (interpolate_call x (DArray values) (Some di) (Some do) (VStr m) [("matrix_source", VStr path)] (pafter (sys_init c) (H0 ++ H))) = Ok d ->
    exists r, d = DArray r /\ (clash H di do m \/ answered_here path l a0 b0 m values r).
  Proof using K1 K2 FT.
    intros IV PF ND CL KE AS OH MA MB R.
    destruct (C100_array zero add mul lfind mir_array mir_grib field_values field_grid field_with field_message message_field (sys_init c) (H0 ++ H) x values (Some di) (Some do) (VStr m) _ _ (ss_some (VStr path) ltac:(discriminate))) as [_ Q].
    rewrite R in Q. destruct (snd (array_regrid _ _ _ _ _ _ _ _)) as [[r g]|e|] eqn:E; [|discriminate Q..]. cbn in Q. injection Q as ->. exists r. split; [reflexivity|].
    apply (C127_array c H0 H x path l values di do a0 b0 m r g IV PF ND CL KE AS OH MA MB E).
  Qed.
End Any.

(** ** The hypotheses are met by the inventories of Props_ApiLocal.v *)
Lemma here_inventory p : p = "a" \/ p = "b" -> is_inventory 10 ll_files p net_list.
Proof.
  intros P. constructor.
  - destruct P as [->| ->]; reflexivity.
  - destruct P as [->| ->]; [exists "", "a"%char|exists "", "b"%char]; (split; [reflexivity|discriminate]).
  - cbn. repeat constructor. intros [].
  - intros n r [E|[]]; injection E as <- <-; do 4 eexists; exact net_lists.
Qed.
Lemma here_means : means 10 demo_out (end_b None) /\ means 10 ll_out (end_ll None) /\ means 10 (gd ll_gs) (end_ll None).
Proof.
  split; [exists demo_out; split; [exact net_reads_in|left; reflexivity]|]. split; exists ll_out; (split; [exact net_reads_out|]); [left; reflexivity|right]. exists ll_gs. split; vm_compute; reflexivity.
Qed.
Lemma here_asking p : p = "a" \/ p = "b" -> asks_inventories ll_values ll_grid 10 ll_files (ll_asking p).
Proof.
  intros P p' v di do m K. destruct (ll_asks p _ P K) as (w & E). injection E as -> -> -> -> ->. split; [exists net_list; exact (here_inventory p P)|].
  exists (end_b None), (end_ll None). destruct here_means as (M1 & _ & M2). auto.
Qed.
(** The inventory "b" is asked, the memory cache is cleared, the inventory "a" is asked twice. *)
Example C127_met :
  is_inventory 10 ll_files "a" net_list /\ proper_files ll_files /\ names_db (VStr "a") (FromPath "a") /\
  Props_ApiLocal.cleared 0 Z.add Z.mul (fun x : Z => x) (fun s => s) demo_text demo_py COMPARE_KEYS 10 ll_files ll_history /\
  settings_taken 0 Z.add Z.mul (fun x : Z => x) (fun s => s) demo_text demo_py COMPARE_KEYS 10 ll_files ll_mir ll_grib ll_values ll_grid ll_with ll_message ll_of_message (mkConf (Some 1000000) false "largest") (ll_history ++ [ll_asking "a"]) /\
  Forall (asks_inventories ll_values ll_grid 10 ll_files) (ll_history ++ [ll_asking "a"] ++ [ll_asking "a"]) /\
  (forall a0 b0 m, asked_only_here ll_values ll_grid 10 "a" [ll_asking "a"] a0 b0 m) /\
  means 10 demo_out (end_b None) /\ for_grid 10 ll_out (end_ll None) /\
  surely 10 (end_b None) (end_ll None) "linear" ("w", ll_raw) /\ ~ perhaps 10 (end_b None) (end_ll None) "nn" ("w", ll_raw) /\ provides 10 ll_files "a" ("w", ll_raw) matrix_a [2%nat].
Proof.
  split; [apply here_inventory; auto|]. split; [exact ll_proper|]. split; [apply ll_path; auto|].
  split; [right; exists [ll_asking "b"], ll_clear; split; reflexivity|].
  split. { split; [reflexivity|]. intros pre f post E. left. assert (I : In (PElse f) (ll_history ++ [ll_asking "a"])) by (rewrite E; apply in_or_app; right; left; reflexivity). cbn in I. destruct I as [I|[I|[I|[]]]]; try discriminate I. injection I as <-. reflexivity. }
  split. { repeat (apply Forall_cons; [first [apply here_asking; solve [auto]|intros p v di do m K; inversion K]|]). apply Forall_nil. }
  split. { intros a0 b0 m d p v di do a b [<-|[]] K _ _ _ _. destruct (ll_asks "a" _ (or_introl eq_refl) K) as (w & E). congruence. }
  split; [apply here_means|]. split; [exact net_reads_out|]. split; [exact net_surely|].
  split. { intros (a & b & m' & p & LS & KM & _). destruct LS as [_ _ (en & ve & how & EI & HM & _)]. cbn in EI. injection EI as <- <- <-. destruct HM as [HM|HM]; [injection HM as <-|discriminate HM].
    destruct KM as [[_ E]|(E & _)]; [discriminate E|exact (E eq_refl)]. }
  exists (end_b None), (end_ll (Some [2])), "linear", "mir_16_linear/w.npz". split; [exact net_lists|]. split; reflexivity.
Qed.
(** And these are the results: the values of the array, ... *)
Theorem C127_example : exists r,
  snd (ll_array tt demo_values (Some demo_out) (Some ll_out) (VStr "linear") (VStr "precomputed") [("inventory", VStr "a")] (ll_after (ll_history ++ [ll_asking "a"]))) = Ok (r, ll_out) /\
  applies 0 Z.add Z.mul matrix_a [2%nat] demo_values r.
Proof.
  destruct C127_met as (IV & PF & ND & CL & ST & AS & OH & MA & MB & SU & _ & OF). rewrite app_assoc in AS. apply Forall_app in AS. destruct AS as [AS _].
  destruct (C127_answered 0 Z.add Z.mul (fun x : Z => x) (fun s => s) demo_text demo_py COMPARE_KEYS 10 ll_files ll_mir ll_grib ll_values ll_grid ll_with ll_message ll_of_message (incl_refl _) (incl_refl _) demo_texts
      (mkConf (Some 1000000) false "largest") ll_history [ll_asking "a"] tt "a" net_list [] ("w", ll_raw) [] demo_values demo_out ll_out (end_b None) (end_ll None) "linear" matrix_a [2%nat]
      IV PF ND CL ST AS (OH _ _ _) MA (proj1 (proj2 here_means)) eq_refl SU (Forall_nil _) OF eq_refl eq_refl) as [R|[[R _]|C]].
  - exact R.
  - exfalso. vm_compute in R. discriminate R.
  - exfalso. destruct C as (gi & go & _ & d & p & v & di & do & m' & gi' & go' & _ & _ & _ & NE & E). exact (NE E).
Qed.
(** ... the refusal of another method, and the values of fields. *)
Example C127_refused_met : snd (ll_array tt demo_values (Some demo_out) (Some ll_out) (VStr "nn") (VStr "precomputed") [("inventory", VStr "a")] (ll_after (ll_history ++ [ll_asking "a"]))) = Raise ValueError.
Proof. vm_compute. reflexivity. Qed.
Example C127_fields_met : exists r r',
  snd (ll_regrid tt (DFields [ll_one; ll_two]) (Some ll_out) (VStr "linear") (VStr "precomputed") [("inventory", VStr "a")] (ll_after (ll_history ++ [ll_asking "a"]))) = Ok (DFields [r; r']).
Proof. do 2 eexists. vm_compute. reflexivity. Qed.
Example C127_interpolate_met : exists r,
  snd (interpolate_call 0 Z.add Z.mul ll_find ll_values ll_grid ll_with tt (DArray demo_values) (Some demo_out) (Some ll_out) (VStr "linear") [("matrix_source", VStr "a")] (ll_after (ll_history ++ [ll_asking "a"]))) = Ok (DArray r) /\
  map (Regrid.item r) [[0%nat]; [1%nat]] = [7; 11].
Proof. eexists. split; vm_compute; reflexivity. Qed.

Print Assumptions C127_array.
Print Assumptions C127_fields.
Print Assumptions C127_answered.
Print Assumptions C127_refused.
Print Assumptions C127_interpolate.
Print Assumptions C127_example.
