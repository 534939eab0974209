(** C92: whole calls of [regrid] with precomputed weights of local inventories. *)
From Coq Require Import QArith Qcanon.
From Verif Require Import PyBase ListLemmas PyStr Float64 GridSpec GridVocab Index IndexSpec Db MemCache MemCacheProofs MemCacheProofs2
  Key KeySpec KeyProofs Props_Key Inventory Regrid RegridSpec RegridProofs Props_Regrid System SystemSpec SystemProofs.
Set Default Proof Using "Type".
Local Open Scope string_scope.
Local Open Scope list_scope.
Local Open Scope Z_scope.

Section Any.
  Context {A rest : Type}.
  Variables (zero : A) (add mul : A -> A -> A).
  Variable memory_of : rest -> Z.
  Variable sha : string -> string.
  Variable float_text : f64 -> string.
  Variables (py_str : val -> string) (key_order : list string) (fuel : nat).
  Variable files : fs rest (csr A).
  Notation regrid_call := (sys_regrid zero add mul memory_of sha float_text py_str key_order fuel files).
  Notation sys_after := (sys_after zero add mul memory_of sha float_text py_str key_order fuel files).
  Notation weights_for := (weights_for py_str key_order fuel files).
  Notation no_weights_for := (no_weights_for py_str key_order fuel files).
  Notation sound := (sound py_str key_order fuel files).
  Notation proper_files := (@proper_files A rest files).
  Notation configured := (configured py_str key_order fuel files zero add mul memory_of sha float_text).
  Implicit Types (h : list (sop A)) (values r : array A).

  Lemma regrid_from_ok found values (g : dict) r g' : regrid_from zero add mul found values g = Ok (r, g') ->
    exists z sh n, found = Ok (Some (z, sh)) /\ as_shape sh = Ok n /\ regrid zero add mul (Ok (Some (z, n))) values g = Ok (r, g').
  Proof.
    unfold regrid_from, regrid. destruct found as [[[z sh]|]|x|]; try discriminate. cbn [bind]. intros H. exists z, sh.
    destruct (matmul zero add mul z (reshape_column zero values)) as [x|y|]; try discriminate H. cbn [bind] in *.
    destruct (as_shape sh) as [n|y|]; try discriminate H. cbn [bind] in H. exists n. auto.
  Qed.
  Lemma regrid_applies z n values (g : dict) r g' : proper_csr z -> regrid zero add mul (Ok (Some (z, n))) values g = Ok (r, g') -> g' = g /\ applies zero add mul z n values r.
  Proof.
    intros P H. destruct (C38_returns zero add mul _ _ _ _ _ H) as (-> & z0 & n0 & E & E1 & E2). injection E as <- <-. split; [reflexivity|].
    destruct (C36_computed zero add mul z n values g P E1 E2) as (r' & H' & S & I). rewrite H in H'. injection H' as <-. exact (conj E1 (conj E2 (conj S I))).
  Qed.

  (** Where the weights of an answered call come from: from the first answering entry of the
      inventory of this call, or of an earlier call for the same grids and method, unless the
      hash of another request collides. *)
  Theorem C92_origin c h0 h path values di do m r g :
    float_texts float_text -> proper_files -> forgotten h0 -> Forall sound (h0 ++ h ++ [Call path values di do m]) ->
    snd (regrid_call path values di do m (sys_after c (h0 ++ h))) = Ok (r, g) ->
    g = do /\ exists gi go z sh n, IndexSpec.request di do gi go /\ is_shape sh n /\ applies zero add mul z n values r /\
      (collides sha float_text h gi go m \/
       exists path' values' di' do' gi' go', In (Call path' values' di' do' m) (h ++ [Call path values di do m]) /\
         IndexSpec.request di' do' gi' go' /\ same_spec gi gi' /\ same_spec go go' /\ weights_for path' gi' go' m z sh).
  Proof.
    intros FT PF FG SO H. pose proof SO as S1. rewrite app_assoc in S1. apply Forall_app in S1. destruct S1 as [S1 S2]. inversion S2 as [|? ? SC _]; subst. apply Forall_app in SO. destruct SO as [_ SO].
    pose proof (after_sys zero add mul memory_of sha float_text py_str key_order fuel files c h0 h FG S1) as HS.
    unfold sys_regrid in H. destruct (db_find memory_of sha float_text py_str key_order fuel files path di do m (sys_after c (h0 ++ h))) as [s' x] eqn:E. cbn [snd] in H.
    apply regrid_from_ok in H. destruct H as (z & sh & n & -> & SH & H). apply shape_spec in SH.
    destruct (find_spec memory_of sha float_text py_str key_order fuel files h _ path values di do m s' _ HS SC E) as (_ & K & _).
    destruct (K _ eq_refl) as (gi & go & RQ & path' & values' & di' & do' & m' & gi' & go' & I & RQ' & KE & WF). cbn [fst snd] in WF.
    assert (P : proper_csr z). { destruct WF as (i & pre & nm & e & post & p & _ & _ & _ & _ & _ & LZ & _). exact (PF _ _ LZ). }
    destruct (regrid_applies z n values do r g P H) as [-> AP]. split; [reflexivity|]. exists gi, go, z, sh, n. split; [exact RQ|]. split; [exact SH|]. split; [exact AP|].
    assert (SC' : sound (Call path' values' di' do' m')). { rewrite Forall_forall in SO. exact (SO _ I). }
    destruct SC as (P1 & P2 & _), SC' as (P3 & P4 & _).
    destruct (key_spec sha float_text FT di do di' do' gi go gi' go' m m' P1 P2 P3 P4 RQ RQ' (eq_sym KE)) as [(SI & SG & ->)|[NE CO]].
    - right. exists path', values', di', do', gi', go'. auto.
    - left. exists path', values', di', do', m', gi', go'. split; [|exact (conj RQ' (conj NE CO))]. apply in_app_or in I. destruct I as [I|[I|[]]]; [exact I|].
      exfalso. injection I as <- <- <- <- <-. destruct RQ as [R1 R2], RQ' as [R3 R4]. apply NE. congruence.
  Qed.

  (** An answered call returns the given output grid, and the values with the weights of the first
      answering entry of its inventory applied, if the same request went to no other inventory. *)
  Theorem C92_end_to_end_partial c h0 h path values di do m r g :
    float_texts float_text -> proper_files -> forgotten h0 -> Forall sound (h0 ++ h ++ [Call path values di do m]) ->
    (forall gi go, IndexSpec.request di do gi go -> asked_only path h gi go m) ->
    snd (regrid_call path values di do m (sys_after c (h0 ++ h))) = Ok (r, g) ->
    g = do /\ exists gi go, IndexSpec.request di do gi go /\
      (collides sha float_text h gi go m \/
       exists z sh n, weights_for path gi go m z sh /\ is_shape sh n /\ applies zero add mul z n values r).
  Proof.
    intros FT PF FG SO AO H. destruct (C92_origin c h0 h path values di do m r g FT PF FG SO H) as (-> & gi & go & z & sh & n & RQ & SH & AP & [C|O]);
      (split; [reflexivity|]; exists gi, go; split; [exact RQ|]); [left; exact C|right]. exists z, sh, n. split; [|split; [exact SH|exact AP]].
    destruct O as (path' & values' & di' & do' & gi' & go' & I & RQ' & SI & SG & WF).
    assert (path' = path) as ->. { apply in_app_or in I. destruct I as [I|[I|[]]]; [exact (AO gi go RQ path' values' di' do' gi' go' I RQ' SI SG)|]. injection I as <- <- <- <-. reflexivity. }
    refine (weights_same py_str key_order fuel files path gi' go' gi go m z sh _ _ WF).
    - exact (same_result_sym (Ok gi) (Ok gi') SI).
    - exact (same_result_sym (Ok go) (Ok go') SG).
  Qed.

  Lemma answered_good c h0 h path values di do m gi go z sh n :
    float_texts float_text -> proper_files -> forgotten h0 -> Forall sound (h0 ++ h ++ [Call path values di do m]) -> GInv (weights A) (y_mem (sys_after c (h0 ++ h))) ->
    IndexSpec.request di do gi go -> asked_only path h gi go m ->
    weights_for path gi go m z sh -> is_shape sh n -> prod (shape values) = n_cols z -> prod n = n_rows z ->
    (exists r, snd (regrid_call path values di do m (sys_after c (h0 ++ h))) = Ok (r, do) /\ applies zero add mul z n values r) \/
    (snd (regrid_call path values di do m (sys_after c (h0 ++ h))) = Raise WeightsTooLarge /\
     too_large py_str key_order fuel files memory_of path gi go m (y_mem (sys_after c (h0 ++ h)))) \/
    collides sha float_text h gi go m.
  Proof.
    intros FT PF FG SO G RQ AO WF SH E1 E2. pose proof SO as S1. rewrite app_assoc in S1. apply Forall_app in S1. destruct S1 as [S1 S2]. inversion S2 as [|? ? SC _]; subst. apply Forall_app in SO. destruct SO as [_ SO].
    pose proof (after_sys zero add mul memory_of sha float_text py_str key_order fuel files c h0 h FG S1) as HS.
    unfold sys_regrid. destruct (db_find memory_of sha float_text py_str key_order fuel files path di do m (sys_after c (h0 ++ h))) as [s' x] eqn:E. cbn [snd].
    destruct (find_failures memory_of sha float_text py_str key_order fuel files path di do m _ s' x gi go G (proj1 (proj2 HS) path) RQ SC E z sh WF) as [([z' sh'] & ->)|[-> TL]].
    2:{ right. left. split; [reflexivity|exact TL]. }
    destruct (find_spec memory_of sha float_text py_str key_order fuel files h _ path values di do m s' _ HS SC E) as (_ & K & _).
    destruct (K _ eq_refl) as (gi0 & go0 & RQ0 & path' & values' & di' & do' & m' & gi' & go' & I & RQ' & KE & WF'). cbn [fst snd] in WF'.
    assert (gi0 = gi /\ go0 = go) as [-> ->]. { destruct RQ as [R1 R2], RQ0 as [R3 R4]. rewrite R1 in R3. rewrite R2 in R4. injection R3 as <-. injection R4 as <-. auto. }
    assert (SC' : sound (Call path' values' di' do' m')). { rewrite Forall_forall in SO. exact (SO _ I). }
    destruct SC as (P1 & P2 & _), SC' as (P3 & P4 & _).
    destruct (key_spec sha float_text FT di do di' do' gi go gi' go' m m' P1 P2 P3 P4 RQ RQ' (eq_sym KE)) as [(SI & SG & <-)|[NE CO]].
    - left. assert (path' = path) as ->. { apply in_app_or in I. destruct I as [I|[I|[]]]; [exact (AO path' values' di' do' gi' go' I RQ' SI SG)|]. injection I as <- <- <- <-. reflexivity. }
      assert (WF2 : weights_for path gi go m z' sh').
      { refine (weights_same py_str key_order fuel files path gi' go' gi go m z' sh' _ _ WF'); [exact (same_result_sym (Ok gi) (Ok gi') SI)|exact (same_result_sym (Ok go) (Ok go') SG)]. }
      destruct (weights_unique py_str key_order fuel files path gi go m z sh z' sh' WF WF2) as [<- <-].
      assert (P : proper_csr z). { destruct WF as (i & pre & nm & e & post & p & _ & _ & _ & _ & _ & LZ & _). exact (PF _ _ LZ). }
      destruct (C36_computed zero add mul z n values do P E1 E2) as (r & R & S & IT). exists r. split; [|exact (conj E1 (conj E2 (conj S IT)))].
      unfold regrid_from. unfold regrid in R. cbn [bind] in *. destruct (matmul zero add mul z (reshape_column zero values)); try discriminate R. cbn [bind] in *. apply shape_spec in SH. rewrite SH. exact R.
    - right. right. exists path', values', di', do', m', gi', go'. split; [|exact (conj RQ' (conj NE CO))]. apply in_app_or in I. destruct I as [I|[I|[]]]; [exact I|].
      exfalso. injection I as <- <- <- <- <-. destruct RQ as [R1 R2], RQ' as [R3 R4]. apply NE. congruence.
  Qed.

  (** If an entry of the inventory answers and the sizes agree, the call is answered. *)
  Theorem C92_answered_partial c h0 h path values di do m gi go z sh n :
    float_texts float_text -> proper_files -> forgotten h0 -> Forall sound (h0 ++ h ++ [Call path values di do m]) -> configured c (h0 ++ h) ->
    IndexSpec.request di do gi go -> asked_only path h gi go m ->
    weights_for path gi go m z sh -> is_shape sh n -> prod (shape values) = n_cols z -> prod n = n_rows z ->
    (exists r, snd (regrid_call path values di do m (sys_after c (h0 ++ h))) = Ok (r, do) /\ applies zero add mul z n values r) \/
    (snd (regrid_call path values di do m (sys_after c (h0 ++ h))) = Raise WeightsTooLarge /\
     too_large py_str key_order fuel files memory_of path gi go m (y_mem (sys_after c (h0 ++ h)))) \/
    collides sha float_text h gi go m.
  Proof.
    intros FT PF FG SO CF. exact (answered_good c h0 h path values di do m gi go z sh n FT PF FG SO (configured_ginv zero add mul memory_of sha float_text py_str key_order fuel files c (h0 ++ h) CF)).
  Qed.

  (** If no entry answers, the call is refused with ValueError. *)
  Theorem C92_refused_partial c h0 h path values di do m gi go :
    float_texts float_text -> forgotten h0 -> Forall sound (h0 ++ h ++ [Call path values di do m]) ->
    IndexSpec.request di do gi go -> asked_only path h gi go m -> no_weights_for path gi go m ->
    snd (regrid_call path values di do m (sys_after c (h0 ++ h))) = Raise ValueError \/ collides sha float_text h gi go m.
  Proof.
    intros FT FG SO RQ AO NW. pose proof SO as S1. rewrite app_assoc in S1. apply Forall_app in S1. destruct S1 as [S1 S2]. inversion S2 as [|? ? SC _]; subst. apply Forall_app in SO. destruct SO as [_ SO].
    pose proof (after_sys zero add mul memory_of sha float_text py_str key_order fuel files c h0 h FG S1) as HS.
    unfold sys_regrid. destruct (db_find memory_of sha float_text py_str key_order fuel files path di do m (sys_after c (h0 ++ h))) as [s' x] eqn:E. cbn [snd].
    destruct (find_spec memory_of sha float_text py_str key_order fuel files h _ path values di do m s' _ HS SC E) as (_ & K & _ & Z).
    destruct (Z gi go RQ NW) as [->|(w & ->)]; [left; reflexivity|right].
    destruct (K _ eq_refl) as (gi0 & go0 & RQ0 & path' & values' & di' & do' & m' & gi' & go' & I & RQ' & KE & WF').
    assert (gi0 = gi /\ go0 = go) as [-> ->]. { destruct RQ as [R1 R2], RQ0 as [R3 R4]. rewrite R1 in R3. rewrite R2 in R4. injection R3 as <-. injection R4 as <-. auto. }
    assert (SC' : sound (Call path' values' di' do' m')). { rewrite Forall_forall in SO. exact (SO _ I). }
    destruct SC as (P1 & P2 & _), SC' as (P3 & P4 & _).
    destruct (key_spec sha float_text FT di do di' do' gi go gi' go' m m' P1 P2 P3 P4 RQ RQ' (eq_sym KE)) as [(SI & SG & <-)|[NE CO]].
    - exfalso. assert (path' = path) as ->. { apply in_app_or in I. destruct I as [I|[I|[]]]; [exact (AO path' values' di' do' gi' go' I RQ' SI SG)|]. injection I as <- <- <- <-. reflexivity. }
      refine (weights_none py_str key_order fuel files path gi go m (fst w) (snd w) _ NW).
      refine (weights_same py_str key_order fuel files path gi' go' gi go m _ _ _ _ WF'); [exact (same_result_sym (Ok gi) (Ok gi') SI)|exact (same_result_sym (Ok go) (Ok go') SG)].
    - exists path', values', di', do', m', gi', go'. split; [|exact (conj RQ' (conj NE CO))]. apply in_app_or in I. destruct I as [I|[I|[]]]; [exact I|].
      exfalso. injection I as <- <- <- <- <-. destruct RQ as [R1 R2], RQ' as [R3 R4]. apply NE. congruence.
  Qed.
End Any.

(** ** Exact arithmetic: each point is the sum over the whole input field of matrix element times
    value. *)
Theorem C92_exact (z : csr Qc) n values r idx : proper_csr z -> applies 0%Qc Qcplus Qcmult z n values r -> valid n idx ->
  item r idx = weighted z (offset n idx) values.
Proof.
  intros P (E1 & E2 & _ & I) V. destruct (C36_computed 0%Qc Qcplus Qcmult z n values tt P E1 E2) as (r' & R & _ & I').
  rewrite (I idx V), <- (I' idx V). exact (C36_weighted_sum z n values tt r' tt idx P R V).
Qed.

(** ** A text for floats as supposed *)
Definition demo_text (f : f64) : string :=
  match f with
  | S754_zero false => "0.0"
  | S754_zero true => "-0.0"
  | S754_infinity false => "Infinity"
  | S754_infinity true => "-Infinity"
  | S754_nan => "NaN"
  | S754_finite b m e => (show_Z (if b then Zneg m else Zpos m) ++ "e" ++ show_Z e)%string
  end.
Lemma show_chars z c : In c (chars (show_Z z)) -> is_digit c = true \/ c = "-"%char.
Proof.
  unfold show_Z. destruct (Z.ltb_spec z 0).
  - destruct (show_nonneg_ok (- z) ltac:(lia)) as (X & _ & _). change (chars (String "-" (of_chars (show_nonneg (- z))))) with ("-"%char :: chars (of_chars (show_nonneg (- z)))).
    rewrite chars_of_chars. intros [<-|I]; [right; reflexivity|left]. rewrite Forall_forall in X. exact (X c I).
  - destruct (show_nonneg_ok z ltac:(lia)) as (X & _ & _). rewrite chars_of_chars. intros I. left. rewrite Forall_forall in X. exact (X c I).
Qed.
Lemma show_letter z c : is_digit c = false -> c <> "-"%char -> ~ In c (chars (show_Z z)).
Proof. intros D N I. destruct (show_chars z c I) as [E|E]; [rewrite D in E; discriminate E|exact (N E)]. Qed.
Lemma split_letter {T} (x : T) a b a' b' : ~ In x a -> ~ In x a' -> a ++ x :: b = a' ++ x :: b' -> a = a' /\ b = b'.
Proof.
  revert a'. induction a as [|y a IH]; intros [|y' a'] N N' H; cbn in *.
  - injection H as <-. auto.
  - injection H as <- _. exfalso. apply N'. left. reflexivity.
  - injection H as -> _. exfalso. apply N. left. reflexivity.
  - injection H as <- H. destruct (IH a') as [<- <-]; auto.
Qed.
Lemma demo_chars b m e : chars (demo_text (S754_finite b m e)) = chars (show_Z (if b then Zneg m else Zpos m)) ++ "e"%char :: chars (show_Z e).
Proof. cbn [demo_text]. rewrite !chars_app. reflexivity. Qed.
Lemma demo_texts : float_texts demo_text.
Proof.
  split.
  - intros [[]|[]| |b m e]; try (split; reflexivity).
    destruct (show_num (if b then Zneg m else Zpos m)) as [N S], (show_num e) as [N' _]. unfold num_text. rewrite demo_chars, forallb_app. cbn [forallb]. rewrite N, N'. split; [reflexivity|].
    cbn [demo_text]. destruct (show_Z (if b then Zneg m else Zpos m)) as [|c t]; [contradiction|exact S].
  - assert (E : forall b m e, In "e"%char (chars (demo_text (S754_finite b m e)))) by (intros; rewrite demo_chars; apply in_or_app; right; left; reflexivity).
    assert (X : forall f g, demo_text f = demo_text g -> (exists b m e, f = S754_finite b m e) -> exists b m e, g = S754_finite b m e).
    { intros f g H (b & m & e & ->). pose proof (E b m e) as I. rewrite H in I. destruct g as [[]|[]| |b' m' e']; [| | | | |eauto];
        cbn in I; repeat (destruct I as [I|I]; [discriminate I|]); contradiction I. }
    intros f g _ _ H. destruct f as [fb|fb| |b m e]; [| | |destruct (X _ g H) as (b' & m' & e' & ->); eauto].
    1-3: destruct g as [gb|gb| |b' m' e']; [| | |destruct (X _ _ (eq_sym H)) as (b & m & e & Q); [eauto|discriminate Q]].
    1-9: try destruct fb; try destruct gb; cbn in H; try discriminate H; reflexivity.
    pose proof (f_equal chars H) as C. rewrite !demo_chars in C. apply split_letter in C; [|apply show_letter; [reflexivity|discriminate]..].
    destruct C as [C1 C2]. apply chars_inj in C1, C2. apply show_Z_inj in C1, C2. subst e'. destruct b, b'; try discriminate C1; injection C1 as <-; reflexivity.
  - intros f z H. destruct f as [fb|fb| |b m e].
    + apply (show_letter z "."%char); [reflexivity|discriminate|]. rewrite <- H. destruct fb; cbn; auto.
    + apply (show_letter z "I"%char); [reflexivity|discriminate|]. rewrite <- H. destruct fb; cbn; auto.
    + apply (show_letter z "N"%char); [reflexivity|discriminate|]. rewrite <- H. cbn; auto.
    + apply (show_letter z "e"%char); [reflexivity|discriminate|]. rewrite <- H, demo_chars. apply in_or_app. right. left. reflexivity.
Qed.

(** ** Two inventories with different weights for the same grids *)
Definition demo_inter : interpolation := mkInter (Some "mir") (Some "16") (Some (MName "linear")).
Definition demo_in : dict := [("grid", VList [VInt 1; VInt 1]); ("area", VList [VInt 90; VInt 0; VInt 0; VFloat (lit 21 2)])].
Definition demo_out : dict := [("grid", VStr "O32")].
Definition demo_raw : raw Z := mkRaw (Some demo_in) (Some [("grid", VStr "O32"); ("shape", VList [VInt 2])]) (Some demo_inter) 48.
Definition demo_index : file Z := mkFile (Some 1) (Some [("w", demo_raw)]).
Definition matrix_a : csr Z := mkCsr 2 2 [0; 1; 2]%nat [0; 1]%nat [1; 1].
Definition matrix_b : csr Z := mkCsr 2 2 [0; 1; 3]%nat [0; 0; 1]%nat [3; 2; 5].
Definition demo_files : fs Z (csr Z) :=
  [("a/index.json", IndexFile demo_index); ("a/mir_16_linear/w.npz", Weights matrix_a);
   ("b/index.json", IndexFile demo_index); ("b/mir_16_linear/w.npz", Weights matrix_b)].
Definition demo_values : array Z := mkArr [2%nat] (fun i => match i with [O] => 7 | _ => 11 end).
Definition demo_call (path : string) : sop Z := Call path demo_values demo_in demo_out "linear".
Definition demo_py (_ : val) : string := "".
Notation demo_sound := (sound demo_py COMPARE_KEYS 10 demo_files).
Notation demo_regrid := (sys_regrid 0 Z.add Z.mul (fun x : Z => x) (fun s => s) demo_text demo_py COMPARE_KEYS 10 demo_files).
Notation demo_after := (sys_after 0 Z.add Z.mul (fun x : Z => x) (fun s => s) demo_text demo_py COMPARE_KEYS 10 demo_files).
Notation demo_weights := (weights_for demo_py COMPARE_KEYS 10 demo_files).

Definition demo_gi : gspec := match from_dict demo_in with Ok g => g | _ => mkG LL [] None None end.
Definition demo_go : gspec := match from_dict demo_out with Ok g => g | _ => mkG LL [] None None end.
Lemma demo_request : IndexSpec.request demo_in demo_out demo_gi demo_go.
Proof. split; vm_compute; reflexivity. Qed.
Lemma demo_proper : proper_files demo_files.
Proof.
  intros p z. unfold demo_files. cbn [alookup]. repeat (destruct (String.eqb _ _); [intros H; try discriminate H; injection H as <-|]); [| |discriminate];
    (split; cbn; [reflexivity|reflexivity| |reflexivity|reflexivity|repeat constructor]); intros [|[|i]] L; cbn; lia.
Qed.
Lemma demo_entry path : path = "a" \/ path = "b" -> exists e, local_index path demo_files = Ok [("w", e)] /\
  answers demo_py COMPARE_KEYS 10 e demo_gi demo_go "linear" /\ matrix_path e = Ok "mir_16_linear/w.npz" /\ alookup "shape" (gd (e_output e)) = Some (VList [VInt 2]).
Proof. intros [->| ->]; (eexists; split; [vm_compute; reflexivity|]; split; [split; [|split]; vm_compute; reflexivity|split; vm_compute; reflexivity]). Qed.
Lemma demo_plain : plain_dict demo_in /\ plain_dict demo_out.
Proof.
  split; (split; [cbn; repeat (apply NoDup_cons; [cbn; intuition discriminate|]); apply NoDup_nil|]); intros k v; unfold demo_in, demo_out; cbn [alookup];
    repeat (destruct (String.eqb _ _); [intros H; injection H as <-; reflexivity|]); intros H; discriminate H.
Qed.
Lemma ok_inj {T} (a b : T) : Ok a = Ok b -> a = b.
Proof. intros H. injection H as ->. reflexivity. Qed.
Lemma demo_sound_call path : path = "a" \/ path = "b" -> demo_sound (demo_call path).
Proof.
  intros P. destruct demo_plain as [P1 P2]. split; [exact P1|]. split; [exact P2|]. intros gi go [E1 E2]. destruct demo_request as [R1 R2]. rewrite R1 in E1. rewrite R2 in E2. apply ok_inj in E1, E2. subst gi go.
  intros i n e L I. destruct (demo_entry path P) as (e' & L' & Y & _). rewrite L' in L. injection L as <-. destruct I as [I|[]]. injection I as <- <-. left. exact Y.
Qed.
Lemma demo_weights_for path z : path = "a" \/ path = "b" -> alookup (join_path path "mir_16_linear/w.npz") demo_files = Some (Weights z) ->
  demo_weights path demo_gi demo_go "linear" z (VList [VInt 2]).
Proof.
  intros P Z. destruct (demo_entry path P) as (e & L & Y & M & S). exists [("w", e)], [], "w", e, [], "mir_16_linear/w.npz". repeat (split; [assumption||reflexivity||constructor|]). exact S.
Qed.
(** The values come from the weights of the other inventory: the same request went to it before
    (no hash collides here: the "hash" is the text itself). *)
Theorem C92_refuted : exists r,
  Forall demo_sound [demo_call "a"; demo_call "b"] /\
  snd (demo_regrid "b" demo_values demo_in demo_out "linear" (demo_after (mkConf (Some 1000000) false "largest") [demo_call "a"])) = Ok (r, demo_out) /\
  demo_weights "b" demo_gi demo_go "linear" matrix_b (VList [VInt 2]) /\
  applies 0 Z.add Z.mul matrix_a [2%nat] demo_values r /\ ~ applies 0 Z.add Z.mul matrix_b [2%nat] demo_values r.
Proof.
  eexists. split; [apply Forall_cons; [|apply Forall_cons; [|apply Forall_nil]]; apply demo_sound_call; auto|]. split; [vm_compute; reflexivity|]. split; [apply demo_weights_for; [auto|vm_compute; reflexivity]|]. split.
  - split; [reflexivity|]. split; [reflexivity|]. split; [reflexivity|]. intros idx V. inversion V as [|? i ? r L V']; subst. inversion V'; subst. destruct i as [|[|i]]; [reflexivity|reflexivity|lia].
  - intros (_ & _ & _ & I). assert (V : valid [2%nat] [0%nat]) by (repeat constructor). specialize (I _ V). vm_compute in I. discriminate I.
Qed.
(** The hypotheses of the theorems are met. *)
Example C92_met :
  float_texts demo_text /\ proper_files demo_files /\ Forall demo_sound ([demo_call "a"; Configure (mkConf None false "unlimited"); ClearMemory] ++ [demo_call "a"]) /\
  configured demo_py COMPARE_KEYS 10 demo_files 0 Z.add Z.mul (fun x : Z => x) (fun s => s) demo_text (mkConf (Some 1000000) false "largest") [demo_call "a"] /\
  IndexSpec.request demo_in demo_out demo_gi demo_go /\ asked_only "a" [demo_call "a"] demo_gi demo_go "linear" /\
  demo_weights "a" demo_gi demo_go "linear" matrix_a (VList [VInt 2]) /\ is_shape (VList [VInt 2]) [2%nat] /\ forgotten ([demo_call "b"] ++ [ClearMemory]).
Proof.
  split; [exact demo_texts|]. split; [exact demo_proper|]. split; [cbn [List.app]; repeat (apply Forall_cons; [try exact I; try (apply demo_sound_call; auto)|]); apply Forall_nil|].
  split. { split; [reflexivity|]. intros [|x [|y pre]] c' post H; inversion H. }
  split; [exact demo_request|]. split. { intros path' v' di do gi go [I|[]] _ _ _. injection I as <- _ _ _. reflexivity. }
  split; [apply demo_weights_for; [auto|vm_compute; reflexivity]|]. split; [right; left; reflexivity|right; exists [demo_call "b"]; reflexivity].
Qed.
Example C92_refused_met : no_weights_for demo_py COMPARE_KEYS 10 demo_files "a" demo_gi demo_go "nn".
Proof.
  destruct (demo_entry "a" (or_introl eq_refl)) as (e & L & (Y & _) & _). exists [("w", e)]. split; [exact L|]. constructor; [|constructor].
  exists "linear". split; [exact Y|]. left. discriminate.
Qed.

Print Assumptions C92_origin.
Print Assumptions C92_end_to_end_partial.
Print Assumptions C92_answered_partial.
Print Assumptions C92_refused_partial.
Print Assumptions C92_exact.
Print Assumptions C92_refuted.
