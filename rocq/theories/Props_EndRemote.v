(** C125: from what a server has and the dictionaries of the caller to the numbers of the result. *)
From Coq Require Import Reals Psatz.
From Verif Require Import PyBase MemCacheProofs MemCacheProofs2 ListLemmas PyStr Float64 GridSpec GridVocab FloatReal GridMatchSpec GridReal GridMatch3 GridDecide
  Index IndexSpec Db MemCache Inventory Regrid RegridSpec Key KeySpec KeyProofs System SystemSpec SystemProofs EndSpec EndProofs Props_System Props_End
  Disk DiskSpec Props_Key CacheFile Remote RemoteSpec RemoteProofs3 Props_Remote EndRemoteSpec.
Set Default Proof Using "Type".
Local Open Scope string_scope.
Local Open Scope list_scope.
Local Open Scope Z_scope.

(** ** Entries of an index and the grids asked for *)
Section Entries.
  Context {rest : Type}.
  Variables (py_str : val -> string) (key_order : list string) (fuel : nat).
  Hypotheses (K1 : incl COMPARE_KEYS key_order) (K2 : incl key_order COMPARE_KEYS).
  Notation answers := (IndexSpec.answers (rest := rest) py_str key_order fuel).
  Notation does_not_answer := (IndexSpec.does_not_answer (rest := rest) py_str key_order fuel).
  Variables (di do : dict) (gi go : gspec) (a0 b0 : grid) (m : string).
  Hypotheses (G1 : from_dict di = Ok gi) (G2 : from_dict do = Ok go) (NA : NoDup (akeys di)) (NB : NoDup (akeys do)) (DA : describes_grid gi a0) (DB : describes_grid go b0) (BA : bounded fuel a0) (BB : bounded fuel b0).
  Variable l : list (string * raw rest).
  Variable i : list (string * entry rest).
  Hypothesis F2 : Forall2 EndProofs.loaded l i.
  Hypothesis IE : forall n r, In (n, r) l -> exists a b m p, lists fuel n r a b m p.

  Lemma entries_not l' i' : Forall2 EndProofs.loaded l' i' -> (forall q, In q l' -> In q l) -> Forall (fun x => does_not_answer (snd x) gi go (method_alias m)) i' -> Forall (fun q => ~ surely fuel a0 b0 m q) l'.
  Proof using K1 K2 G1 G2 NA NB DA DB BA BB.
    intros F. induction F as [|[n r] [x y] l1 i1 [L1 L2] FP IH]; intros SUB D; [constructor|]. inversion D as [|? ? D1 D2]; subst. constructor; [|apply IH; [intros q Q; apply SUB; right; exact Q|exact D2]].
    cbn in L1, L2, D1. subst x. intros (a & b & m' & p & LS & KM & S1 & S2). cbn [fst snd] in LS.
    destruct (entry_decided_of py_str key_order fuel K1 K2 n r a b m' p y di do gi go a0 b0 m LS L2 G1 G2 NA NB DA DB BA BB) as [[Y _]|[_ N]]; [exact (exclusive py_str key_order fuel y gi go _ Y D1)|]. apply N. auto.
  Qed.
  Lemma entries_none l' i' : Forall2 EndProofs.loaded l' i' -> (forall q, In q l' -> In q l) -> Forall (fun q => ~ perhaps fuel a0 b0 m q) l' -> Forall (fun x => does_not_answer (snd x) gi go (method_alias m)) i'.
  Proof using K1 K2 G1 G2 NA NB DA DB BA BB IE.
    intros F. induction F as [|[n r] [x y] l1 i1 [L1 L2] FP IH]; intros SUB NP; [constructor|]. inversion NP as [|? ? N1 N2]; subst. constructor; [|apply IH; [intros q Q; apply SUB; right; exact Q|exact N2]].
    cbn in L1, L2. subst x. cbn [snd]. destruct (IE n r (SUB _ (or_introl eq_refl))) as (a & b & m' & p & LS).
    destruct (entry_decided_of py_str key_order fuel K1 K2 n r a b m' p y di do gi go a0 b0 m LS L2 G1 G2 NA NB DA DB BA BB) as [[_ (KM & Q1 & Q2)]|[D _]]; [|exact D].
    destruct N1. exists a, b, m', p. auto.
  Qed.
  Lemma entries_compared n e : In (n, e) i -> answers e gi go (method_alias m) \/ does_not_answer e gi go (method_alias m).
  Proof using K1 K2 G1 G2 NA NB DA DB BA BB IE F2.
    intros J. destruct (listed_entry l i n e F2 J) as (r & IL & RD). destruct (IE n r IL) as (a & b & m' & p & LS).
    destruct (entry_decided_of py_str key_order fuel K1 K2 n r a b m' p e di do gi go a0 b0 m LS RD G1 G2 NA NB DA DB BA BB) as [[Y _]|[D _]]; auto.
  Qed.
  Lemma entries_first pre n e post : i = pre ++ (n, e) :: post -> answers e gi go (method_alias m) -> Forall (fun x => does_not_answer (snd x) gi go (method_alias m)) pre ->
    exists pre' r post', l = pre' ++ (n, r) :: post' /\ reads n r e /\ perhaps fuel a0 b0 m (n, r) /\ Forall (fun q => ~ surely fuel a0 b0 m q) pre'.
  Proof using K1 K2 G1 G2 NA NB DA DB BA BB IE F2.
    intros EI Y D. destruct (split_loaded l i pre n e post F2 EI) as (pre' & r & post' & EL & FP & RD). exists pre', r, post'. split; [exact EL|]. split; [exact RD|]. split.
    - destruct (IE n r) as (a & b & m' & p & LS). { rewrite EL. apply in_or_app. right. left. reflexivity. }
      destruct (entry_decided_of py_str key_order fuel K1 K2 n r a b m' p e di do gi go a0 b0 m LS RD G1 G2 NA NB DA DB BA BB) as [[_ (KM & Q1 & Q2)]|[N _]]; [exists a, b, m', p; auto|].
      destruct (exclusive py_str key_order fuel e gi go _ Y N).
    - apply (entries_not pre' pre FP); [|exact D]. intros q Q. rewrite EL. apply in_or_app. left. exact Q.
  Qed.
  Lemma entries_found pre q post : l = pre ++ q :: post -> surely fuel a0 b0 m q -> Forall (fun q => ~ perhaps fuel a0 b0 m q) pre ->
    exists pre' e post', i = pre' ++ (fst q, e) :: post' /\ reads (fst q) (snd q) e /\ answers e gi go (method_alias m) /\ Forall (fun x => does_not_answer (snd x) gi go (method_alias m)) pre'.
  Proof using K1 K2 G1 G2 NA NB DA DB BA BB IE F2.
    intros EL (a & b & m' & p & LS & KM & S1 & S2) NP. pose proof F2 as F. rewrite EL in F. apply Forall2_app_inv_l in F. destruct F as (ipre & irest & FP & FR & EI).
    inversion FR as [|? [x e] ? ipost [L1 L2] FQ]; subst irest. cbn in L1. subst x. exists ipre, e, ipost. split; [exact EI|]. split; [exact L2|]. split.
    - destruct (entry_decided_of py_str key_order fuel K1 K2 _ _ a b m' p e di do gi go a0 b0 m LS L2 G1 G2 NA NB DA DB BA BB) as [[Y _]|[_ N]]; [exact Y|]. destruct N. auto.
    - apply (entries_none pre ipre FP); [|exact NP]. intros x Q. rewrite EL. apply in_or_app. left. exact Q.
  Qed.
End Entries.

(** ** Addresses *)
Lemma join_slash t p : starts_with_slash p = false -> join_path (t ++ "/") p = ((t ++ "/") ++ p)%string.
Proof.
  intros S. unfold join_path. rewrite S. replace (ends_with_slash (t ++ "/")) with true; [rewrite orb_true_r; reflexivity|].
  unfold ends_with_slash. rewrite chars_app, rev_app_distr. reflexivity.
Qed.
Lemma address_join base p u : (plain_end base \/ exists t, base = (t ++ "/")%string) -> starts_with_slash p = false -> address_of base p u <-> u = join_path base p.
Proof.
  intros PB S. split.
  - intros [[P ->]|[(t & ->) ->]]; symmetry; [exact (join_plain base "" p P S)|exact (join_slash t p S)].
  - intros ->. destruct PB as [P|(t & ->)]; [left; split; [exact P|exact (join_plain base "" p P S)]|right; split; [eauto|exact (join_slash t p S)]].
Qed.
Lemma listed_relative {rest} fuel n (r : raw rest) a b m p : lists fuel n r a b m p -> starts_with_slash p = false.
Proof. intros [_ _ (en & ve & how & E & HM & -> & S1 & S2 & S3)]. apply plain_start_slash. destruct en; [contradiction|exact S1]. Qed.
Lemma listed_file {rest} fuel n (r : raw rest) a b m p e : lists fuel n r a b m p -> reads n r e -> matrix_path e = Ok p.
Proof. intros L RD. refine (proj1 (listed_path fuel n r a b m p e "a" L _ (proj1 (proj2 RD)) (proj1 RD))). exists "", "a"%char. split; [reflexivity|discriminate]. Qed.
Lemma no_slash s : (forall a b, s <> (a ++ "/" ++ b)%string) -> has_slash s = false.
Proof.
  induction s as [|c s IH]; intros H; [reflexivity|]. cbn [has_slash]. destruct (Ascii.eqb_spec c "/"%char) as [->|_]; [destruct (H "" s eq_refl)|].
  cbn [orb]. apply IH. intros a b E. apply (H (String c a) b). rewrite E. reflexivity.
Qed.

Section Any.
  Context {A rest blob : Type}.
  Variables (zero : A) (add mul : A -> A -> A).
  Variable parse : blob -> result (file rest).
  Variable gunzip : blob -> result blob.
  Variable digest : blob -> result string.
  Variable read_sha : blob -> result string.
  Variable load_npz : blob -> result (csr A).
  Variable weigh : blob -> node.
  Variable sha : string -> string.
  Variable dir : string.
  Variables check fetch : bool.
  Variable ext_of : string -> string.
  Variables (py_str : val -> string) (key_order : list string) (fuel : nat).
  Variable memory_of : rest -> Z.
  Variable float_text : f64 -> string.
  Variable G : string -> result blob.
  Notation rop := (@rop A blob).
  Notation regrid_call := (fun limit usage => rsys_regrid parse gunzip digest read_sha load_npz weigh sha dir limit usage check fetch ext_of py_str key_order fuel zero add mul memory_of float_text).
  Notation rafter := (fun limit usage => Remote.rafter parse gunzip digest read_sha load_npz weigh sha dir limit usage check fetch ext_of py_str key_order fuel zero add mul memory_of float_text).
  Notation serves := (serves parse gunzip digest read_sha fuel G).
  Notation own_names := (own_names sha ext_of fuel G).
  Notation offers := (offers load_npz fuel G).
  Notation asks_there := (@asks_there A blob fuel G).
  Notation proper_there := (proper_there load_npz G).
  Notation current := (RemoteSpec.current parse gunzip G).
  Implicit Types (h H : list rop) (values r : array A) (l : list (string * raw rest)).

  Hypotheses (K1 : incl COMPARE_KEYS key_order) (K2 : incl key_order COMPARE_KEYS).
  Hypotheses (WP : forall b, 0 <= n_size (weigh b)) (FL : fixed_length sha) (FT : float_texts float_text).
  Hypothesis NM : forall t u, cache_name ("url-" ++ sha t ++ ext_of u) /\ cache_name ("regrid-" ++ sha t ++ ".cache").

  Lemma all_names S B : names (rest := rest) (blob := blob) parse gunzip sha ext_of S B.
  Proof using NM.
    intros q [(u & _ & ->)|(b & _ & ->)]; [destruct (NM (key_text (file_request ext_of u)) u) as [[N1 N2] _]|destruct (NM (key_text (unpacked b)) "") as [_ [N1 N2]]]; (split; [apply no_slash, N1|exact N2]).
  Qed.
  Lemma served_index base l : serves base l -> exists i, current base i /\ Forall2 EndProofs.loaded l i.
  Proof.
    intros [VB (u & z & t & d & AD & E & GZ & PA & _) _ N IE]. destruct (load_all fuel l IE [] N) as (i & EI & LD). exists i. split; [|exact LD].
    apply address_join in AD; [|exact VB|reflexivity]. subst u. exists z, t, (mkFile (Some 1) (Some l)). split; [exact E|]. split; [exact GZ|]. split; [exact PA|]. cbn. rewrite EI. reflexivity.
  Qed.
  Lemma file_here base l i u : serves base l -> current base i -> Forall2 EndProofs.loaded l i -> its_file parse gunzip G base u -> file_of fuel base l u.
  Proof.
    intros SV CU LD [->|[->|(i' & n & e & p & CU' & J & MP & ->)]].
    - left. apply address_join; [apply SV|reflexivity|reflexivity].
    - right. left. apply address_join; [apply SV|reflexivity|reflexivity].
    - right. right. rewrite <- (current_one parse gunzip G base i i' CU CU') in J. destruct (listed_entry l i n e LD J) as (r & IL & RD).
      destruct (v_entries _ _ _ _ _ _ _ _ SV n r IL) as (a & b & m & p' & LS). rewrite (listed_file fuel n r a b m p' e LS RD) in MP. injection MP as <-.
      exists n, r, a, b, m, p'. split; [exact IL|]. split; [exact LS|]. apply address_join; [apply SV|exact (listed_relative fuel n r a b m p' LS)|reflexivity].
  Qed.
  Lemma asked_base base h b : Forall (asks_there base) h -> asked h b -> b = base.
  Proof. intros F (x & values & di & do & m & I). rewrite Forall_forall in F. apply (F _ I). Qed.
  Lemma there_apart base l h : serves base l -> own_names base l -> Forall (asks_there base) h -> apart parse gunzip sha ext_of G h base.
  Proof.
    intros SV ON AS. destruct (served_index base l SV) as (i & CU & LD). split.
    - intros u v b IF E. exact (ON u v b (file_here base l i u SV CU LD IF) E).
    - intros b AB [N _]. rewrite (asked_base base h b AS AB) in N. exact (N eq_refl).
  Qed.
  Lemma there_steady base h : Forall (asks_there base) h -> steady G h.
  Proof. intros F x b values di do m I. rewrite Forall_forall in F. apply (F _ I). Qed.
  Lemma there_sound base l h : serves base l -> own_names base l -> Forall (asks_there base) h -> Forall (sound_remote parse gunzip sha ext_of py_str key_order fuel (served h) (asked h)) h.
  Proof using K1 K2.
    intros SV ON AS. pose proof (there_apart base l h SV ON AS) as AP. pose proof (there_steady base h AS) as ST. destruct (served_index base l SV) as (i & CU & LD).
    apply Forall_forall. intros o I. pose proof AS as AS'. rewrite Forall_forall in AS'. specialize (AS' o I). destruct o as [x base' values di do m|c| |c|e latest|p]; try exact Logic.I.
    destruct AS' as (-> & _ & P1 & P2 & a & b & RA & RB & BA & BB). split; [exact P1|]. split; [exact P2|]. intros gi go [G1 G2] i' n e IA J.
    pose proof (its_index parse gunzip sha ext_of (served h) (asked h) G (fun u b => steady_served G h u b ST) base i' AP IA) as CU'. rewrite <- (current_one parse gunzip G base i i' CU CU') in J.
    exact (entries_compared py_str key_order fuel K1 K2 di do gi go a b m G1 G2 (proj1 RA) (proj1 RB) (reading_of _ _ _ RA G1) (reading_of _ _ _ RB G2) BA BB l i LD (v_entries _ _ _ _ _ _ _ _ SV) n e J).
  Qed.
  Lemma there_proper base h : proper_there -> Forall (asks_there base) h -> proper_matrices load_npz (served h).
  Proof. intros PF AS u b z SV LZ. exact (PF u b z (steady_served G h u b (there_steady base h AS) SV) LZ). Qed.
  Lemma there_only base h gi go m : Forall (asks_there base) h -> asked_only_remote base h gi go m.
  Proof. intros F x b values di do gi' go' I _ _ _. rewrite Forall_forall in F. apply (F _ I). Qed.
  Lemma there_middle base h0 h o : Forall (asks_there base) (h0 ++ h ++ [o]) -> Forall (asks_there base) h.
  Proof. intros F. apply Forall_app in F. destruct F as [_ F]. apply Forall_app in F. apply F. Qed.

  (** An answered call: the values with the weights of an entry of the index applied, taken from the
      file of that entry; the method of the entry is the one asked for, its grids may be the ones asked
      for, and no entry before it certainly has these grids and this method. *)
  Theorem C125_sound limit usage c h0 h x base l values di do a0 b0 m r g :
    serves base l -> own_names base l -> proper_there -> forgotten_remote h0 -> Forall (asks_there base) (h0 ++ h ++ [RCall x base values di do m]) ->
    reads_as di a0 -> reads_as do b0 -> bounded fuel a0 -> bounded fuel b0 ->
    snd (regrid_call limit usage x base values di do m (rafter limit usage c (h0 ++ h))) = Ok (r, g) ->
    g = do /\
    ((exists gi go, IndexSpec.request di do gi go /\ collides_remote sha float_text h gi go m) \/
     exists pre q post z n, l = pre ++ q :: post /\ perhaps fuel a0 b0 m q /\ Forall (fun q => ~ surely fuel a0 b0 m q) pre /\
       offers base q z n /\ applies zero add mul z n values r).
  Proof using K1 K2 WP FL FT NM.
    intros SV ON PF FG AS RA RB BA BB R.
    destruct (C93_steady_partial zero add mul parse gunzip digest read_sha load_npz weigh sha dir check fetch ext_of py_str key_order fuel memory_of float_text G limit usage c h0 h x base values di do m r g
                WP FL FT _ eq_refl (all_names _ _) (there_proper base _ PF AS) (there_sound base l _ SV ON AS) FG (there_steady base _ AS) (there_apart base l _ SV ON AS)
                (fun gi go _ => there_only base h gi go m (there_middle base h0 h _ AS)) R) as (-> & gi & go & [G1 G2] & [C|W]); (split; [reflexivity|]); [left; exists gi, go; split; [split; assumption|exact C]|right].
    destruct W as (z & sh & n & (i & pre & nm & e & post & p & w & CU & EI & AN & DN & MP & GW & LZ & SH) & IS & AP).
    destruct (served_index base l SV) as (i' & CU' & LD). rewrite (current_one parse gunzip G base i' i CU' CU) in LD.
    destruct (entries_first py_str key_order fuel K1 K2 di do gi go a0 b0 m G1 G2 (proj1 RA) (proj1 RB) (reading_of _ _ _ RA G1) (reading_of _ _ _ RB G2) BA BB l i LD (v_entries _ _ _ _ _ _ _ _ SV) pre nm e post EI AN DN) as (pre' & r0 & post' & EL & RD & PQ & NS).
    exists pre', (nm, r0), post', z, n. split; [exact EL|]. split; [exact PQ|]. split; [exact NS|]. split; [|exact AP].
    destruct (v_entries _ _ _ _ _ _ _ _ SV nm r0) as (a & b & m' & p' & LS). { rewrite EL. apply in_or_app. right. left. reflexivity. }
    rewrite (listed_file fuel nm r0 a b m' p' e LS RD) in MP. injection MP as ->.
    exists a, b, m', p, (join_path base p), w. split; [exact LS|]. split; [apply address_join; [apply SV|exact (listed_relative fuel nm r0 a b m' p LS)|reflexivity]|].
    split; [exact GW|]. split; [exact LZ|]. apply (entry_shape fuel nm r0 e a b m' p sh n LS RD SH), IS.
  Qed.

  (** Without limits on the cache directory, the entry that certainly has the grids and the method asked
      for is used if no entry before it may have them. *)
  Theorem C125_answered c h0 h x base l pre q post values di do a0 b0 m z n :
    serves base l -> own_names base l -> proper_there -> forgotten_remote h0 -> Forall (asks_there base) (h0 ++ h ++ [RCall x base values di do m]) ->
    tells_age check x -> accepted (fun pre => z_mem (rafter None None c pre)) c (h0 ++ h) ->
    reads_as di a0 -> reads_as do b0 -> bounded fuel a0 -> bounded fuel b0 ->
    l = pre ++ q :: post -> surely fuel a0 b0 m q -> Forall (fun q => ~ perhaps fuel a0 b0 m q) pre -> offers base q z n ->
    prod (shape values) = n_cols z -> prod n = n_rows z ->
    (exists r, snd (regrid_call None None x base values di do m (rafter None None c (h0 ++ h))) = Ok (r, do) /\ applies zero add mul z n values r) \/
    (snd (regrid_call None None x base values di do m (rafter None None c (h0 ++ h))) = Raise WeightsTooLarge /\ strict (z_mem (rafter None None c (h0 ++ h))) = true) \/
    (exists gi go, IndexSpec.request di do gi go /\ collides_remote sha float_text h gi go m).
  Proof using K1 K2 WP FL FT NM.
    intros SV ON PF FG AS TA AC RA RB BA BB EL SQ NP (a & b & m' & p & u & w & LS & AD & GW & LZ & SZ) E1 E2.
    destruct (EndProofs.reading di a0 RA) as (gi & G1 & _), (EndProofs.reading do b0 RB) as (go & G2 & _). destruct (served_index base l SV) as (i & CU & LD).
    destruct (entries_found py_str key_order fuel K1 K2 di do gi go a0 b0 m G1 G2 (proj1 RA) (proj1 RB) (reading_of _ _ _ RA G1) (reading_of _ _ _ RB G2) BA BB l i LD (v_entries _ _ _ _ _ _ _ _ SV) pre q post EL SQ NP) as (ipre & e & ipost & EI & RD & AN & DN).
    apply address_join in AD; [|apply SV|exact (listed_relative fuel _ _ a b m' p LS)]. subst u.
    assert (SH : alookup "shape" (gd (e_output e)) = Some (VList (map VInt (map Z.of_nat n)))).
    { destruct LS as [(i0 & o & R1 & R2 & RA' & RB') _ _]. destruct RD as (_ & ER & i1 & o1 & R1' & F1 & R2' & FO). rewrite R2 in R2'. injection R2' as <-.
      pose proof (dg_sizes _ _ (reading_of o b (e_output e) RB' FO)) as S. rewrite SZ in S. exact S. }
    assert (WN : weights_now parse gunzip load_npz py_str key_order fuel G base gi go m z (VList (map VInt (map Z.of_nat n)))).
    { exists i, ipre, (fst q), e, ipost, p, w. split; [exact CU|]. split; [exact EI|]. split; [exact AN|]. split; [exact DN|]. split; [exact (listed_file fuel _ _ a b m' p e LS RD)|]. auto. }
    assert (IS : is_shape (VList (map VInt (map Z.of_nat n))) n) by (right; left; rewrite map_map; reflexivity).
    assert (HL : healthy parse gunzip digest G base).
    { split; [eauto|]. intros z' t' Ez Et. destruct (v_index _ _ _ _ _ _ _ _ SV) as (u & z0 & t & d & AU & Eu & GZ & PA & DI). apply address_join in AU; [|apply SV|reflexivity]. subst u.
      rewrite Ez in Eu. injection Eu as <-. rewrite Et in GZ. injection GZ as <-. eauto. }
    assert (AK : askable parse gunzip G check x base) by (destruct TA as [T|T]; [left; exact T|right; intros u _; apply T]).
    destruct (C93_answered_partial zero add mul parse gunzip digest read_sha load_npz weigh sha dir check fetch ext_of py_str key_order fuel memory_of float_text G c h0 h x base values di do m gi go z _ n
                WP FL FT _ eq_refl (all_names _ _) (there_proper base _ PF AS) (there_sound base l _ SV ON AS) FG (there_steady base _ AS) (there_apart base l _ SV ON AS)
                HL AK AC (conj G1 G2) (there_only base h gi go m (there_middle base h0 h _ AS)) WN IS E1 E2) as [R|[[R [T _]]|C]]; [left; exact R|right; left; auto|right; right; exists gi, go; split; [split; assumption|exact C]].
  Qed.

  (** If no entry may have the grids and the method asked for, ValueError. *)
  Theorem C125_refused c h0 h x base l values di do a0 b0 m :
    serves base l -> own_names base l -> forgotten_remote h0 -> Forall (asks_there base) (h0 ++ h ++ [RCall x base values di do m]) ->
    reads_as di a0 -> reads_as do b0 -> bounded fuel a0 -> bounded fuel b0 -> Forall (fun q => ~ perhaps fuel a0 b0 m q) l ->
    snd (regrid_call None None x base values di do m (rafter None None c (h0 ++ h))) = Raise ValueError \/ exists gi go, IndexSpec.request di do gi go /\ collides_remote sha float_text h gi go m.
  Proof using K1 K2 WP FL FT NM.
    intros SV ON FG AS RA RB BA BB NP.
    destruct (EndProofs.reading di a0 RA) as (gi & G1 & _), (EndProofs.reading do b0 RB) as (go & G2 & _). destruct (served_index base l SV) as (i & CU & LD).
    assert (NN : nothing_now parse gunzip py_str key_order fuel G base gi go m).
    { exists i. split; [exact CU|]. exact (entries_none py_str key_order fuel K1 K2 di do gi go a0 b0 m G1 G2 (proj1 RA) (proj1 RB) (reading_of _ _ _ RA G1) (reading_of _ _ _ RB G2) BA BB l (v_entries _ _ _ _ _ _ _ _ SV) l i LD (fun _ Q => Q) NP). }
    assert (HL : healthy parse gunzip digest G base).
    { split; [eauto|]. intros z' t' Ez Et. destruct (v_index _ _ _ _ _ _ _ _ SV) as (u & z0 & t & d & AU & Eu & GZ & PA & DI). apply address_join in AU; [|apply SV|reflexivity]. subst u.
      rewrite Ez in Eu. injection Eu as <-. rewrite Et in GZ. injection GZ as <-. eauto. }
    assert (SU : summed read_sha G base).
    { destruct (v_sum _ _ _ _ _ _ _ _ SV) as (u & b & d & AU & Eu & ED). apply address_join in AU; [|apply SV|reflexivity]. subst u. exists b, d. auto. }
    destruct (C93_refused_partial zero add mul parse gunzip digest read_sha load_npz weigh sha dir check fetch ext_of py_str key_order fuel memory_of float_text G c h0 h x base values di do m gi go
                WP FL FT _ eq_refl (all_names _ _) (there_sound base l _ SV ON AS) FG (there_steady base _ AS) (there_apart base l _ SV ON AS)
                HL SU (conj G1 G2) (there_only base h gi go m (there_middle base h0 h _ AS)) NN) as [R|C]; [left; exact R|right; exists gi, go; split; [split; assumption|exact C]].
  Qed.
End Any.

(** ** The hypotheses are met by the small server of Props_Remote.v *)
Lemma toy_cache_names t u : cache_name ("url-" ++ toy_sha t ++ toy_ext u) /\ cache_name ("regrid-" ++ toy_sha t ++ ".cache").
Proof.
  assert (X : forall s, has_slash s = false -> forall a b, s <> (a ++ "/" ++ b)%string).
  { induction s as [|c s IH]; cbn [has_slash]; intros H [|d a] b E; try discriminate E; apply Bool.orb_false_iff in H; destruct H as [H1 H2]; injection E as -> E; [discriminate H1|exact (IH H2 a b E)]. }
  assert (L : (String.length t mod 26 < 26)%nat) by (apply Nat.mod_upper_bound; lia). unfold toy_sha, toy_ext. set (n := (String.length t mod 26)%nat) in *. clearbody n.
  assert (S : has_slash ("url-" ++ String (ascii_of_nat (97 + n)) "" ++ ".bin") = false /\ has_slash ("regrid-" ++ String (ascii_of_nat (97 + n)) "" ++ ".cache") = false).
  { clear - L. do 26 (destruct n as [|n]; [split; reflexivity|]). lia. }
  destruct S as [S1 S2]. split; (split; [apply X; assumption|]); intros a.
  - change ("url-" ++ String (ascii_of_nat (97 + n)) "" ++ ".bin")%string with (("url-" ++ String (ascii_of_nat (97 + n)) "") ++ ".bin")%string. apply tmp_end; [reflexivity|discriminate].
  - change ("regrid-" ++ String (ascii_of_nat (97 + n)) "" ++ ".cache")%string with (("regrid-" ++ String (ascii_of_nat (97 + n)) ".c") ++ "ache")%string. apply tmp_end; [reflexivity|discriminate].
Qed.
Lemma toy_base p u : address_of "s" p u -> u = ("s/" ++ p)%string.
Proof. intros [[_ ->]|[(t & E) _]]; [reflexivity|]. destruct t as [|c [|d t]]; discriminate E. Qed.
Example C125_met :
  serves page_parse page_gunzip page_digest page_sha 10 old_site "s" [("w", demo_raw)] /\ own_names toy_sha toy_ext 10 old_site "s" [("w", demo_raw)] /\ proper_there page_npz old_site /\
  Forall (asks_there 10 old_site "s") steady_all /\ tells_age true (visit old_site) /\
  surely 10 end_a (end_b None) "linear" ("w", demo_raw) /\ ~ perhaps 10 end_a (end_b None) "nn" ("w", demo_raw) /\ offers page_npz 10 old_site "s" ("w", demo_raw) matrix_a [2%nat] /\
  forall u, file_of 10 "s" [("w", demo_raw)] u -> In u ["s/index.json.gz"; "s/index.json.sha256"; "s/mir_16_linear/w.npz"].
Proof.
  assert (PE : plain_end "s") by (exists "", "s"%char; split; [reflexivity|discriminate]). destruct end_bounded as [B1 B2].
  assert (IE : forall n r, In (n, r) [("w", demo_raw)] -> exists a b m p, lists 10 n r a b m p) by (intros n r [E|[]]; injection E as <- <-; exists end_a, (end_b (Some [2])), "linear", "mir_16_linear/w.npz"; exact end_lists_w).
  assert (FO : forall u, file_of 10 "s" [("w", demo_raw)] u -> In u ["s/index.json.gz"; "s/index.json.sha256"; "s/mir_16_linear/w.npz"]).
  { intros u [AD|[AD|(n & r & a & b & m & p & [E|[]] & LS & AD)]]; apply toy_base in AD; subst u; [left; reflexivity|right; left; reflexivity|]. injection E as <- <-.
    destruct LS as [_ _ (en & ve & how & EI & HM & -> & _)]. cbn in EI. injection EI as <- <- <-. destruct HM as [HM|HM]; [injection HM as <-|discriminate HM]. right. right. left. reflexivity. }
  split; [|split; [|split; [|split; [|split; [|split; [|split; [|split; [|exact FO]]]]]]]].
  - constructor.
    + left. exact PE.
    + exists "s/index.json.gz", (PackedIndex "1" demo_index), (TextIndex "1" demo_index), "1". split; [left; auto|]. repeat split.
    + exists "s/index.json.sha256", (Checksum "1"), "1". split; [left; auto|]. split; reflexivity.
    + cbn. repeat constructor. intros [].
    + exact IE.
  - intros u v b F E. apply toy_apart; [exact (FO u F)|]. pose proof steady_toy as T.
    assert (S : served steady_all v b) by (exists (visit old_site), "s", demo_values, demo_in, demo_out, "linear"; split; [left; reflexivity|exact E]).
    destruct (toy_served _ v b T S) as [(-> & _)|[(-> & _)|(-> & _)]]; cbn; auto.
  - intros u b z E LZ. pose proof steady_toy as T. assert (S : served steady_all u b) by (exists (visit old_site), "s", demo_values, demo_in, demo_out, "linear"; split; [left; reflexivity|exact E]).
    exact (toy_proper _ T u b z S LZ).
  - destruct demo_plain as [P1 P2].
    assert (X : forall m, asks_there 10 old_site "s" (visit_call old_site m)).
    { intros m. split; [reflexivity|]. split; [reflexivity|]. split; [exact P1|]. split; [exact P2|]. exists end_a, (end_b None). split; [exact end_reads_a|]. split; [exact end_reads_out|]. auto. }
    repeat (apply Forall_cons; [first [exact I|apply X]|]). apply Forall_nil.
  - right. intros u. exists true. reflexivity.
  - apply C118_met.
  - intros (a & b & m' & p & LS & KM & _). destruct LS as [_ _ (en & ve & how & EI & HM & _)]. cbn in EI. injection EI as <- <- <-. destruct HM as [HM|HM]; [injection HM as <-|discriminate HM].
    destruct KM as [[_ E]|(E & _)]; [discriminate E|exact (E eq_refl)].
  - exists end_a, (end_b (Some [2])), "linear", "mir_16_linear/w.npz", "s/mir_16_linear/w.npz", (Npz matrix_a). split; [exact end_lists_w|]. split; [left; auto|]. repeat split.
Qed.
(** And this is the result: in a new process that found the files in the cache, after two more calls. *)
Theorem C125_example : exists r,
  snd (toy_regrid (visit old_site) "s" demo_values demo_in demo_out "linear" (toy_after roomy (steady_start ++ steady_rest))) = Ok (r, demo_out) /\
  applies 0 Z.add Z.mul matrix_a [2%nat] demo_values r.
Proof.
  destruct C125_met as (SV & ON & PF & AS & TA & SU & _ & OF & _). destruct C93_met as (WP & _ & _ & _ & _ & _ & FG & _ & _ & _ & _ & _ & AC & _). destruct end_bounded as [B1 B2].
  destruct (C125_answered 0 Z.add Z.mul page_parse page_gunzip page_digest page_sha page_npz page_weigh toy_sha "/c" true false toy_ext demo_py COMPARE_KEYS 10 (fun x : Z => x) demo_text old_site
      (incl_refl _) (incl_refl _) WP toy_length demo_texts toy_cache_names roomy steady_start steady_rest (visit old_site) "s" [("w", demo_raw)] [] ("w", demo_raw) [] demo_values demo_in demo_out
      end_a (end_b None) "linear" matrix_a [2%nat] SV ON PF FG AS TA AC end_reads_a end_reads_out B1 (B2 None) eq_refl SU (Forall_nil _) OF eq_refl eq_refl) as [R|[[R _]|(gi & go & [Q1 Q2] & C)]].
  - exact R.
  - exfalso. vm_compute in R. discriminate R.
  - exfalso. destruct C as (x & base & values & di & do & m' & gi' & go' & I & [Q1' Q2'] & NE & E).
    assert (D : di = demo_in /\ do = demo_out /\ In m' ["linear"; "nn"]). { cbn in I. repeat (destruct I as [I|I]; [try discriminate I; injection I as _ _ _ <- <- <-; cbn; auto|]). contradiction. }
    destruct D as (-> & -> & M). rewrite Q1 in Q1'. rewrite Q2 in Q2'. apply ok_inj in Q1', Q2'. subst gi' go'. destruct demo_request as [R1 R2]. rewrite R1 in Q1. rewrite R2 in Q2. apply ok_inj in Q1, Q2. subst gi go.
    destruct M as [<-|[<-|[]]]; [exact (NE eq_refl)|]. vm_compute in E. discriminate E.
Qed.

Print Assumptions C125_sound.
Print Assumptions C125_answered.
Print Assumptions C125_refused.
Print Assumptions C125_example.
