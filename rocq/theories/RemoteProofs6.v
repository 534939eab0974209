(** Lemmas about remote inventories: a request that misses is answered from the index of the server. *)
From Verif Require Import PyBase ListLemmas PyStr Float64 GridSpec GridVocab GridProofs GridProofs3 Index IndexSpec IndexProofs IndexProofs2
  Db MemCache MemCacheProofs MemCacheProofs2 Inventory Regrid System SystemSpec SystemProofs
  Disk DiskSpec DiskProofs DiskProofs2 Props_Disk Key KeySpec KeyProofs Props_Key CacheFile Props_CacheFile Remote RemoteSpec RemoteProofs RemoteProofs2 RemoteProofs5.
Set Default Proof Using "Type".
Local Open Scope string_scope.
Local Open Scope list_scope.
Local Open Scope Z_scope.

(** The memory cache answers None only if the inventory does. *)
Lemma get_none {Req Ent W} (key_of : Req -> string) (est_size : Ent -> Z) (size_of : W -> Z) (i : inventory Req Ent W) (q : Req) (s : MemCache.state W) s' l :
  MemCache.get key_of est_size size_of i q s = (s', l, Ok None) -> i_find i q = Ok None.
Proof.
  assert (C : MemCache.create i q = Ok None -> i_find i q = Ok None).
  { unfold MemCache.create, create_from_entry. destruct (i_find i q) as [[e|]|x|]; cbn [bind]; try discriminate; [|reflexivity]. destruct (i_load i e) as [w|x|]; discriminate. }
  unfold MemCache.get. destruct (negb (has_cache (pol s))); [intros E; injection E as _ _ E; exact (C E)|].
  destruct (alookup (key_of q) (items s)); [discriminate|].
  assert (X : forall s1 l1, (if has_limit (pol s) then create_with_pre_check est_size i q s else (s, create_calls i q, MemCache.create i q)) = (s1, l1, Ok None) -> i_find i q = Ok None).
  { intros s1 l1. destruct (has_limit (pol s)); [|intros E; injection E as _ _ E; exact (C E)].
    unfold create_with_pre_check. destruct (i_find i q) as [[e0|]|x|]; [|reflexivity|discriminate..].
    destruct (max_mem s) as [m|]; [|discriminate].
    match goal with |- (let '(_, _) := ?X in _) = _ -> _ => destruct X as [s2 r2] end.
    destruct r2 as [u|x|]; try discriminate.
    match goal with |- (if ?b then _ else _) = _ -> _ => destruct b end; intros E; [discriminate E|]. injection E as _ _ E. unfold create_from_entry in E. destruct (i_load i e0); discriminate E. }
  destruct (if has_limit (pol s) then _ else _) as [[s1 l1] d1]. specialize (X s1 l1).
  destruct d1 as [[w|]|x|]; [|intros _; exact (X eq_refl)|discriminate..].
  match goal with |- (match ?X with (_, _) => _ end) = _ -> _ => destruct X as [s3 [u|x|]] end; discriminate.
Qed.

Section Checked.
  Context {A rest blob : Type}.
  Variable parse : blob -> result (file rest).
  Variable gunzip : blob -> result blob.
  Variable digest : blob -> result string.
  Variable read_sha : blob -> result string.
  Variable load_npz : blob -> result (csr A).
  Variable weigh : blob -> node.
  Variable sha : string -> string.
  Variable dir : string.
  Variables limit usage : option Z.
  Variables check fetch : bool.
  Variable ext_of : string -> string.
  Variables (py_str : val -> string) (key_order : list string) (fuel : nat).
  Variable S : string -> blob -> Prop.
  Variable B : string -> Prop.
  Hypothesis WP : forall c, 0 <= n_size (weigh c).
  Hypothesis NM : names parse gunzip sha ext_of S B.
  Hypothesis FL : fixed_length sha.
  Notation world := (@world blob).
  Notation meets := (@meets blob).
  Notation rst := (@rst rest blob).
  Notation path_of := (path_of sha dir).
  Notation serves := (serves S).
  Notation rst_ok := (rst_ok parse gunzip sha dir ext_of fuel S B).
  Notation fine := (fine parse gunzip digest sha dir ext_of S B).
  Notation up_to_date := (up_to_date gunzip digest read_sha S).
  Notation deletable := (deletable sha ext_of dir).
  Notation get_index := (get_index gunzip digest read_sha weigh sha dir limit usage check fetch ext_of).
  Notation got_index := (got_index gunzip digest read_sha weigh sha dir limit usage check fetch ext_of).
  Notation index_path := (index_path gunzip digest read_sha weigh sha dir limit usage check fetch ext_of).
  Notation load_index := (load_index parse gunzip digest read_sha weigh sha dir limit usage check fetch ext_of).
  Notation get_or_load := (get_or_load parse gunzip digest read_sha weigh sha dir limit usage check fetch ext_of).
  Notation index_find := (index_find py_str key_order fuel).
  Notation find_entry := (find_entry parse gunzip digest read_sha weigh sha dir limit usage check fetch ext_of py_str key_order fuel).
  Notation load_weights := (load_weights load_npz weigh sha dir limit usage check fetch ext_of).
  Notation comparable_at := (comparable_at parse gunzip sha ext_of py_str key_order fuel S B).
  Notation first := (@first rest py_str key_order fuel).
  Notation checked s := (d_checked _ (r_db s)).
  Implicit Types (x : meets) (w : world) (s : rst) (gi go : gspec).

  Lemma got_fine m x base s : B base -> serves x -> fine (r_world s) -> fine (r_world (fst (got_index m x base s))).
  Proof using WP NM FL.
    intros BB SV F. destruct (get_index_fine parse gunzip digest read_sha weigh sha dir limit usage check fetch ext_of S B WP NM FL m x base (r_world s) BB SV F) as [H _]. unfold Remote.got_index. destruct (get_index m x base (r_world s)) as [w1 r]. exact H.
  Qed.
  Lemma index_path_fine x base s : B base -> serves x -> fine (r_world s) -> fine (r_world (fst (index_path x base s))).
  Proof using WP NM FL. intros BB SV F. unfold Remote.index_path. destruct (_ && _); [exact F|apply got_fine; assumption]. Qed.
  Lemma got_plain_checked x base s : checked (fst (got_index Plain x base s)) = checked s.
  Proof. unfold Remote.got_index, sets_checked. destruct (get_index Plain x base (r_world s)) as [w1 r]. cbn [fst r_db d_checked]. rewrite Bool.andb_false_r. reflexivity. Qed.
  Lemma index_path_checked x base s : checked (fst (index_path x base s)) = checked s.
  Proof. unfold Remote.index_path. destruct (_ && _); [reflexivity|apply got_plain_checked]. Qed.
  Lemma load_index_fine x base s : B base -> serves x -> fine (r_world s) -> fine (r_world (fst (load_index x base s))).
  Proof using WP NM FL.
    intros BB SV F. unfold Remote.load_index. pose proof (index_path_fine x base (set_index s (Some [])) BB SV F) as H. destruct (index_path x base (set_index s (Some []))) as [s1 r]. cbn [fst] in H.
    match goal with |- context [match ?X with Ok _ => _ | Raise _ => _ | OutOfFuel => _ end] => destruct X end; exact H.
  Qed.
  Lemma load_index_checked x base s : checked (fst (load_index x base s)) = checked s.
  Proof.
    unfold Remote.load_index. pose proof (index_path_checked x base (set_index s (Some []))) as H. destruct (index_path x base (set_index s (Some []))) as [s1 r]. cbn [fst] in H. change (checked (set_index s (Some []))) with (checked s) in H.
    match goal with |- context [match ?X with Ok _ => _ | Raise _ => _ | OutOfFuel => _ end] => destruct X end; exact H.
  Qed.
  Lemma index_find_same s di do m : r_world (fst (index_find s di do m)) = r_world s /\ checked (fst (index_find s di do m)) = checked s.
  Proof. unfold Remote.index_find. destruct (d_index _ (r_db s)) as [i|]; [|auto]. destruct (find py_str key_order fuel i di do m). auto. Qed.
  Lemma find_entry_fine x base s di do m : B base -> serves x -> fine (r_world s) -> fine (r_world (fst (find_entry x base s di do m))).
  Proof using WP NM FL.
    intros BB SV F. unfold Remote.find_entry.
    assert (F1 : fine (r_world (fst (get_or_load x base s)))) by (unfold Remote.get_or_load; destruct (d_index _ (r_db s)); [exact F|apply load_index_fine; assumption]).
    destruct (get_or_load x base s) as [s1 r1]. cbn [fst] in F1. destruct r1 as [u|e|]; [|exact F1..].
    destruct (index_find_same s1 di do (method_alias m)) as [W2 _]. destruct (index_find s1 di do (method_alias m)) as [s2 r2]. cbn [fst] in W2. rewrite <- W2 in F1.
    destruct r2 as [[e|]|e|]; try exact F1. destruct (negb (checked s2)); [|exact F1].
    unfold reload. pose proof (got_fine Compare x base s2 BB SV F1) as F3. destruct (got_index Compare x base s2) as [s3 r3]. cbn [fst] in F3. destruct r3 as [p|e|]; [|exact F3..].
    pose proof (load_index_fine x base s3 BB SV F3) as F4. destruct (load_index x base s3) as [s4 r4]. cbn [fst] in F4. destruct r4 as [u4|e|]; [|exact F4..].
    rewrite (proj1 (index_find_same s4 di do (method_alias m))). exact F4.
  Qed.

  (** After a comparison with the server, an up-to-date index is loaded. *)
  Lemma reloaded x base s s3 p s4 u : B base -> serves x -> fine (r_world s) -> deletable x base ->
    reload gunzip digest read_sha weigh sha dir limit usage check fetch ext_of x base s = (s3, Ok p) -> load_index x base s3 = (s4, Ok u) ->
    exists t f i, d_index _ (r_db s4) = Some i /\ up_to_date x base t /\ parse t = Ok f /\ load [] f = Ok i.
  Proof using WP NM FL fuel.
    intros BB SV F DE R3 R4. unfold reload in R3. pose proof (got_fine Compare x base s BB SV F) as F3. rewrite R3 in F3. cbn [fst] in F3.
    destruct (get_index_fine parse gunzip digest read_sha weigh sha dir limit usage check fetch ext_of S B WP NM FL Compare x base (r_world s) BB SV F) as [_ U3].
    unfold Remote.got_index in R3. destruct (get_index Compare x base (r_world s)) as [w3 r3]. cbn [fst snd] in U3. injection R3 as R3 ->. assert (W3 : r_world s3 = w3) by (rewrite <- R3; reflexivity). assert (P3 : d_path _ (r_db s3) = true) by (rewrite <- R3; reflexivity). clear R3.
    assert (C3 : forall t, content (r_world s3) (path_of (unpacked base)) = Some t -> up_to_date x base t). { intros t CT. rewrite W3 in CT. destruct (U3 p t DE eq_refl CT) as [H|[H _]]; [exact H|discriminate H]. }
    clear U3 W3. unfold Remote.load_index in R4. unfold Remote.index_path in R4. set (s0 := set_index s3 (Some [])) in R4.
    assert (X : exists s5 t f i, (s5, Ok (path_of (unpacked base))) = (if d_path _ (r_db s0) && there (r_world s0) (index_file sha dir base) then (s0, Ok (index_file sha dir base)) else got_index Plain x base s0) /\
      content (r_world s5) (path_of (unpacked base)) = Some t /\ parse t = Ok f /\ load [] f = Ok i /\ s4 = set_index s5 (Some i)).
    { assert (PP : forall p', snd (if d_path _ (r_db s0) && there (r_world s0) (index_file sha dir base) then (s0, Ok (index_file sha dir base)) else got_index Plain x base s0) = Ok p' -> p' = path_of (unpacked base)).
      { destruct (_ && _); [intros p' E; injection E as <-; reflexivity|]. apply (got_ok parse gunzip digest read_sha weigh sha dir limit usage check fetch ext_of fuel S B WP NM FL Plain x base s0 BB SV). split; [exact (proj1 F3)|right; reflexivity]. }
      destruct (if _ && _ then _ else _) as [s5 r5]. cbn [snd] in PP. destruct r5 as [p5|e|]; [|discriminate R4..]. specialize (PP p5 eq_refl). subst p5. cbn [bind] in R4. unfold reading in R4.
      destruct (content (r_world s5) (path_of (unpacked base))) as [t|] eqn:CT; cbn [snd bind] in R4; [|discriminate R4]. destruct (parse t) as [f|e|] eqn:PA; cbn [bind] in R4; [|discriminate R4..]. destruct (load [] f) as [i|e|] eqn:LD; [|discriminate R4..].
      injection R4 as <- _. exists s5, t, f, i. auto. }
    destruct X as (s5 & t & f & i & E5 & CT & PA & LD & ->). exists t, f, i. split; [reflexivity|]. split; [|auto].
    destruct (d_path _ (r_db s0) && there (r_world s0) (index_file sha dir base)) eqn:Q.
    - injection E5 as ->. exact (C3 t CT).
    - change (d_path _ (r_db s0)) with (d_path _ (r_db s3)) in Q. rewrite P3 in Q. cbn [andb] in Q.
      destruct (get_index_fine parse gunzip digest read_sha weigh sha dir limit usage check fetch ext_of S B WP NM FL Plain x base (r_world s0) BB SV F3) as [_ U5].
      unfold Remote.got_index in E5. destruct (get_index Plain x base (r_world s0)) as [w5 r5]. cbn [fst snd] in U5. injection E5 as -> <-. cbn [r_world] in CT. destruct (U5 _ t DE eq_refl CT) as [H|[_ H]]; [exact H|].
      exfalso. unfold index_file in Q. change (index_request base) with (unpacked base) in Q. congruence.
  Qed.

  (** A request that misses. *)
  Lemma missed x base s di do gi go m : B base -> serves x -> fine (r_world s) -> rst_ok base s -> deletable x base -> checked s = false ->
    NoDup (akeys di) -> NoDup (akeys do) -> from_dict di = Ok gi -> from_dict do = Ok go ->
    snd (find_entry x base s (gd gi) (gd go) m) = Ok None ->
    exists t f i, up_to_date x base t /\ parse t = Ok f /\ load [] f = Ok i /\ Forall (fun q => does_not_answer py_str key_order fuel (snd q) gi go (method_alias m)) i.
  Proof using WP NM FL.
    intros BB SV F OK DE CK N N' GI GO. pose proof (idempotent di gi N GI) as SI. pose proof (idempotent do go N' GO) as SO.
    destruct (from_dict (gd gi)) as [g1|x1|] eqn:E1; try contradiction SI. destruct (from_dict (gd go)) as [g2|x2|] eqn:E2; try contradiction SO. cbn in SI, SO.
    unfold Remote.find_entry. set (m' := method_alias m).
    assert (F1 : fine (r_world (fst (get_or_load x base s))) /\ checked (fst (get_or_load x base s)) = checked s) by (unfold Remote.get_or_load; destruct (d_index _ (r_db s)); [auto|split; [apply load_index_fine; assumption|apply load_index_checked]]).
    destruct (get_or_load x base s) as [s1 r1]. cbn [fst] in F1. destruct F1 as [F1 K1]. destruct r1 as [u|e|]; [|discriminate..].
    destruct (index_find_same s1 (gd gi) (gd go) m') as [W2 K2]. destruct (index_find s1 (gd gi) (gd go) m') as [s2 r2]. cbn [fst] in W2, K2. rewrite <- W2 in F1.
    destruct r2 as [[e|]|e|]; try discriminate. rewrite K2, K1, CK. cbn [negb].
    destruct (reload gunzip digest read_sha weigh sha dir limit usage check fetch ext_of x base s2) as [s3 r3] eqn:R3. destruct r3 as [p|e|]; [|discriminate..].
    destruct (load_index x base s3) as [s4 r4] eqn:R4. destruct r4 as [u4|e|]; [|discriminate..].
    destruct (reloaded x base s2 s3 p s4 u4 BB SV F1 DE R3 R4) as (t & f & i & DI & UP & PA & LD). intros FI. exists t, f, i. split; [exact UP|]. split; [exact PA|]. split; [exact LD|].
    unfold Remote.index_find in FI. rewrite DI in FI. pose proof (find_used py_str key_order fuel i i (gd gi) (gd go) m' (used_index_refl fuel i)) as [FD _]. rewrite E1, E2 in FD. cbn [bind] in FD. rewrite (first_same py_str key_order fuel i g1 gi g2 go m' SI SO) in FD.
    destruct (find py_str key_order fuel i (gd gi) (gd go) m') as [i' y]. cbn [snd] in FI, FD. subst y.
    apply first_none. destruct (first i gi go m') as [[e|]|e|]; cbn in FD; try contradiction FD; try discriminate FD. reflexivity.
  Qed.

  Lemma load_weights_fine x base (e : entry rest) w : (forall p, matrix_path e = Ok p -> address parse gunzip sha ext_of S B (join_path base p)) -> serves x -> fine w -> fine (fst (load_weights x base e w)).
  Proof using WP NM FL.
    intros AD SV F. unfold Remote.load_weights. destruct (matrix_path e) as [p|x0|]; [|exact F..]. specialize (AD p eq_refl).
    pose proof (download_fine parse gunzip digest weigh sha dir limit usage check fetch ext_of S B WP NM x (join_path base p) None false w AD SV F ltac:(discriminate)) as F1.
    destruct (download weigh sha dir limit usage check fetch ext_of x (join_path base p) None false w) as [w1 r]. cbn [fst] in F1. unfold andthen. cbn [fst snd]. destruct r as [q|x0|]; [|exact F1..].
    unfold reading. destruct (content w1 q) as [b|]; [|exact F1]. cbn [fst snd]. destruct (load_npz b); exact F1.
  Qed.

  (** ** Histories *)
  Variables (zero : A) (add mul : A -> A -> A).
  Variable memory_of : rest -> Z.
  Variable float_text : f64 -> string.
  Notation key_of := (key_of sha float_text).
  Notation rsys := (@rsys A rest blob).
  Notation rop := (@rop A blob).
  Notation lookup := (lookup parse gunzip digest read_sha weigh sha dir limit usage check fetch ext_of py_str key_order fuel).
  Notation inventory_of := (inventory_of parse gunzip digest read_sha load_npz weigh sha dir limit usage check fetch ext_of py_str key_order fuel).
  Notation db_find := (db_find parse gunzip digest read_sha load_npz weigh sha dir limit usage check fetch ext_of py_str key_order fuel memory_of float_text).
  Notation rsys_regrid := (rsys_regrid parse gunzip digest read_sha load_npz weigh sha dir limit usage check fetch ext_of py_str key_order fuel zero add mul memory_of float_text).
  Notation rstep := (rstep parse gunzip digest read_sha load_npz weigh sha dir limit usage check fetch ext_of py_str key_order fuel zero add mul memory_of float_text).
  Notation rafter := (rafter parse gunzip digest read_sha load_npz weigh sha dir limit usage check fetch ext_of py_str key_order fuel zero add mul memory_of float_text).
  Notation rsys_inv := (rsys_inv parse gunzip load_npz sha dir ext_of py_str key_order fuel S B float_text).
  Notation sound_remote := (@sound_remote A rest blob parse gunzip sha ext_of py_str key_order fuel S B).
  Notation served_by := (@served_by A blob S B).
  Implicit Types (h : list rop) (t : rsys).

  Lemma db_find_fine h t x base values di do m : rsys_inv h t -> served_by (RCall x base values di do m) -> sound_remote (RCall x base values di do m) -> fine (z_world t) -> fine (z_world (fst (db_find x base di do m t))).
  Proof using WP NM FL.
    intros (HI & HG & HD & HK) [SV BB] (P1 & P2 & CO) F. unfold Remote.db_find.
    destruct (from_dict di) as [gi|e|] eqn:GI; cbn [bind]; [|exact F..]. destruct (from_dict do) as [go|e|] eqn:GO; cbn [bind]; [|exact F..].
    assert (RQ : IndexSpec.request di do gi go) by (split; assumption). set (s0 := mkR (z_world t) (db_of base t)). assert (OK0 : rst_ok base s0) by exact (conj HG (HD base)).
    destruct (MemCache.get key_of (System.est_size memory_of) System.size_of (inventory_of x base s0 (gi, go, m)) (gi, go, m) (z_mem t)) as [[mem calls] y] eqn:GE.
    destruct calls as [|c0 calls]; [exact F|]. cbn [fst z_world].
    pose proof (find_entry_fine x base s0 (gd gi) (gd go) m BB SV F) as F1. change (find_entry x base s0 (gd gi) (gd go) m) with (lookup x base s0 (gi, go, m)) in F1.
    match goal with |- fine (match ?X with Some _ => _ | None => _ end) => destruct X as [e|] eqn:LO end; [|exact F1]. apply load_weights_fine; [|exact SV|exact F1].
    pose proof (get_loaded _ _ _ _ _ _ _ _ _ _ GE LO) as FE. cbn [i_find Remote.inventory_of] in FE.
    destruct (find_entry_ok parse gunzip digest read_sha weigh sha dir limit usage check fetch ext_of py_str key_order fuel S B WP NM FL x base s0 di do gi go m BB SV OK0 (proj1 P1) (proj1 P2) GI GO (CO gi go RQ)) as [_ FO].
    destruct (FO e FE) as (i & e0 & IA & FI & (_ & _ & NA & RA)). intros p MP. apply first_some in FI. destruct FI as (pre & n & post & -> & _).
    exists base. split; [exact BB|]. right. right. exists (pre ++ (n, e0) :: post), n, e0, p. split; [exact IA|]. split; [apply in_or_app; right; left; reflexivity|]. split; [|reflexivity]. unfold matrix_path in *. rewrite <- NA, <- RA. exact MP.
  Qed.
  Lemma rstep_fine h t o : rsys_inv h t -> served_by o -> sound_remote o -> fine (z_world t) -> fine (z_world (rstep t o)).
  Proof using WP NM FL.
    intros HS SB SO F. destruct o as [x base values di do m|c| |c|e latest|p]; cbn [Remote.rstep z_world]; try exact F.
    - unfold Remote.rsys_regrid. pose proof (db_find_fine h t x base values di do m HS SB SO F) as H. destruct (db_find x base di do m t) as [t' r]. exact H.
    - exact (fine_drops _ _ _ _ _ _ _ _ _ _ F (purge_drops dir e latest _ (proj1 (proj1 (proj1 F))))).
    - exact (fine_drops _ _ _ _ _ _ _ _ _ _ F (erase_drops dir p _ (proj1 (proj1 (proj1 F))))).
  Qed.
  Lemma after_fine c h : Forall served_by h -> Forall sound_remote h -> fine (z_world (rafter c h)).
  Proof using WP NM FL.
    induction h as [|o h IH] using rev_ind; intros F G.
    - split; [apply (rinit_inv parse gunzip load_npz sha dir ext_of py_str key_order fuel S B float_text c)|]. intros b BB t d E. discriminate E.
    - apply Forall_app in F, G. destruct F as [F1 F2], G as [G1 G2]. inversion F2; inversion G2; subst. unfold Remote.rafter. rewrite fold_left_app. cbn [fold_left]. fold (rafter c h).
      apply (rstep_fine h); [|assumption|assumption|apply IH; assumption]. apply (after_any parse gunzip digest read_sha load_npz weigh sha dir limit usage check fetch ext_of py_str key_order fuel S B WP NM FL); assumption.
  Qed.

  Lemma db_find_other x base base' di do m t : base' <> base -> db_of base' (fst (db_find x base di do m t)) = db_of base' t.
  Proof.
    intros NE. unfold Remote.db_find. destruct (gi <- from_dict di ;; go <- from_dict do ;; Ok (gi, go)) as [[gi go]|e|]; [|reflexivity..].
    match goal with |- context [MemCache.get ?a ?b ?c ?d ?e ?f] => destruct (MemCache.get a b c d e f) as [[mem calls] y] end. destruct calls as [|c0 calls]; [reflexivity|]. cbn [fst]. unfold db_of. cbn [z_dbs]. rewrite alookup_aset_neq by exact (not_eq_sym NE). reflexivity.
  Qed.
  Lemma first_time_new c base h : first_time base h -> db_of base (rafter c h) = new_db.
  Proof.
    intros (h1 & h2 & -> & H1 & H2). unfold Remote.rafter. rewrite fold_left_app. fold (rafter c h1).
    assert (E1 : db_of base (rafter c h1) = new_db). { destruct H1 as [->|(h' & c' & ->)]; [reflexivity|]. unfold Remote.rafter. rewrite fold_left_app. reflexivity. }
    revert E1. generalize (rafter c h1). induction h2 as [|o h2 IH]; intros t E; [exact E|]. cbn [fold_left]. apply IH.
    - intros x values di do m I. exact (H2 x values di do m (or_intror I)).
    - destruct o as [x base' values di do m|c0| |c0|e latest|p]; cbn [Remote.rstep]; try exact E; [|reflexivity].
      unfold Remote.rsys_regrid. destruct (string_dec base base') as [<-|NE]; [exfalso; exact (H2 x values di do m (or_introl eq_refl))|].
      pose proof (db_find_other x base' base di do m t NE) as H. destruct (db_find x base' di do m t) as [t' r]. cbn [fst] in H |- *. congruence.
  Qed.
End Checked.
