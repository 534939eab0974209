(** Lemmas about inventories of all kinds in one process. *)
From Verif Require Import PyBase ListLemmas PyStr Float64 GridSpec GridVocab GridProofs GridProofs3 Index IndexSpec IndexProofs IndexProofs2
  Db MemCache MemCacheProofs MemCacheProofs2 Inventory Regrid RegridSpec System SystemSpec SystemProofs
  Disk DiskSpec DiskProofs DiskProofs2 Props_Disk Key KeySpec KeyProofs Props_Key CacheFile Props_CacheFile Remote RemoteSpec RemoteProofs RemoteProofs2
  Dispatch Api ApiSpec ApiRemote Every EverySpec.
Set Default Proof Using "Type".
Local Open Scope string_scope.
Local Open Scope list_scope.
Local Open Scope Z_scope.

(** ** The object of a directory whose files change *)
Section Changing.
  Context {A rest : Type}.
  Variables (py_str : val -> string) (key_order : list string) (fuel : nat).
  (** The indexes that were read. *)
  Variable seen : index rest -> Prop.
  Notation first := (@IndexProofs.first rest py_str key_order fuel).
  Implicit Types (d : mdb rest) (gi go : gspec) (files : fs rest (csr A)).
  Definition ldb_ok d : Prop :=
    d_kind _ (s_db _ _ d) = Local /\
    match d_index _ (s_db _ _ d) with None => True | Some i => (exists i0, seen i0 /\ used_index fuel i0 i) \/ i = [] end.
  Lemma new_ldb : ldb_ok System.new_db.
  Proof. split; [reflexivity|exact Logic.I]. Qed.
  Lemma load_ldb files path d : (forall i, local_index path files = Ok i -> seen i) -> d_kind _ (s_db _ _ d) = Local ->
    forall d' r, Db.load_index rest (file rest) Ok (fun _ => "") (outside_of files path) d = (d', r) ->
    ldb_ok d' /\ forall u, r = Ok u -> exists i, local_index path files = Ok i /\ d_index _ (s_db _ _ d') = Some i.
  Proof.
    intros SE K d' r. unfold Db.load_index, Db.index_text. cbn [Db.set_index Db.set_db s_db d_kind]. rewrite K. cbn [outside_of o_file]. unfold ldb_ok, local_index in *.
    destruct (read_index (join_path path "index.json") files) as [f|x|]; cbn [bind] in *.
    - destruct (load [] f) as [i|x|]; intros H; injection H as <- <-; cbn.
      + split; [split; [exact K|left; exists i; split; [apply SE; reflexivity|apply used_index_refl]]|]. intros _ _. exists i. auto.
      + split; [split; [exact K|right; reflexivity]|discriminate].
      + split; [split; [exact K|right; reflexivity]|discriminate].
    - intros H; injection H as <- <-; cbn. split; [split; [exact K|right; reflexivity]|discriminate].
    - intros H; injection H as <- <-; cbn. split; [split; [exact K|right; reflexivity]|discriminate].
  Qed.
  Lemma lookup_ldb files path d di do gi go m :
    (forall i, local_index path files = Ok i -> seen i) -> ldb_ok d -> NoDup (akeys di) -> NoDup (akeys do) -> IndexSpec.request di do gi go ->
    (forall i n e, seen i -> In (n, e) i -> answers py_str key_order fuel e gi go (method_alias m) \/ does_not_answer py_str key_order fuel e gi go (method_alias m)) ->
    ldb_ok (fst (System.lookup py_str key_order fuel files path d (gi, go, m))) /\
    (forall e, snd (System.lookup py_str key_order fuel files path d (gi, go, m)) = Ok (Some e) -> exists i e0, seen i /\ first i gi go (method_alias m) = Ok (Some e0) /\ used_entry fuel e0 e) /\
    (snd (System.lookup py_str key_order fuel files path d (gi, go, m)) = Ok None -> exists i, local_index path files = Ok i /\ first i gi go (method_alias m) = Ok None).
  Proof.
    intros SE HD N N' [GI GO] CO. set (m' := method_alias m) in *.
    pose proof (idempotent di gi N GI) as SI. pose proof (idempotent do go N' GO) as SO.
    destruct (from_dict (gd gi)) as [g1|x1|] eqn:E1; try contradiction SI. destruct (from_dict (gd go)) as [g2|x2|] eqn:E2; try contradiction SO. cbn in SI, SO.
    assert (XF : forall d, ldb_ok d -> ldb_ok (fst (Db.index_find rest (file rest) py_str key_order fuel d (gd gi) (gd go) m')) /\
       (forall e, snd (Db.index_find rest (file rest) py_str key_order fuel d (gd gi) (gd go) m') = Ok (Some e) -> exists i e0, seen i /\ first i gi go m' = Ok (Some e0) /\ used_entry fuel e0 e) /\
       (forall i, seen i -> d_index _ (s_db _ _ d) = Some i -> snd (Db.index_find rest (file rest) py_str key_order fuel d (gd gi) (gd go) m') = Ok None -> first i gi go m' = Ok None)).
    { clear d HD. intros d [K HD]. unfold Db.index_find. destruct (d_index _ (s_db _ _ d)) as [i|] eqn:DI; [|split; [split; [exact K|cbn [fst]; rewrite DI; exact Logic.I]|split; discriminate]].
      assert (FS : forall i0, seen i0 -> used_index fuel i0 i -> found fuel (first i0 gi go m') (snd (Index.find py_str key_order fuel i (gd gi) (gd go) m')) /\
         exists z, snd (Index.find py_str key_order fuel i (gd gi) (gd go) m') = Ok z /\ used_index fuel i0 (fst (Index.find py_str key_order fuel i (gd gi) (gd go) m'))).
      { intros i0 S0 U. pose proof (find_used py_str key_order fuel i0 i (gd gi) (gd go) m' U) as F. rewrite E1, E2 in F. cbn [bind] in F. rewrite (first_same py_str key_order fuel i0 g1 gi g2 go m' SI SO) in F. destruct F as [F V].
        destruct (first_ok py_str key_order fuel i0 gi go m' (fun n e H => CO i0 n e S0 H)) as (o & FO). split; [exact F|]. rewrite FO in F.
        destruct (Index.find py_str key_order fuel i (gd gi) (gd go) m') as [i' y]. cbn [fst snd] in *.
        assert (EY : exists z, y = Ok z). { destruct o as [e|]; cbn in F; destruct y as [[?|]|?|]; try discriminate F; try contradiction F; eauto. } destruct EY as (z & ->). exists z. split; [reflexivity|exact (V z eq_refl)]. }
      assert (NN : forall i1, seen i1 -> Some i = Some i1 -> snd (Index.find py_str key_order fuel i (gd gi) (gd go) m') = Ok None -> first i1 gi go m' = Ok None).
      { intros i1 S1 Q Y. injection Q as <-. destruct (FS i S1 (used_index_refl fuel i)) as [F _]. rewrite Y in F. destruct (first i gi go m') as [[e|]|e|]; cbn in F; try discriminate F; try contradiction F; reflexivity. }
      destruct HD as [(i0 & S0 & U)| ->].
      - destruct (FS i0 S0 U) as (F & z & Y & V). destruct (Index.find py_str key_order fuel i (gd gi) (gd go) m') as [i' y]. cbn [fst snd] in *. subst y.
        split; [split; [exact K|left; exists i0; auto]|]. split; [|exact NN]. intros e E. injection E as ->. destruct (first i0 gi go m') as [[e0|]|?|] eqn:FI; cbn in F; try discriminate F; try contradiction F. exists i0, e0. auto.
      - unfold Index.find in *. rewrite E1, E2 in *. cbn in *. split; [split; [exact K|right; reflexivity]|]. split; [discriminate|exact NN]. }
    unfold System.lookup, Db.find_entry. fold m'.
    assert (GL : ldb_ok (fst (Db.get_or_load rest (file rest) Ok (fun _ => "") (outside_of files path) d))).
    { unfold Db.get_or_load. destruct (d_index _ (s_db _ _ d)); [exact HD|]. destruct (Db.load_index rest (file rest) Ok (fun _ => "") (outside_of files path) d) as [d1 r1] eqn:E. exact (proj1 (load_ldb files path d SE (proj1 HD) d1 r1 E)). }
    destruct (Db.get_or_load rest (file rest) Ok (fun _ => "") (outside_of files path) d) as [d1 r1]. cbn [fst] in GL. destruct r1 as [u|e|]; [|split; [exact GL|split; discriminate]..].
    destruct (XF d1 GL) as (I2 & F2 & _). destruct (Db.index_find rest (file rest) py_str key_order fuel d1 (gd gi) (gd go) m') as [d2 r2]. cbn [fst snd] in *.
    destruct r2 as [[e|]|e|]; try (split; [exact I2|split; [exact F2|discriminate]]).
    unfold is_local, checked_remote. rewrite (proj1 I2). cbn [negb andb]. unfold Db.reload. rewrite (proj1 I2).
    destruct (Db.load_index rest (file rest) Ok (fun _ => "") (outside_of files path) d2) as [d4 r4] eqn:LD. destruct (load_ldb files path d2 SE (proj1 I2) d4 r4 LD) as (I4 & Y4).
    destruct r4 as [u4|e|]; [|split; [exact I4|split; discriminate]..]. destruct (Y4 u4 eq_refl) as (i & LI & DI). destruct (XF d4 I4) as (I5 & F5 & N5).
    split; [exact I5|]. split; [exact F5|]. intros Q. exists i. split; [exact LI|]. exact (N5 i (SE i LI) DI Q).
  Qed.
End Changing.

(** ** Histories *)
Section Every.
  Context {A rest blob : Type}.
  Variable parse : blob -> result (file rest).
  Variable gunzip : blob -> result blob.
  Variable digest : blob -> result string.
  Variable read_sha : blob -> result string.
  Variable load_npz : blob -> result (csr A).
  Variable weigh : blob -> node.
  Variable sha : string -> string.
  Variable dir : string.
  Variables limit usage : option Z.
  Variables check fetch : bool.
  Variable ext_of : string -> string.
  Variables (py_str : val -> string) (key_order : list string) (fuel : nat).
  Variable memory_of : rest -> Z.
  Variable float_text : f64 -> string.
  Notation emeets := (@emeets A rest blob).
  Notation esys := (@esys A rest blob).
  Notation eop := (@eop A rest blob).
  Notation W := (weights A).
  (** The calls made. *)
  Variable C : emeets -> place -> Prop.
  Notation S := (served_in C).
  Notation B := (asked_in C).
  Hypothesis WP : forall c, 0 <= n_size (weigh c).
  Hypothesis NM : names parse gunzip sha ext_of S B.
  Hypothesis FL : fixed_length sha.
  Notation good := (good parse gunzip sha dir ext_of S B).
  Notation rdb_ok := (rdb_ok parse gunzip sha ext_of fuel S B).
  Notation had := (had parse gunzip load_npz sha ext_of py_str key_order fuel C).
  Notation sound_request := (sound_request parse gunzip sha ext_of py_str key_order fuel C).
  Notation key_of := (key_of sha float_text).
  Notation any_find := (any_find parse gunzip digest read_sha load_npz weigh sha dir limit usage check fetch ext_of py_str key_order fuel memory_of float_text).
  Notation estep := (estep parse gunzip digest read_sha load_npz weigh sha dir limit usage check fetch ext_of py_str key_order fuel memory_of float_text).
  Notation eafter := (eafter parse gunzip digest read_sha load_npz weigh sha dir limit usage check fetch ext_of py_str key_order fuel memory_of float_text).
  Implicit Types (h : list eop) (s : esys) (x : emeets) (gi go : gspec).

  Definition eorigin h (k : string) (w : W) : Prop :=
    exists x db q values di do m gi go, In (ECall x db values di do m) h /\ placed db q /\ IndexSpec.request di do gi go /\
      key_of (gi, go, m) = k /\ had x q gi go m (fst w) (snd w).
  Lemma eorigin_more h o k w : eorigin h k w -> eorigin (h ++ [o]) k w.
  Proof. intros (x & db & q & v & di & do & m & gi & go & I & R). exists x, db, q, v, di, do, m, gi, go. split; [apply in_or_app; left; exact I|exact R]. Qed.
  (** The calls of a history are among those made. *)
  Definition made (o : eop) : Prop := match o with ECall x db _ _ _ _ => forall q, placed db q -> C x q | _ => True end.
  Definition sound_op (o : eop) : Prop := match o with ECall _ db _ di do m => forall q, placed db q -> sound_request q di do m | _ => True end.
  Definition einv h s : Prop :=
    MemCacheProofs.Inv W (e_mem s) /\ good (e_world s) /\ rdb_ok SYSTEM_URL (e_sys s) /\
    (forall u, rdb_ok u (Remote.db_of u (mkRSys (e_mem s) (e_world s) (e_url s)))) /\
    (forall p, ldb_ok fuel (seen_in C p) (System.db_of p (mkSys (e_mem s) (e_local s)))) /\ kept W (eorigin h) (e_mem s).

  (** A request to a remote inventory, for any account of what is kept. *)
  Lemma remote_any (P : string -> W -> Prop) x base di do m (t t' : @rsys A rest blob) r :
    (forall gi go w, IndexSpec.request di do gi go -> weights_from parse gunzip load_npz sha ext_of py_str key_order fuel S B base gi go m (fst w) (snd w) -> P (key_of (gi, go, m)) w) ->
    C x (There base) -> sound_request (There base) di do m ->
    MemCacheProofs.Inv W (z_mem t) -> good (z_world t) -> (forall u, In u (map fst (z_dbs t)) \/ u = base -> rdb_ok u (Remote.db_of u t)) -> kept W P (z_mem t) ->
    Remote.db_find parse gunzip digest read_sha load_npz weigh sha dir limit usage check fetch ext_of py_str key_order fuel memory_of float_text (em_net x) base di do m t = (t', r) ->
    MemCacheProofs.Inv W (z_mem t') /\ good (z_world t') /\ (forall u, In u (map fst (z_dbs t)) \/ u = base -> rdb_ok u (Remote.db_of u t')) /\ kept W P (z_mem t') /\
    (forall u, u <> base -> Remote.db_of u t' = Remote.db_of u t) /\
    forall w, r = Ok (Some w) -> exists gi go, IndexSpec.request di do gi go /\ P (key_of (gi, go, m)) w.
  Proof using WP NM FL.
    intros HP CX (P1 & P2 & CO) HI HG HD HK. unfold Remote.db_find.
    assert (SV : serves S (em_net x)) by (intros u b Q; exists x, base; auto). assert (BB : B base) by (exists x; exact CX).
    destruct (from_dict di) as [gi|e|] eqn:GI; cbn [bind].
    2,3: intros H; injection H as <- <-; split; [exact HI|]; split; [exact HG|]; split; [exact HD|]; split; [exact HK|]; split; [reflexivity|discriminate].
    destruct (from_dict do) as [go|e|] eqn:GO; cbn [bind].
    2,3: intros H; injection H as <- <-; split; [exact HI|]; split; [exact HG|]; split; [exact HD|]; split; [exact HK|]; split; [reflexivity|discriminate].
    assert (RQ : IndexSpec.request di do gi go) by (split; assumption).
    set (s0 := mkR (z_world t) (Remote.db_of base t)).
    destruct (lookup_rst parse gunzip digest read_sha load_npz weigh sha dir limit usage check fetch ext_of py_str key_order fuel S B WP NM FL (em_net x) base s0 gi go m di do BB SV (conj HG (HD base (or_intror eq_refl))) RQ (proj1 P1) (proj1 P2) (CO gi go RQ)) as (OK1 & GL & CR).
    set (I := inventory_of parse gunzip digest read_sha load_npz weigh sha dir limit usage check fetch ext_of py_str key_order fuel (em_net x) base s0 (gi, go, m)) in *.
    destruct (MemCache.get key_of (System.est_size memory_of) System.size_of I (gi, go, m) (z_mem t)) as [[mem calls] y] eqn:GE.
    assert (OC : forall w : W, MemCache.create I (gi, go, m) = Ok (Some w) -> P (key_of (gi, go, m)) w) by (intros w E; exact (HP gi go w RQ (CR w E))).
    destruct (get_kept mreq (entry rest) W key_of (System.est_size memory_of) System.size_of size_nonneg P I (gi, go, m) (z_mem t) mem calls y OC HI HK GE) as (K1 & K2 & _).
    pose proof (get_inv mreq (entry rest) W key_of (System.est_size memory_of) System.size_of _ _ _ _ _ _ size_nonneg HI GE) as [HI' _].
    assert (K2' : forall w : W, y = Ok (Some w) -> exists gi go, IndexSpec.request di do gi go /\ P (key_of (gi, go, m)) w) by (intros w E; exists gi, go; split; [exact RQ|exact (K2 w E)]).
    destruct calls as [|c0 calls]; intros H; injection H as <- <-.
    - split; [exact HI'|]. split; [exact HG|]. split; [exact HD|]. split; [exact K1|]. split; [reflexivity|exact K2'].
    - split; [exact HI'|]. split; [|split; [|split; [exact K1|split; [|exact K2']]]].
      + cbn [z_world]. match goal with |- good (match ?X with Some _ => _ | None => _ end) => destruct X as [e|] eqn:LO end; [|apply OK1]. apply GL. exact (get_loaded _ _ _ _ _ _ _ _ _ _ GE LO).
      + intros b IB. unfold Remote.db_of. cbn [z_dbs]. destruct (string_dec b base) as [->|NE]; [rewrite alookup_aset_eq; apply OK1|rewrite alookup_aset_neq by exact (not_eq_sym NE); exact (HD b IB)].
      + intros b NE. unfold Remote.db_of. cbn [z_dbs]. rewrite alookup_aset_neq by exact (not_eq_sym NE). reflexivity.
  Qed.

  Lemma found_somewhere h s x db q values di do m s' r : placed db q -> einv h s -> made (ECall x db values di do m) -> sound_op (ECall x db values di do m) -> any_find x db di do (VStr m) s = (s', r) ->
    einv (h ++ [ECall x db values di do m]) s' /\
    forall w, r = Ok (Some w) -> exists gi go, IndexSpec.request di do gi go /\ eorigin (h ++ [ECall x db values di do m]) (key_of (gi, go, m)) w.
  Proof using WP NM FL.
    intros PL (HI & HG & HS & HU & HL & HK) MD SO. set (o := ECall x db values di do m).
    assert (HK' : kept W (eorigin (h ++ [o])) (e_mem s)) by (intros k it I; apply eorigin_more, HK, I).
    specialize (MD q PL). specialize (SO q PL). unfold Every.any_find.
    assert (HP : forall gi go w, IndexSpec.request di do gi go -> had x q gi go m (fst w) (snd w) -> eorigin (h ++ [o]) (key_of (gi, go, m)) w).
    { intros gi go w RQ WF. exists x, db, q, values, di, do, m, gi, go. split; [apply in_or_app; right; left; reflexivity|]. auto. }
    destruct PL as [|u|p].
    - destruct (Remote.db_find _ _ _ _ _ _ _ _ _ _ _ _ _ _ _ _ _ _ (em_net x) SYSTEM_URL di do m (mkRSys (e_mem s) (e_world s) [(SYSTEM_URL, e_sys s)])) as [t' r'] eqn:E.
      assert (HD : forall u, In u (map fst [(SYSTEM_URL, e_sys s)]) \/ u = SYSTEM_URL -> rdb_ok u (Remote.db_of u (mkRSys (e_mem s) (e_world s) [(SYSTEM_URL, e_sys s)]))).
      { intros u Q. assert (u = SYSTEM_URL) as -> by (destruct Q as [[Q|[]]|Q]; [symmetry|]; exact Q). unfold Remote.db_of. cbn [z_dbs alookup]. rewrite String.eqb_refl. exact HS. }
      destruct (remote_any (eorigin (h ++ [o])) x SYSTEM_URL di do m (mkRSys (e_mem s) (e_world s) [(SYSTEM_URL, e_sys s)]) t' r' HP MD SO HI HG HD HK' E) as (I1 & I2 & I3 & I4 & _ & I6).
      intros Q. injection Q as <- <-. split; [|exact I6]. split; [exact I1|]. split; [exact I2|]. split; [exact (I3 SYSTEM_URL (or_intror eq_refl))|]. split; [exact HU|]. split; [exact HL|exact I4].
    - destruct (Remote.db_find _ _ _ _ _ _ _ _ _ _ _ _ _ _ _ _ _ _ (em_net x) u di do m (mkRSys (e_mem s) (e_world s) (e_url s))) as [t' r'] eqn:E.
      destruct (remote_any (eorigin (h ++ [o])) x u di do m (mkRSys (e_mem s) (e_world s) (e_url s)) t' r' HP MD SO HI HG (fun v _ => HU v) HK' E) as (I1 & I2 & I3 & I4 & I5 & I6).
      intros Q. injection Q as <- <-. split; [|exact I6]. split; [exact I1|]. split; [exact I2|]. split; [exact HS|]. split; [|split; [exact HL|exact I4]].
      intros v. destruct (string_dec v u) as [->|NE]; [exact (I3 u (or_intror eq_refl))|]. change (Remote.db_of v _) with (Remote.db_of v t'). rewrite (I5 v NE). exact (HU v).
    - destruct SO as (P1 & P2 & CO). unfold System.db_find.
      destruct (from_dict di) as [gi|e|] eqn:GI; cbn [bind].
      2,3: intros H; injection H as <- <-; split; [exact (conj HI (conj HG (conj HS (conj HU (conj HL HK')))))|discriminate].
      destruct (from_dict do) as [go|e|] eqn:GO; cbn [bind].
      2,3: intros H; injection H as <- <-; split; [exact (conj HI (conj HG (conj HS (conj HU (conj HL HK')))))|discriminate].
      assert (RQ : IndexSpec.request di do gi go) by (split; assumption). cbn [y_mem y_dbs].
      assert (SE : forall i, local_index p (em_files x) = Ok i -> seen_in C p i) by (intros i Q; exists x; auto).
      destruct (lookup_ldb py_str key_order fuel (seen_in C p) (em_files x) p (System.db_of p (mkSys (e_mem s) (e_local s))) di do gi go m SE (HL p) (proj1 P1) (proj1 P2) RQ (CO gi go RQ)) as (L1 & L2 & _).
      set (I := System.inventory_of py_str key_order fuel (em_files x) p (System.db_of p (mkSys (e_mem s) (e_local s)))) in *.
      assert (OC : forall w : W, MemCache.create I (gi, go, m) = Ok (Some w) -> eorigin (h ++ [o]) (key_of (gi, go, m)) w).
      { intros [z sh] Q. apply HP; [exact RQ|]. cbn [EverySpec.had fst snd]. unfold MemCache.create, I, System.inventory_of in Q. cbn [i_find i_load] in Q.
        destruct (snd (System.lookup py_str key_order fuel (em_files x) p (System.db_of p (mkSys (e_mem s) (e_local s))) (gi, go, m))) as [[e|]|y|]; try discriminate Q. cbn [bind] in Q. unfold create_from_entry in Q. cbn [i_load] in Q.
        destruct (L2 e eq_refl) as (i & e0 & SI & FI & U). destruct (System.load_weights (em_files x) p e) as [w0|y|] eqn:LE; try discriminate Q. cbn in Q. injection Q as ->.
        rewrite (load_used fuel (em_files x) p e0 e U) in LE. apply load_ok in LE. destruct LE as (pp & MP & AL & SH). apply first_some in FI. destruct FI as (pre & n & post & -> & Y & N).
        exists (pre ++ (n, e0) :: post), pre, n, e0, post, pp. auto 8. }
      destruct (MemCache.get key_of (System.est_size memory_of) System.size_of I (gi, go, m) (e_mem s)) as [[mem calls] y] eqn:GE.
      destruct (get_kept mreq (entry rest) W key_of (System.est_size memory_of) System.size_of size_nonneg (eorigin (h ++ [o])) I (gi, go, m) (e_mem s) mem calls y OC HI HK' GE) as (K1 & K2 & _).
      pose proof (get_inv mreq (entry rest) W key_of (System.est_size memory_of) System.size_of _ _ _ _ _ _ size_nonneg HI GE) as [HI' _].
      intros H. injection H as <- <-. split; [|intros w E; exists gi, go; split; [exact RQ|exact (K2 w E)]]. split; [exact HI'|]. split; [exact HG|]. split; [exact HS|]. split; [exact HU|]. split; [|exact K1].
      cbn [y_mem y_dbs]. intros p'. destruct calls; [exact (HL p')|]. unfold System.db_of. cbn [y_dbs e_local].
      destruct (string_dec p' p) as [->|NE]; [rewrite alookup_aset_eq; exact L1|rewrite alookup_aset_neq by exact (not_eq_sym NE); exact (HL p')].
  Qed.
  (** Nothing found in a directory: no entry of the index as it is answers. *)
  Lemma nothing_here h s x p di do m s' : einv h s -> C x (Here p) -> sound_request (Here p) di do m -> any_find x (FromPath p) di do (VStr m) s = (s', Ok None) ->
    exists gi go i, IndexSpec.request di do gi go /\ local_index p (em_files x) = Ok i /\ Forall (fun ne => does_not_answer py_str key_order fuel (snd ne) gi go (method_alias m)) i.
  Proof.
    intros (HI & HG & HS & HU & HL & HK) MD (P1 & P2 & CO). unfold Every.any_find, System.db_find.
    destruct (from_dict di) as [gi|e|] eqn:GI; cbn [bind]; [|discriminate..]. destruct (from_dict do) as [go|e|] eqn:GO; cbn [bind]; [|discriminate..].
    assert (RQ : IndexSpec.request di do gi go) by (split; assumption). cbn [y_mem y_dbs].
    assert (SE : forall i, local_index p (em_files x) = Ok i -> seen_in C p i) by (intros i Q; exists x; auto).
    destruct (lookup_ldb py_str key_order fuel (seen_in C p) (em_files x) p (System.db_of p (mkSys (e_mem s) (e_local s))) di do gi go m SE (HL p) (proj1 P1) (proj1 P2) RQ (CO gi go RQ)) as (_ & _ & L3).
    set (I := System.inventory_of py_str key_order fuel (em_files x) p (System.db_of p (mkSys (e_mem s) (e_local s)))) in *.
    destruct (MemCache.get key_of (System.est_size memory_of) System.size_of I (gi, go, m) (e_mem s)) as [[mem calls] y] eqn:GE.
    destruct (get_kept mreq (entry rest) W key_of (System.est_size memory_of) System.size_of size_nonneg (fun _ _ => True) I (gi, go, m) (e_mem s) mem calls y (fun _ _ => Logic.I) HI (fun _ _ _ => Logic.I) GE) as (_ & _ & K3).
    intros H. injection H as _ ->. specialize (K3 eq_refl). unfold MemCache.create, I, System.inventory_of in K3. cbn [i_find i_load] in K3.
    destruct (snd (System.lookup py_str key_order fuel (em_files x) p (System.db_of p (mkSys (e_mem s) (e_local s))) (gi, go, m))) as [[e|]|z|]; try discriminate K3.
    - cbn [bind] in K3. unfold create_from_entry in K3. cbn [i_load] in K3. destruct (System.load_weights (em_files x) p e); discriminate K3.
    - destruct (L3 eq_refl) as (i & LI & FI). exists gi, go, i. split; [exact RQ|]. split; [exact LI|]. apply first_none. exact FI.
  Qed.

  Lemma estep_inv h s o : einv h s -> made o -> sound_op o -> einv (h ++ [o]) (estep s o).
  Proof using WP NM FL.
    intros HS MD SO. destruct o as [x db values di do m|c| |c|e latest|p]; cbn [Every.estep].
    - destruct (any_find x db di do (VStr m) s) as [s' r] eqn:E. assert (PL : exists q, placed db q) by (destruct db; eexists; constructor). destruct PL as (q & PL). exact (proj1 (found_somewhere h s x db q values di do m s' r PL HS MD SO E)).
    - destruct HS as (HI & HG & HS & HU & HL & HK). split; [exact (update_pre_inv W c (e_mem s) HI)|]. split; [exact HG|]. split; [exact HS|]. split; [exact HU|]. split; [exact HL|].
      intros k it I. apply eorigin_more, HK. cbn in I. exact (update_subset W c (e_mem s) HI _ I).
    - destruct HS as (HI & HG & HS & HU & HL & HK). split; [exact (step_inv mreq (entry rest) W key_of (System.est_size memory_of) System.size_of (e_mem s) OpClear size_nonneg HI)|].
      split; [exact HG|]. split; [exact HS|]. split; [exact HU|]. split; [exact HL|intros k it []].
    - destruct HS as (HI & HG & HS & HU & HL & HK). split; [apply init_inv|]. split; [exact HG|]. split; [exact Logic.I|]. split; [intros u; exact Logic.I|]. split; [intros p; apply new_ldb|]. unfold kept. cbn [e_mem]. rewrite init_items. intros k it [].
    - destruct HS as (HI & HG & HS & HU & HL & HK). split; [exact HI|]. split; [exact (good_shrinks _ _ _ _ _ _ _ _ _ HG (purge_shrinks dir e latest _ (proj1 (proj1 HG))))|]. split; [exact HS|]. split; [exact HU|]. split; [exact HL|]. intros k it I. apply eorigin_more, HK, I.
    - destruct HS as (HI & HG & HS & HU & HL & HK). split; [exact HI|]. split; [exact (good_shrinks _ _ _ _ _ _ _ _ _ HG (erase_shrinks dir p _ (proj1 (proj1 HG))))|]. split; [exact HS|]. split; [exact HU|]. split; [exact HL|]. intros k it I. apply eorigin_more, HK, I.
  Qed.
  Lemma einit_inv c : einv [] (einit c).
  Proof.
    split; [apply init_inv|]. split; [|split; [exact Logic.I|split; [intros b; exact Logic.I|split; [intros p; apply new_ldb|]]]].
    - split; [split; [split; cbn; try constructor; intros; contradiction|intros p E; discriminate E]|]. intros p y E. discriminate E.
    - unfold kept. cbn [einit e_mem]. rewrite init_items. intros k it [].
  Qed.
  (** Nothing happened before, the memory cache was cleared last, or the process is new. *)
  Definition fresh_start h : Prop := h = [] \/ exists h' o, h = h' ++ [o] /\ (o = EClearMemory \/ exists c, o = ERestart c).
  Lemma after_every c h0 h : fresh_start h0 -> Forall made (h0 ++ h) -> Forall sound_op (h0 ++ h) -> einv h (eafter c (h0 ++ h)).
  Proof using WP NM FL.
    assert (ANY : forall h, Forall made h -> Forall sound_op h -> einv h (eafter c h)).
    { clear h0 h. intros h. induction h as [|o h IH] using rev_ind; intros F G; [apply einit_inv|]. apply Forall_app in F, G. destruct F as [F1 F2], G as [G1 G2]. inversion F2; inversion G2; subst.
      unfold Every.eafter. rewrite fold_left_app. cbn [fold_left]. fold (eafter c h). apply estep_inv; [apply IH; assumption|assumption|assumption]. }
    intros FG. induction h as [|o h IH] using rev_ind; intros F G.
    - rewrite app_nil_r in *. destruct (ANY h0 F G) as (HI & HG & HS & HU & HL & _). split; [exact HI|]. split; [exact HG|]. split; [exact HS|]. split; [exact HU|]. split; [exact HL|].
      assert (IT : items (e_mem (eafter c h0)) = []).
      { destruct FG as [->|(h' & o & -> & [->|(c' & ->)])]; [apply init_items|..]; unfold Every.eafter; rewrite fold_left_app; [reflexivity|]. cbn. apply init_items. }
      unfold kept. rewrite IT. intros k it [].
    - rewrite app_assoc in F, G. apply Forall_app in F, G. destruct F as [F1 F2], G as [G1 G2]. inversion F2; inversion G2; subst.
      unfold Every.eafter. rewrite app_assoc, fold_left_app. cbn [fold_left]. fold (eafter c (h0 ++ h)). apply estep_inv; [exact (IH F1 G1)|assumption|assumption].
  Qed.
End Every.
