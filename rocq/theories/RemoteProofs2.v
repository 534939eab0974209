(** Lemmas about remote inventories: lookups, calls and histories. *)
From Verif Require Import PyBase ListLemmas PyStr Float64 GridSpec GridVocab GridProofs GridProofs3 Index IndexSpec IndexProofs IndexProofs2
  Db MemCache MemCacheProofs MemCacheProofs2 Inventory Regrid System SystemSpec SystemProofs
  Disk DiskSpec DiskProofs DiskProofs2 Props_Disk Key KeySpec KeyProofs Props_Key CacheFile Props_CacheFile Remote RemoteSpec RemoteProofs.
Set Default Proof Using "Type".
Local Open Scope string_scope.
Local Open Scope list_scope.
Local Open Scope Z_scope.

Lemma get_loaded {Req Ent W} (key_of : Req -> string) (est_size : Ent -> Z) (size_of : W -> Z) (i : inventory Req Ent W) (q : Req) (s : MemCache.state W) s' l y e :
  MemCache.get key_of est_size size_of i q s = (s', l, y) -> (match l with CFind _ :: CLoad e :: _ => Some e | _ => None end) = Some e -> i_find i q = Ok (Some e).
Proof.
  assert (C : (match create_calls i q with CFind _ :: CLoad e :: _ => Some e | _ => None end) = Some e -> i_find i q = Ok (Some e)).
  { unfold create_calls. destruct (i_find i q) as [[e0|]|x|]; try discriminate. intros E. injection E as ->. reflexivity. }
  unfold MemCache.get. destruct (negb (has_cache (pol s))); [intros E; injection E as _ <- _; exact C|].
  destruct (alookup (key_of q) (items s)); [intros E; injection E as _ <- _; discriminate|].
  assert (X : forall s1 l1 d1, (if has_limit (pol s) then create_with_pre_check est_size i q s else (s, create_calls i q, MemCache.create i q)) = (s1, l1, d1) ->
    (match l1 with CFind _ :: CLoad e :: _ => Some e | _ => None end) = Some e -> i_find i q = Ok (Some e)).
  { intros s1 l1 d1. destruct (has_limit (pol s)); [|intros E; injection E as _ <- _; exact C].
    unfold create_with_pre_check. destruct (i_find i q) as [[e0|]|x|]; try (intros E; injection E as _ <- _; discriminate).
    destruct (max_mem s) as [m|]; [|intros E; injection E as _ <- _; discriminate].
    match goal with |- (let '(_, _) := ?X in _) = _ -> _ => destruct X as [s2 r2] end.
    destruct r2 as [u|x|]; try (intros E; injection E as _ <- _; discriminate).
    match goal with |- (if ?b then _ else _) = _ -> _ => destruct b end; intros E; injection E as _ <- _; [discriminate|]. intros E; injection E as ->. reflexivity. }
  destruct (if has_limit (pol s) then _ else _) as [[s1 l1] d1]. specialize (X s1 l1 d1 eq_refl).
  destruct d1 as [[w|]|x|]; [|intros E; injection E as _ <- _; exact X..].
  match goal with |- (match ?X with (_, _) => _ end) = _ -> _ => destruct X as [s3 [u|x|]] end; intros E; injection E as _ <- _; exact X.
Qed.

Section Calls.
  Context {A rest blob : Type}.
  Variable parse : blob -> result (file rest).
  Variable gunzip : blob -> result blob.
  Variable digest : blob -> result string.
  Variable read_sha : blob -> result string.
  Variable load_npz : blob -> result (csr A).
  Variable weigh : blob -> node.
  Variable sha : string -> string.
  Variable dir : string.
  Variables limit usage : option Z.
  Variables check fetch : bool.
  Variable ext_of : string -> string.
  Variables (py_str : val -> string) (key_order : list string) (fuel : nat).
  Variable S : string -> blob -> Prop.
  Variable B : string -> Prop.
  Hypothesis WP : forall c, 0 <= n_size (weigh c).
  Hypothesis NM : names parse gunzip sha ext_of S B.
  Hypothesis FL : fixed_length sha.
  Notation world := (@world blob).
  Notation meets := (@meets blob).
  Notation rst := (@rst rest blob).
  Notation good := (good parse gunzip sha dir ext_of S B).
  Notation serves := (serves S).
  Notation index_at := (index_at parse gunzip sha ext_of S B).
  Notation weights_from := (weights_from parse gunzip load_npz sha ext_of py_str key_order fuel S B).
  Notation comparable_at := (comparable_at parse gunzip sha ext_of py_str key_order fuel S B).
  Notation first := (@first rest py_str key_order fuel).
  Notation got_index := (got_index gunzip digest read_sha weigh sha dir limit usage check fetch ext_of).
  Notation load_index := (load_index parse gunzip digest read_sha weigh sha dir limit usage check fetch ext_of).
  Notation get_or_load := (get_or_load parse gunzip digest read_sha weigh sha dir limit usage check fetch ext_of).
  Notation index_find := (index_find py_str key_order fuel).
  Notation find_entry := (find_entry parse gunzip digest read_sha weigh sha dir limit usage check fetch ext_of py_str key_order fuel).
  Notation load_weights := (load_weights load_npz weigh sha dir limit usage check fetch ext_of).
  Implicit Types (x : meets) (s : rst) (d : Db.db rest) (gi go : gspec) (w : world).

  (** The object of the inventory at [base]: no index yet, an index served for it with some memos,
      or the empty one that a failed loading leaves. *)
  Definition rdb_ok (base : string) d : Prop :=
    match d_index _ d with None => True | Some i => (exists i0, index_at base i0 /\ used_index fuel i0 i) \/ i = [] end.
  Definition rst_ok (base : string) s : Prop := good (r_world s) /\ rdb_ok base (r_db s).

  Lemma got_ok m x base s : B base -> serves x -> rst_ok base s ->
    rst_ok base (fst (got_index m x base s)) /\ d_index _ (r_db (fst (got_index m x base s))) = d_index _ (r_db s) /\
    forall p, snd (got_index m x base s) = Ok p -> p = path_of sha dir (unpacked base).
  Proof using WP NM FL.
    intros BB SV [G D]. unfold Remote.got_index. destruct (get_index_good parse gunzip digest read_sha weigh sha dir limit usage check fetch ext_of S B WP NM FL m x base (r_world s) BB SV G) as [G1 P1].
    destruct (get_index gunzip digest read_sha weigh sha dir limit usage check fetch ext_of m x base (r_world s)) as [w1 r]. cbn [fst snd r_world r_db d_index] in *.
    split; [split; [exact G1|exact D]|]. split; [reflexivity|exact P1].
  Qed.
  Lemma load_index_ok x base s : B base -> serves x -> rst_ok base s ->
    rst_ok base (fst (load_index x base s)) /\ forall u, snd (load_index x base s) = Ok u -> exists i, d_index _ (r_db (fst (load_index x base s))) = Some i /\ index_at base i.
  Proof using WP NM FL.
    intros BB SV [G _]. unfold Remote.load_index. set (s0 := set_index s (Some [])).
    assert (O0 : rst_ok base s0) by (split; [exact G|right; reflexivity]).
    assert (X : rst_ok base (fst (index_path gunzip digest read_sha weigh sha dir limit usage check fetch ext_of x base s0)) /\ d_index _ (r_db (fst (index_path gunzip digest read_sha weigh sha dir limit usage check fetch ext_of x base s0))) = Some [] /\
      forall p, snd (index_path gunzip digest read_sha weigh sha dir limit usage check fetch ext_of x base s0) = Ok p -> p = path_of sha dir (unpacked base)).
    { unfold index_path. destruct (_ && _). - split; [exact O0|]. split; [reflexivity|]. intros p E. injection E as <-. reflexivity. - exact (got_ok Plain x base s0 BB SV O0). }
    destruct (index_path gunzip digest read_sha weigh sha dir limit usage check fetch ext_of x base s0) as [s1 r]. cbn [fst snd] in X. destruct X as ([G1 D1] & I1 & P1).
    assert (OK1 : rst_ok base s1) by (split; assumption).
    destruct r as [p|e|]; cbn [bind]; [|split; [exact OK1|discriminate]..]. specialize (P1 p eq_refl). subst p. unfold reading.
    destruct (content (r_world s1) (path_of sha dir (unpacked base))) as [t|] eqn:CT; cbn [snd bind]; [|split; [exact OK1|discriminate]].
    destruct (parse t) as [f|e|] eqn:PA; cbn [bind]; [|split; [exact OK1|discriminate]..]. destruct (load [] f) as [i|e|] eqn:LD; [|split; [exact OK1|discriminate]..].
    assert (IA : index_at base i).
    { destruct (read_unpacked parse gunzip sha dir ext_of S B NM FL _ base t BB G1 CT) as (base' & z & C & Z & GZ). exists base', z, t, f. exact (conj C (conj Z (conj GZ (conj PA LD)))). }
    cbn [fst snd set_index r_world r_db d_index]. split; [|intros _ _; exists i; auto]. split; [exact G1|]. left. exists i. split; [exact IA|apply used_index_refl].
  Qed.

  Lemma find_entry_ok x base s di do gi go m : B base -> serves x -> rst_ok base s ->
    NoDup (akeys di) -> NoDup (akeys do) -> from_dict di = Ok gi -> from_dict do = Ok go -> comparable_at base gi go m ->
    rst_ok base (fst (find_entry x base s (gd gi) (gd go) m)) /\
    forall e, snd (find_entry x base s (gd gi) (gd go) m) = Ok (Some e) -> exists i e0, index_at base i /\ first i gi go (method_alias m) = Ok (Some e0) /\ used_entry fuel e0 e.
  Proof using WP NM FL.
    intros BB SV OK N N' GI GO CO. set (m' := method_alias m).
    pose proof (idempotent di gi N GI) as SI. pose proof (idempotent do go N' GO) as SO.
    destruct (from_dict (gd gi)) as [g1|x1|] eqn:E1; try contradiction SI. destruct (from_dict (gd go)) as [g2|x2|] eqn:E2; try contradiction SO. cbn in SI, SO.
    assert (XF : forall s0, rst_ok base s0 -> rst_ok base (fst (index_find s0 (gd gi) (gd go) m')) /\
       forall e, snd (index_find s0 (gd gi) (gd go) m') = Ok (Some e) -> exists i e0, index_at base i /\ first i gi go m' = Ok (Some e0) /\ used_entry fuel e0 e).
    { clear s OK. intros s [G D]. unfold Remote.index_find. unfold rdb_ok in D. destruct (d_index _ (r_db s)) as [i|] eqn:DI; [|split; [split; [exact G|unfold rdb_ok; cbn [fst]; rewrite DI; exact I]|discriminate]].
      destruct D as [(i0 & IA & U)| ->].
      - pose proof (find_used py_str key_order fuel i0 i (gd gi) (gd go) m' U) as F. rewrite E1, E2 in F. cbn [bind] in F. rewrite (first_same py_str key_order fuel i0 g1 gi g2 go m' SI SO) in F. destruct F as [F V].
        destruct (first_ok py_str key_order fuel i0 gi go m' (fun n e H => CO i0 n e IA H)) as (o & FO). rewrite FO in F.
        destruct (find py_str key_order fuel i (gd gi) (gd go) m') as [i' y]. cbn [fst snd] in *.
        assert (EY : exists z, y = Ok z). { destruct o as [e|]; cbn in F; destruct y as [[?|]|?|]; try discriminate F; try contradiction F; eauto. } destruct EY as (z & ->).
        split; [split; [exact G|left; exists i0; split; [exact IA|exact (V z eq_refl)]]|].
        intros e E. injection E as ->. destruct o as [e0|]; cbn in F; [|discriminate F]. exists i0, e0. auto.
      - unfold find. rewrite E1, E2. cbn. split; [split; [exact G|right; reflexivity]|discriminate]. }
    unfold Remote.find_entry. fold m'.
    assert (GL : rst_ok base (fst (get_or_load x base s))). { unfold Remote.get_or_load. destruct (d_index _ (r_db s)); [exact OK|apply load_index_ok; assumption]. }
    destruct (get_or_load x base s) as [s1 r1]. cbn [fst] in GL. destruct r1 as [u|e|]; [|split; [exact GL|discriminate]..].
    destruct (XF s1 GL) as [OK2 F2]. destruct (index_find s1 (gd gi) (gd go) m') as [s2 r2]. cbn [fst snd] in OK2, F2.
    destruct r2 as [[e|]|e|]; try (split; [exact OK2|exact F2]).
    destruct (d_checked _ (r_db s2)); cbn [negb]; [split; [exact OK2|discriminate]|].
    pose proof (got_ok Compare x base s2 BB SV OK2) as (OK3 & _). unfold reload. destruct (got_index Compare x base s2) as [s3 r3]. cbn [fst] in OK3. destruct r3 as [p|e|]; [|split; [exact OK3|discriminate]..].
    destruct (load_index_ok x base s3 BB SV OK3) as [OK4 _]. destruct (load_index x base s3) as [s4 r4]. cbn [fst] in OK4. destruct r4 as [u4|e|]; [|split; [exact OK4|discriminate]..].
    exact (XF s4 OK4).
  Qed.

  Lemma load_weights_ok x base (e : entry rest) w : (forall p, matrix_path e = Ok p -> address parse gunzip sha ext_of S B (join_path base p)) -> serves x -> good w ->
    good (fst (load_weights x base e w)) /\
    forall z sh, snd (load_weights x base e w) = Ok (z, sh) ->
      exists p b, matrix_path e = Ok p /\ file_at sha ext_of S (join_path base p) b /\ load_npz b = Ok z /\ alookup "shape" (gd (e_output e)) = Some sh.
  Proof using WP NM FL.
    intros AD SV G. unfold Remote.load_weights. destruct (matrix_path e) as [p|x0|]; [|split; [exact G|discriminate]..]. specialize (AD p eq_refl).
    destruct (download_good parse gunzip weigh sha dir limit usage check fetch ext_of S B WP NM x (join_path base p) None false w AD SV G ltac:(discriminate)) as [G1 P1].
    destruct (download weigh sha dir limit usage check fetch ext_of x (join_path base p) None false w) as [w1 r]. cbn [fst snd] in *. unfold andthen. cbn [fst snd]. destruct r as [q|x0|]; [|split; [exact G1|discriminate]..].
    specialize (P1 q eq_refl). subst q. unfold reading. destruct (content w1 (path_of sha dir (file_request ext_of (join_path base p)))) as [b|] eqn:CT; cbn [fst snd]; [|split; [exact G1|discriminate]].
    destruct (load_npz b) as [z|x0|] eqn:LZ; [|split; [exact G1|discriminate]..]. cbn [fst snd]. split; [exact G1|]. intros z' sh. unfold dget. destruct (alookup "shape" (gd (e_output e))) as [v|]; cbn; [|discriminate].
    intros E. injection E as <- <-. exists p, b. split; [reflexivity|]. split; [exact (read_file parse gunzip sha dir ext_of S B NM FL w1 _ b AD G1 CT)|]. auto.
  Qed.
  Lemma weights_from_first base gi go m z sh : weights_from base gi go m z sh <->
    exists i e p b, index_at base i /\ first i gi go (method_alias m) = Ok (Some e) /\
      matrix_path e = Ok p /\ file_at sha ext_of S (join_path base p) b /\ load_npz b = Ok z /\ alookup "shape" (gd (e_output e)) = Some sh.
  Proof.
    split.
    - intros (i & pre & n & e & post & p & b & L & E & Y & N & R). exists i, e, p, b. split; [exact L|]. split; [|exact R]. apply first_some. exists pre, n, post. auto.
    - intros (i & e & p & b & L & F & R). apply first_some in F. destruct F as (pre & n & post & E & Y & N). exists i, pre, n, e, post, p, b. exact (conj L (conj E (conj Y (conj N R)))).
  Qed.
  Lemma weights_from_same base gi go gi' go' m z sh : same_spec gi gi' -> same_spec go go' -> weights_from base gi go m z sh -> weights_from base gi' go' m z sh.
  Proof.
    intros P T H. apply weights_from_first in H. apply weights_from_first. destruct H as (i & e & p & b & L & F & R). exists i, e, p, b. split; [exact L|]. split; [|exact R].
    rewrite <- (first_same py_str key_order fuel i gi gi' go go' _ P T). exact F.
  Qed.

  (** ** Histories *)
  Variables (zero : A) (add mul : A -> A -> A).
  Variable memory_of : rest -> Z.
  Variable float_text : f64 -> string.
  Notation key_of := (key_of sha float_text).
  Notation W := (weights A).
  Notation rsys := (@rsys A rest blob).
  Notation rop := (@rop A blob).
  Notation lookup := (lookup parse gunzip digest read_sha weigh sha dir limit usage check fetch ext_of py_str key_order fuel).
  Notation inventory_of := (inventory_of parse gunzip digest read_sha load_npz weigh sha dir limit usage check fetch ext_of py_str key_order fuel).
  Notation db_find := (db_find parse gunzip digest read_sha load_npz weigh sha dir limit usage check fetch ext_of py_str key_order fuel memory_of float_text).
  Notation rsys_regrid := (rsys_regrid parse gunzip digest read_sha load_npz weigh sha dir limit usage check fetch ext_of py_str key_order fuel zero add mul memory_of float_text).
  Notation rstep := (rstep parse gunzip digest read_sha load_npz weigh sha dir limit usage check fetch ext_of py_str key_order fuel zero add mul memory_of float_text).
  Notation rafter := (rafter parse gunzip digest read_sha load_npz weigh sha dir limit usage check fetch ext_of py_str key_order fuel zero add mul memory_of float_text).
  Notation sound_remote := (@sound_remote A rest blob parse gunzip sha ext_of py_str key_order fuel S B).
  Implicit Types (h : list rop) (t : rsys).

  Definition rorigin h (k : string) (w : weights A) : Prop :=
    exists x base values di do m gi go, In (RCall x base values di do m) h /\ IndexSpec.request di do gi go /\
      key_of (gi, go, m) = k /\ weights_from base gi go m (fst w) (snd w).
  Lemma rorigin_more h o k (w : weights A) : rorigin h k w -> rorigin (h ++ [o]) k w.
  Proof. intros (x & p & v & di & do & m & gi & go & I & R). exists x, p, v, di, do, m, gi, go. split; [apply in_or_app; left; exact I|exact R]. Qed.
  Definition served_by (o : rop) : Prop := match o with RCall x base _ _ _ _ => serves x /\ B base | _ => True end.
  Definition rsys_inv h t : Prop :=
    MemCacheProofs.Inv (weights A) (z_mem t) /\ good (z_world t) /\ (forall base, rdb_ok base (db_of base t)) /\ kept (weights A) (rorigin h) (z_mem t).

  Lemma lookup_rst x base s gi go m di do : B base -> serves x -> rst_ok base s -> IndexSpec.request di do gi go -> NoDup (akeys di) -> NoDup (akeys do) -> comparable_at base gi go m ->
    rst_ok base (fst (lookup x base s (gi, go, m))) /\
    (forall e : entry rest, snd (lookup x base s (gi, go, m)) = Ok (Some e) -> good (fst (load_weights x base e (r_world (fst (lookup x base s (gi, go, m))))))) /\
    forall y, MemCache.create (inventory_of x base s (gi, go, m)) (gi, go, m) = Ok (Some y) -> weights_from base gi go m (fst y) (snd y).
  Proof using WP NM FL.
    intros BB SV OK [GI GO] N N' CO. pose proof (find_entry_ok x base s di do gi go m BB SV OK N N' GI GO CO) as [OK1 F1]. change (find_entry x base s (gd gi) (gd go) m) with (lookup x base s (gi, go, m)) in OK1, F1.
    assert (AD : forall e, snd (lookup x base s (gi, go, m)) = Ok (Some e) -> forall p, matrix_path e = Ok p -> address parse gunzip sha ext_of S B (join_path base p)).
    { intros e E p MP. destruct (F1 e E) as (i & e0 & IA & FI & (_ & _ & NA & RA)). apply first_some in FI. destruct FI as (pre & n & post & -> & _).
      exists base. split; [exact BB|]. right. right. exists (pre ++ (n, e0) :: post), n, e0, p. split; [exact IA|]. split; [apply in_or_app; right; left; reflexivity|]. split; [|reflexivity]. unfold matrix_path in *. rewrite <- NA, <- RA. exact MP. }
    split; [exact OK1|]. split; [intros e E; apply load_weights_ok; [exact (AD e E)|exact SV|apply OK1]|].
    unfold MemCache.create, Remote.inventory_of. cbn [i_find i_load]. destruct (lookup x base s (gi, go, m)) as [s1 r]. cbn [fst snd] in *. destruct r as [[e|]|y0|]; cbn [bind create_from_entry]; try discriminate.
    destruct (load_weights_ok x base e (r_world s1) (AD e eq_refl) SV (proj1 OK1)) as [_ L]. unfold create_from_entry. cbn [i_load]. destruct (snd (load_weights x base e (r_world s1))) as [[z sh]|y0|] eqn:LW; cbn [bind]; try discriminate.
    intros [z' sh'] E. injection E as <- <-. cbn [fst snd]. destruct (L z sh eq_refl) as (p & b & MP & FA & LZ & SH). destruct (F1 e eq_refl) as (i & e0 & IA & FI & U).
    apply weights_from_first. exists i, e0, p, b. split; [exact IA|]. split; [exact FI|]. destruct U as (_ & (_ & GE & _) & NA & RA).
    split; [unfold matrix_path in *; rewrite <- NA, <- RA; exact MP|]. split; [exact FA|]. split; [exact LZ|]. rewrite <- GE. exact SH.
  Qed.

  Lemma rfind_spec h t x base values di do m t' r : rsys_inv h t -> served_by (RCall x base values di do m) -> sound_remote (RCall x base values di do m) -> db_find x base di do m t = (t', r) ->
    rsys_inv (h ++ [RCall x base values di do m]) t' /\
    forall y, r = Ok (Some y) -> exists gi go, IndexSpec.request di do gi go /\ rorigin (h ++ [RCall x base values di do m]) (key_of (gi, go, m)) y.
  Proof using WP NM FL.
    intros (HI & HG & HD & HK) [SV BB] (P1 & P2 & CO). set (o := RCall x base values di do m). unfold Remote.db_find.
    assert (HK' : kept (weights A) (rorigin (h ++ [o])) (z_mem t)) by (intros k it I; apply rorigin_more, HK, I).
    destruct (from_dict di) as [gi|e|] eqn:GI; cbn [bind].
    2,3: intros H; injection H as <- <-; split; [exact (conj HI (conj HG (conj HD HK')))|discriminate].
    destruct (from_dict do) as [go|e|] eqn:GO; cbn [bind].
    2,3: intros H; injection H as <- <-; split; [exact (conj HI (conj HG (conj HD HK')))|discriminate].
    assert (RQ : IndexSpec.request di do gi go) by (split; assumption).
    set (s0 := mkR (z_world t) (db_of base t)). assert (OK0 : rst_ok base s0) by exact (conj HG (HD base)).
    destruct (lookup_rst x base s0 gi go m di do BB SV OK0 RQ (proj1 P1) (proj1 P2) (CO gi go RQ)) as (OK1 & GL & C).
    destruct (MemCache.get key_of (System.est_size memory_of) System.size_of (inventory_of x base s0 (gi, go, m)) (gi, go, m) (z_mem t)) as [[mem calls] y] eqn:GE.
    assert (OC : forall w : weights A, MemCache.create (inventory_of x base s0 (gi, go, m)) (gi, go, m) = Ok (Some w) -> rorigin (h ++ [o]) (key_of (gi, go, m)) w).
    { intros w E. apply C in E. exists x, base, values, di, do, m, gi, go. split; [apply in_or_app; right; left; reflexivity|]. split; [exact RQ|]. split; [reflexivity|exact E]. }
    destruct (get_kept mreq (entry rest) (weights A) key_of (System.est_size memory_of) System.size_of size_nonneg (rorigin (h ++ [o])) (inventory_of x base s0 (gi, go, m)) (gi, go, m) (z_mem t) mem calls y OC HI HK' GE) as (K1 & K2 & _).
    pose proof (get_inv mreq (entry rest) (weights A) key_of (System.est_size memory_of) System.size_of _ _ _ _ _ _ size_nonneg HI GE) as [HI' _].
    assert (K2' : forall w : weights A, y = Ok (Some w) -> exists gi go, IndexSpec.request di do gi go /\ rorigin (h ++ [o]) (key_of (gi, go, m)) w) by (intros w E; exists gi, go; split; [exact RQ|exact (K2 w E)]).
    destruct calls as [|c0 calls]; intros H; injection H as <- <-; (split; [|exact K2']).
    - exact (conj HI' (conj HG (conj HD K1))).
    - split; [exact HI'|]. split; [|split; [|exact K1]].
      + cbn [z_world]. match goal with |- good (match ?X with Some _ => _ | None => _ end) => destruct X as [e|] eqn:LO end; [|apply OK1]. apply GL. exact (get_loaded _ _ _ _ _ _ _ _ _ _ GE LO).
      + intros b. unfold db_of. cbn [z_dbs]. destruct (string_dec b base) as [->|NE]; [rewrite alookup_aset_eq; apply OK1|rewrite alookup_aset_neq by exact (not_eq_sym NE); exact (HD b)].
  Qed.
  Lemma db_inv_weaken h h' t : (forall o, In o h -> In o h') -> rsys_inv h t -> rsys_inv h' t.
  Proof.
    intros I (HI & HG & HD & HK). split; [exact HI|]. split; [exact HG|]. split; [exact HD|]. intros k it J. destruct (HK k it J) as (x & p & v & di & do & m & gi & go & L & R). exists x, p, v, di, do, m, gi, go. split; [apply I, L|exact R].
  Qed.
  Lemma rstep_inv h t o : rsys_inv h t -> served_by o -> sound_remote o -> rsys_inv (h ++ [o]) (rstep t o).
  Proof using WP NM FL.
    intros HS SB SO. destruct o as [x base values di do m|c| |c|e latest|p]; cbn [Remote.rstep].
    - unfold Remote.rsys_regrid. destruct (db_find x base di do m t) as [t' r] eqn:E. exact (proj1 (rfind_spec h t x base values di do m t' r HS SB SO E)).
    - destruct HS as (HI & HG & HD & HK). split; [exact (update_pre_inv (weights A) c (z_mem t) HI)|]. split; [exact HG|]. split; [exact HD|].
      intros k it I. apply rorigin_more, HK. cbn in I. exact (update_subset (weights A) c (z_mem t) HI _ I).
    - destruct HS as (HI & HG & HD & HK). split; [|split; [exact HG|split; [exact HD|intros k it []]]].
      exact (step_inv mreq (entry rest) (weights A) key_of (System.est_size memory_of) System.size_of (z_mem t) OpClear size_nonneg HI).
    - destruct HS as (HI & HG & HD & HK). split; [apply init_inv|]. split; [exact HG|]. split; [intros b; exact I|]. unfold kept. cbn [z_mem]. rewrite init_items. intros k it [].
    - destruct HS as (HI & HG & HD & HK). split; [exact HI|]. split; [exact (good_shrinks _ _ _ _ _ _ _ _ _ HG (purge_shrinks dir e latest _ (proj1 (proj1 HG))))|]. split; [exact HD|]. intros k it I. apply rorigin_more, HK, I.
    - destruct HS as (HI & HG & HD & HK). split; [exact HI|]. split; [exact (good_shrinks _ _ _ _ _ _ _ _ _ HG (erase_shrinks dir p _ (proj1 (proj1 HG))))|]. split; [exact HD|]. intros k it I. apply rorigin_more, HK, I.
  Qed.
  Lemma rinit_inv c : rsys_inv [] (rinit c).
  Proof.
    split; [apply init_inv|]. split; [|split; [intros b; exact I|]].
    - split; [split; [split; cbn; try constructor; intros; contradiction|intros p E; discriminate E]|]. intros p y E. discriminate E.
    - unfold kept. cbn [rinit z_mem]. rewrite init_items. intros k it [].
  Qed.
  Lemma after_any c h : Forall served_by h -> Forall sound_remote h -> rsys_inv h (rafter c h).
  Proof using WP NM FL.
    induction h as [|o h IH] using rev_ind; intros F G; [apply rinit_inv|]. apply Forall_app in F, G. destruct F as [F1 F2], G as [G1 G2]. inversion F2; inversion G2; subst.
    unfold Remote.rafter. rewrite fold_left_app. cbn [fold_left]. fold (rafter c h). apply rstep_inv; [apply IH; assumption|assumption|assumption].
  Qed.
  Lemma after_remote c h0 h : forgotten_remote h0 -> Forall served_by (h0 ++ h) -> Forall sound_remote (h0 ++ h) -> rsys_inv h (rafter c (h0 ++ h)).
  Proof using WP NM FL.
    intros FG. induction h as [|o h IH] using rev_ind; intros F G.
    - rewrite app_nil_r in *. destruct (after_any c h0 F G) as (HI & HG & HD & _). split; [exact HI|]. split; [exact HG|]. split; [exact HD|].
      assert (IT : items (z_mem (rafter c h0)) = []).
      { destruct FG as [->|[(h' & ->)|(h' & c' & ->)]]; [apply init_items|..]; unfold Remote.rafter; rewrite fold_left_app; [reflexivity|]. cbn. apply init_items. }
      unfold kept. rewrite IT. intros k it [].
    - rewrite app_assoc in F, G. apply Forall_app in F, G. destruct F as [F1 F2], G as [G1 G2]. inversion F2; inversion G2; subst.
      unfold Remote.rafter. rewrite app_assoc, fold_left_app. cbn [fold_left]. fold (rafter c (h0 ++ h)). apply rstep_inv; [exact (IH F1 G1)|assumption|assumption].
  Qed.
End Calls.
