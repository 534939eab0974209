(** Lemmas about inventories of all kinds in one process: with what is in the directories and on the
    servers unchanged, and without limits on the disk cache, what is there is found. *)
From Verif Require Import PyBase ListLemmas PyStr Float64 GridSpec GridVocab GridProofs GridProofs3 Index IndexSpec IndexProofs IndexProofs2
  Db MemCache MemCacheProofs MemCacheProofs2 Inventory Regrid RegridSpec System SystemSpec SystemProofs
  Disk DiskSpec DiskProofs DiskProofs2 Props_Disk Key KeySpec KeyProofs Props_Key CacheFile Props_CacheFile Remote RemoteSpec RemoteProofs RemoteProofs2 RemoteProofs3
  Dispatch Api ApiSpec ApiRemote Every EverySpec EveryProofs.
Set Default Proof Using "Type".
Local Open Scope string_scope.
Local Open Scope list_scope.
Local Open Scope Z_scope.

Section Steady.
  Context {A rest blob : Type}.
  Variable parse : blob -> result (file rest).
  Variable gunzip : blob -> result blob.
  Variable digest : blob -> result string.
  Variable read_sha : blob -> result string.
  Variable load_npz : blob -> result (csr A).
  Variable weigh : blob -> node.
  Variable sha : string -> string.
  Variable dir : string.
  Variables check fetch : bool.
  Variable ext_of : string -> string.
  Variables (py_str : val -> string) (key_order : list string) (fuel : nat).
  Variable memory_of : rest -> Z.
  Variable float_text : f64 -> string.
  Notation emeets := (@emeets A rest blob).
  Notation esys := (@esys A rest blob).
  Notation eop := (@eop A rest blob).
  Notation W := (weights A).
  Variable C : emeets -> place -> Prop.
  Notation S := (served_in C).
  Notation B := (asked_in C).
  Variable files : fs rest (csr A).
  Variable G : string -> result blob.
  Hypothesis WP : forall c, 0 <= n_size (weigh c).
  Hypothesis NM : names parse gunzip sha ext_of S B.
  Hypothesis FL : fixed_length sha.
  (** A call meets what is there. *)
  Definition steady x q : Prop :=
    match q with
    | Here _ => forall p, alookup p (em_files x) = alookup p files
    | There _ => forall u, sv_get (m_server (em_net x)) u = G u
    end.
  Hypothesis ST : forall x q, C x q -> steady x q.
  Notation good := (good parse gunzip sha dir ext_of S B).
  Notation rdb_ok := (rdb_ok parse gunzip sha ext_of fuel S B).
  Notation sound_request := (sound_request parse gunzip sha ext_of py_str key_order fuel C).
  Notation key_of := (key_of sha float_text).
  Notation any_find := (any_find parse gunzip digest read_sha load_npz weigh sha dir None None check fetch ext_of py_str key_order fuel memory_of float_text).
  Notation estep := (estep parse gunzip digest read_sha load_npz weigh sha dir None None check fetch ext_of py_str key_order fuel memory_of float_text).
  Notation eafter := (eafter parse gunzip digest read_sha load_npz weigh sha dir None None check fetch ext_of py_str key_order fuel memory_of float_text).
  Notation rfind := (Remote.db_find parse gunzip digest read_sha load_npz weigh sha dir None None check fetch ext_of py_str key_order fuel memory_of float_text).
  Notation einv := (einv parse gunzip load_npz sha dir ext_of py_str key_order fuel float_text C).
  Notation made := (@made A rest blob C).
  Notation sound_op := (@sound_op A rest blob parse gunzip sha ext_of py_str key_order fuel C).
  Notation apart_here := (apart_here parse gunzip sha ext_of B G).
  Notation healthy := (healthy parse gunzip digest G).
  Notation summed := (summed read_sha G).
  Notation rfull := (rfull parse gunzip fuel G).
  Notation weights_for := (weights_for py_str key_order fuel).
  Notation no_weights_for := (@no_weights_for A rest py_str key_order fuel).
  Notation weights_now := (weights_now parse gunzip load_npz py_str key_order fuel G).
  Notation nothing_now := (nothing_now parse gunzip py_str key_order fuel G).
  Implicit Types (h : list eop) (s : esys) (x : emeets) (gi go : gspec) (q : place).

  Lemma served_now u b : S u b -> G u = Ok b.
  Proof using ST. intros (x & base & CX & E). pose proof (ST _ _ CX) as U. cbn in U. rewrite U in E. exact E. Qed.
  Lemma now_served x base u b : C x (There base) -> G u = Ok b -> S u b.
  Proof using ST. intros CX E. exists x, base. split; [exact CX|]. pose proof (ST _ _ CX) as U. cbn in U. rewrite U. exact E. Qed.
  Lemma local_same x p : C x (Here p) -> local_index p (em_files x) = local_index p files.
  Proof using ST. intros CX. pose proof (ST _ _ CX) as U. cbn in U. unfold local_index, read_index. rewrite U. reflexivity. Qed.
  Lemma inv_same x p d : C x (Here p) -> (db_inv fuel (em_files x) p d <-> db_inv fuel files p d).
  Proof using ST. intros CX. unfold db_inv. rewrite (local_same _ _ CX). reflexivity. Qed.
  Lemma for_same x p gi go m z sh : C x (Here p) -> weights_for files p gi go m z sh -> weights_for (em_files x) p gi go m z sh.
  Proof using ST.
    intros CX (i & pre & n & e & post & f & LI & R). pose proof (ST _ _ CX) as U. cbn in U. exists i, pre, n, e, post, f. split; [rewrite (local_same _ _ CX); exact LI|]. rewrite U. exact R.
  Qed.
  Lemma none_same x p gi go m : C x (Here p) -> no_weights_for files p gi go m -> no_weights_for (em_files x) p gi go m.
  Proof using ST. intros CX (i & LI & R). exists i. split; [rewrite (local_same _ _ CX); exact LI|exact R]. Qed.
  Lemma sound_here x p di do m : C x (Here p) -> sound_request (Here p) di do m -> sound_call py_str key_order fuel (em_files x) p di do m.
  Proof. intros CX (P1 & P2 & CO). split; [exact P1|]. split; [exact P2|]. intros gi go RQ i n e LI J. apply (CO gi go RQ i n e); [exists x; auto|exact J]. Qed.

  (** The objects of the inventory at [q] have its index, or have not loaded it. *)
  Definition ready q s : Prop :=
    match q with
    | Here p => db_inv fuel files p (System.db_of p (mkSys (e_mem s) (e_local s)))
    | There base => rfull base (Remote.db_of base (mkRSys (e_mem s) (e_world s) (e_url s))) /\ (base = SYSTEM_URL -> rfull base (e_sys s))
    end.
  Definition well q : Prop := match q with Here _ => True | There base => apart_here base /\ healthy base end.

  Lemma local_ready x p p' di do m (t : @sys A rest) : C x (Here p) -> sound_request (Here p) di do m ->
    db_inv fuel files p' (System.db_of p' t) ->
    db_inv fuel files p' (System.db_of p' (fst (System.db_find memory_of sha float_text py_str key_order fuel (em_files x) p di do m t))).
  Proof using ST.
    intros CX SR D. unfold System.db_find. destruct (from_dict di) as [gi|e|] eqn:GI; cbn [bind]; [|exact D..]. destruct (from_dict do) as [go|e|] eqn:GO; cbn [bind]; [|exact D..].
    destruct (MemCache.get key_of _ _ _ (gi, go, m) (y_mem t)) as [[mem calls] y]. destruct calls; [exact D|]. unfold System.db_of at 1. cbn [fst y_dbs].
    destruct (string_dec p' p) as [->|NE]; [rewrite alookup_aset_eq|rewrite alookup_aset_neq by exact (not_eq_sym NE); exact D].
    destruct (create_spec py_str key_order fuel (em_files x) p (System.db_of p t) di do gi go m (proj2 (inv_same _ _ _ CX) D) (conj GI GO) (sound_here _ _ _ _ _ CX SR)) as (D2 & _).
    apply (inv_same _ _ _ CX), D2.
  Qed.
  Lemma remote_ready x base base' di do m (t : @rsys A rest blob) : C x (There base') -> sound_request (There base') di do m ->
    good (z_world t) -> rdb_ok base' (Remote.db_of base' t) -> apart_here base -> healthy base -> rfull base (Remote.db_of base t) ->
    rfull base (Remote.db_of base (fst (rfind (em_net x) base' di do m t))).
  Proof using WP NM FL ST.
    intros CX (P1 & P2 & CO) HG HD AP HL RF.
    apply (find_full parse gunzip digest read_sha load_npz weigh sha dir check fetch ext_of py_str key_order fuel S B G WP NM FL served_now (fun u b => now_served x base' u b CX) memory_of float_text base (em_net x) base' di do m t HG HD); auto.
    - exists x. exact CX.
    - intros u b E. exists x, base'. auto.
    - exact (ST _ _ CX).
  Qed.
  Lemma step_ready h s o q : einv h s -> made o -> sound_op o -> well q -> ready q s -> ready q (estep s o).
  Proof using WP NM FL ST.
    intros (HI & HG & HS & HU & HL & _) MD SO WE RD. destruct o as [x db values di do m|c| |c|e latest|p]; cbn [Every.estep]; try exact RD.
    2:{ destruct q as [p|base]; [apply new_inv|split; [exact I|intros _; exact I]]. }
    unfold Every.any_find. destruct db as [|u|p].
    - specialize (MD _ pl_system). specialize (SO _ pl_system).
      destruct (rfind (em_net x) SYSTEM_URL di do m (mkRSys (e_mem s) (e_world s) [(SYSTEM_URL, e_sys s)])) as [t r] eqn:E. cbn [fst].
      destruct q as [p|base]; [exact RD|]. destruct RD as [R1 R2], WE as [AP HE]. split; [exact R1|]. cbn [e_sys]. intros ->. specialize (R2 eq_refl).
      pose proof (remote_ready x SYSTEM_URL SYSTEM_URL di do m (mkRSys (e_mem s) (e_world s) [(SYSTEM_URL, e_sys s)]) MD SO HG HS AP HE R2) as R. rewrite E in R. exact R.
    - specialize (MD _ (pl_url u)). specialize (SO _ (pl_url u)).
      destruct (rfind (em_net x) u di do m (mkRSys (e_mem s) (e_world s) (e_url s))) as [t r] eqn:E. cbn [fst].
      destruct q as [p|base]; [exact RD|]. destruct RD as [R1 R2], WE as [AP HE]. split; [|exact R2].
      pose proof (remote_ready x base u di do m (mkRSys (e_mem s) (e_world s) (e_url s)) MD SO HG (HU u) AP HE R1) as R. rewrite E in R. exact R.
    - specialize (MD _ (pl_path p)). specialize (SO _ (pl_path p)).
      destruct (System.db_find memory_of sha float_text py_str key_order fuel (em_files x) p di do m (mkSys (e_mem s) (e_local s))) as [t r] eqn:E. cbn [fst].
      destruct q as [p'|base]; [|exact RD]. pose proof (local_ready x p p' di do m (mkSys (e_mem s) (e_local s)) MD SO RD) as R. rewrite E in R. exact R.
  Qed.
  Lemma after_ready c h q : Forall made h -> Forall sound_op h -> well q -> ready q (eafter c h).
  Proof using WP NM FL ST.
    intros F1 F2 WE. induction h as [|o h IH] using rev_ind. { destruct q as [p|base]; [apply new_inv|split; [exact I|intros _; exact I]]. }
    apply Forall_app in F1, F2. destruct F1 as [A1 B1], F2 as [A2 B2]. inversion B1; inversion B2; subst.
    unfold Every.eafter. rewrite fold_left_app. cbn [fold_left]. fold (eafter c h). apply (step_ready h); try assumption; [|apply IH; assumption].
    exact (after_every parse gunzip digest read_sha load_npz weigh sha dir None None check fetch ext_of py_str key_order fuel memory_of float_text C WP NM FL c [] h (or_introl eq_refl) A1 A2).
  Qed.

  (** The weights of the inventory at [q] as it is, and what must hold besides to read them. *)
  Definition weights_at q gi go (m : string) (z : csr A) (sh : val) : Prop :=
    match q with Here p => weights_for files p gi go m z sh | There base => weights_now base gi go m z sh end.
  Definition nothing_at q gi go (m : string) : Prop :=
    match q with Here p => no_weights_for files p gi go m | There base => nothing_now base gi go m end.
  Definition readable q x : Prop := match q with Here _ => True | There base => askable parse gunzip G check (em_net x) base end.
  Definition checked q : Prop := match q with Here _ => True | There base => summed base end.

  Lemma local_total x p di do m (t t' : @sys A rest) r gi go : C x (Here p) -> sound_request (Here p) di do m -> MemCacheProofs.Inv W (y_mem t) ->
    db_inv fuel files p (System.db_of p t) -> IndexSpec.request di do gi go ->
    System.db_find memory_of sha float_text py_str key_order fuel (em_files x) p di do m t = (t', r) ->
    (forall z sh, weights_for files p gi go m z sh -> GInv W (y_mem t) -> (exists w : W, r = Ok (Some w)) \/ (r = Raise WeightsTooLarge /\ strict (y_mem t) = true)) /\
    (no_weights_for files p gi go m -> r = Ok None \/ exists w : W, r = Ok (Some w)).
  Proof using ST.
    intros CX SR HI D RQ E. pose proof (proj2 (inv_same _ _ _ CX) D) as D'. split.
    - intros z sh WF GV. destruct (find_failures memory_of sha float_text py_str key_order fuel (em_files x) p di do m t t' r gi go GV D' RQ (sound_here _ _ _ _ _ CX SR) E z sh (for_same _ _ _ _ _ _ _ CX WF)) as [K|[K [T _]]]; [left; exact K|right; auto].
    - intros NW. pose proof RQ as [GI GO]. unfold System.db_find in E. rewrite GI, GO in E. cbn [bind] in E.
      destruct (create_spec py_str key_order fuel (em_files x) p (System.db_of p t) di do gi go m D' RQ (sound_here _ _ _ _ _ CX SR)) as (_ & _ & NF & _).
      destruct (MemCache.get key_of (System.est_size memory_of) System.size_of (System.inventory_of py_str key_order fuel (em_files x) p (System.db_of p t)) (gi, go, m) (y_mem t)) as [[mem calls] y] eqn:GE.
      injection E as _ <-. exact (get_none mreq (entry rest) W key_of (System.est_size memory_of) System.size_of _ _ _ _ _ _ (proj2 NF (none_same _ _ _ _ _ CX NW)) GE).
  Qed.
  Lemma remote_total x base di do m (t t' : @rsys A rest blob) r gi go : C x (There base) -> sound_request (There base) di do m ->
    good (z_world t) -> rdb_ok base (Remote.db_of base t) -> apart_here base -> healthy base -> rfull base (Remote.db_of base t) -> IndexSpec.request di do gi go ->
    rfind (em_net x) base di do m t = (t', r) ->
    (forall z sh, weights_now base gi go m z sh -> askable parse gunzip G check (em_net x) base -> GInv W (z_mem t) ->
       (exists w : W, r = Ok (Some w)) \/ (r = Raise WeightsTooLarge /\ strict (z_mem t) = true)) /\
    (nothing_now base gi go m -> summed base -> r = Ok None \/ exists w : W, r = Ok (Some w)).
  Proof using WP NM FL ST.
    intros CX (P1 & P2 & CO) HG HD AP HL RF RQ E.
    assert (SV : serves S (em_net x)) by (intros u b Q; exists x, base; auto). assert (BB : B base) by (exists x; exact CX).
    destruct (find_total parse gunzip digest read_sha load_npz weigh sha dir check fetch ext_of py_str key_order fuel S B G WP NM FL served_now (fun u b => now_served x base u b CX) memory_of float_text
      t (em_net x) base di do m t' r gi go HG HD RF SV BB P1 P2 CO (ST _ _ CX) AP HL RQ E) as [F1 F2].
    split; [|exact F2]. intros z sh WN AK GV. destruct (F1 z sh WN AK GV) as [K|[K [T _]]]; [left; exact K|right; auto].
  Qed.
  Lemma any_total h s x db q values di do m s' r gi go : placed db q -> einv h s -> ready q s -> well q -> made (ECall x db values di do m) -> sound_op (ECall x db values di do m) ->
    IndexSpec.request di do gi go -> any_find x db di do (VStr m) s = (s', r) ->
    (forall z sh, weights_at q gi go m z sh -> readable q x -> GInv W (e_mem s) -> (exists w : W, r = Ok (Some w)) \/ (r = Raise WeightsTooLarge /\ strict (e_mem s) = true)) /\
    (nothing_at q gi go m -> checked q -> r = Ok None \/ exists w : W, r = Ok (Some w)).
  Proof using WP NM FL ST.
    intros PL (HI & HG & HS & HU & HL & _) RD WE MD SO RQ. specialize (MD q PL). specialize (SO q PL). unfold Every.any_find. destruct PL as [|u|p].
    - destruct (rfind (em_net x) SYSTEM_URL di do m (mkRSys (e_mem s) (e_world s) [(SYSTEM_URL, e_sys s)])) as [t r'] eqn:E. intros Q. injection Q as _ ->.
      exact (remote_total x SYSTEM_URL di do m (mkRSys (e_mem s) (e_world s) [(SYSTEM_URL, e_sys s)]) t r gi go MD SO HG HS (proj1 WE) (proj2 WE) (proj2 RD eq_refl) RQ E).
    - destruct (rfind (em_net x) u di do m (mkRSys (e_mem s) (e_world s) (e_url s))) as [t r'] eqn:E. intros Q. injection Q as _ ->.
      exact (remote_total x u di do m (mkRSys (e_mem s) (e_world s) (e_url s)) t r gi go MD SO HG (HU u) (proj1 WE) (proj2 WE) (proj1 RD) RQ E).
    - destruct (System.db_find memory_of sha float_text py_str key_order fuel (em_files x) p di do m (mkSys (e_mem s) (e_local s))) as [t r'] eqn:E. intros Q. injection Q as _ ->.
      destruct (local_total x p di do m (mkSys (e_mem s) (e_local s)) t r gi go MD SO HI RD RQ E) as [F1 F2]. split; [intros z sh WF _; exact (F1 z sh WF)|intros NW _; exact (F2 NW)].
  Qed.

  (** The memory cache stays well configured. *)
  Lemma find_ginv x db di do m s : GInv W (e_mem s) -> GInv W (e_mem (fst (any_find x db di do (VStr m) s))) /\ strict (e_mem (fst (any_find x db di do (VStr m) s))) = strict (e_mem s).
  Proof.
    intros GV.
    assert (RG : forall base (t : @rsys A rest blob), GInv W (z_mem t) -> GInv W (z_mem (fst (rfind (em_net x) base di do m t))) /\ strict (z_mem (fst (rfind (em_net x) base di do m t))) = strict (z_mem t)).
    { intros base t Y. unfold Remote.db_find. destruct (from_dict di) as [gi|e|]; [|split; [exact Y|reflexivity]..]. cbn [bind]. destruct (from_dict do) as [go|e|]; [|split; [exact Y|reflexivity]..]. cbn [bind].
      match goal with |- context [MemCache.get ?a ?b ?d ?e ?f ?g] => destruct (MemCache.get a b d e f g) as [[mem calls] r] eqn:GE end.
      destruct (get_ginv mreq (entry rest) W key_of (System.est_size memory_of) System.size_of size_nonneg _ _ _ _ _ _ Y GE) as (R & _ & R' & _). destruct calls; exact (conj R R'). }
    unfold Every.any_find. destruct db as [|u|p].
    - pose proof (RG SYSTEM_URL (mkRSys (e_mem s) (e_world s) [(SYSTEM_URL, e_sys s)]) GV) as R. destruct (rfind _ _ _ _ _ _). exact R.
    - pose proof (RG u (mkRSys (e_mem s) (e_world s) (e_url s)) GV) as R. destruct (rfind _ _ _ _ _ _). exact R.
    - unfold System.db_find. destruct (from_dict di) as [gi|e|]; [|split; [exact GV|reflexivity]..]. cbn [bind]. destruct (from_dict do) as [go|e|]; [|split; [exact GV|reflexivity]..]. cbn [bind].
      match goal with |- context [MemCache.get ?a ?b ?d ?e ?f ?g] => destruct (MemCache.get a b d e f g) as [[mem calls] r] eqn:GE end.
      destruct (get_ginv mreq (entry rest) W key_of (System.est_size memory_of) System.size_of size_nonneg _ _ _ _ _ _ GV GE) as (R & _ & R' & _). exact (conj R R').
  Qed.
End Steady.
