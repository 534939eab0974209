(** C98: a request that finds nothing is answered from the index that the server has now. *)
From Verif Require Import PyBase ListLemmas PyStr Float64 GridSpec GridVocab GridProofs Index IndexSpec IndexProofs IndexProofs2
  Db MemCache MemCacheProofs MemCacheProofs2 Inventory Regrid RegridSpec RegridProofs Props_Regrid System SystemSpec SystemProofs Props_System
  Disk DiskSpec DiskProofs DiskProofs2 Props_Disk Key KeySpec KeyProofs Props_Key CacheFile Props_CacheFile Remote RemoteSpec RemoteProofs RemoteProofs2 RemoteProofs3 RemoteProofs4 RemoteProofs5 RemoteProofs6 Props_Remote.
Set Default Proof Using "Type".
Local Open Scope string_scope.
Local Open Scope list_scope.
Local Open Scope Z_scope.

Section Any.
  Context {A rest blob : Type}.
  Variables (zero : A) (add mul : A -> A -> A).
  Variable parse : blob -> result (file rest).
  Variable gunzip : blob -> result blob.
  Variable digest : blob -> result string.
  Variable read_sha : blob -> result string.
  Variable load_npz : blob -> result (csr A).
  Variable weigh : blob -> node.
  Variable sha : string -> string.
  Variable dir : string.
  Variables limit usage : option Z.
  Variables check fetch : bool.
  Variable ext_of : string -> string.
  Variables (py_str : val -> string) (key_order : list string) (fuel : nat).
  Variable memory_of : rest -> Z.
  Variable float_text : f64 -> string.
  Notation rop := (@rop A blob).
  Notation regrid_call := (rsys_regrid parse gunzip digest read_sha load_npz weigh sha dir limit usage check fetch ext_of py_str key_order fuel zero add mul memory_of float_text).
  Notation db_find := (db_find parse gunzip digest read_sha load_npz weigh sha dir limit usage check fetch ext_of py_str key_order fuel memory_of float_text).
  Notation rafter := (rafter parse gunzip digest read_sha load_npz weigh sha dir limit usage check fetch ext_of py_str key_order fuel zero add mul memory_of float_text).
  Notation names h := (names parse gunzip sha ext_of (served h) (asked h)).
  Notation sound_remote h := (sound_remote parse gunzip sha ext_of py_str key_order fuel (served h) (asked h)).
  Implicit Types (h H : list rop) (values : array A).

  (** The first call for an inventory in a process: if no matrix is found, then none is listed in an
      index whose text is the one on the server, or was served once and has the checksum on the
      server. *)
  Theorem C98_missed_partial c h x base values di do m :
    (forall b, 0 <= n_size (weigh b)) -> fixed_length sha ->
    forall H, H = h ++ [RCall x base values di do m] -> names H -> Forall (sound_remote H) H -> first_time base h -> deletable sha ext_of dir x base ->
    snd (db_find x base di do m (rafter c h)) = Ok None ->
    exists gi go t f i, IndexSpec.request di do gi go /\ up_to_date gunzip digest read_sha (served H) x base t /\ parse t = Ok f /\ load [] f = Ok i /\
      Forall (fun q => does_not_answer py_str key_order fuel (snd q) gi go (method_alias m)) i.
  Proof.
    intros WP FL H EH NM SO FT DE. pose proof (all_served H) as SV. destruct (forall_last _ H h _ SO EH) as [S1 SC]. destruct (forall_last _ H h _ SV EH) as [V1 VC].
    pose proof (after_fine parse gunzip digest read_sha load_npz weigh sha dir limit usage check fetch ext_of py_str key_order fuel (served H) (asked H) WP NM FL zero add mul memory_of float_text c h V1 S1) as F.
    destruct (after_any parse gunzip digest read_sha load_npz weigh sha dir limit usage check fetch ext_of py_str key_order fuel (served H) (asked H) WP NM FL zero add mul memory_of float_text c h V1 S1) as (HI & HG & HD & HK).
    pose proof (first_time_new parse gunzip digest read_sha load_npz weigh sha dir limit usage check fetch ext_of py_str key_order fuel zero add mul memory_of float_text c base h FT) as NEW.
    set (t0 := rafter c h) in *. unfold Remote.db_find. destruct VC as [SX BX], SC as ((N & _) & (N' & _) & _).
    destruct (from_dict di) as [gi|e|] eqn:GI; cbn [bind]; [|discriminate..]. destruct (from_dict do) as [go|e|] eqn:GO; cbn [bind]; [|discriminate..].
    set (s0 := mkR (z_world t0) (db_of base t0)).
    match goal with |- context [MemCache.get ?a ?b ?d ?e ?f ?g] => destruct (MemCache.get a b d e f g) as [[mem calls] y] eqn:GE end. intros Y. assert (y = Ok None) as -> by (destruct calls; exact Y). clear Y.
    apply get_none in GE. cbn [inventory_of i_find] in GE.
    destruct (missed parse gunzip digest read_sha weigh sha dir limit usage check fetch ext_of py_str key_order fuel (served H) (asked H) WP NM FL x base s0 di do gi go m BX SX F (conj HG (HD base)) DE) as (t & f & i & R); [cbn [s0 r_db]; rewrite NEW; reflexivity|exact N|exact N'|exact GI|exact GO|exact GE|].
    exists gi, go, t, f, i. split; [split; assumption|exact R].
  Qed.

  (** If the index on the server lists a matrix, and no other index ever served has the checksum on
      the server, the first call in a process does not say that there is none. *)
  Theorem C98_listed_partial c h x base values di do m gi go z t i n e :
    (forall b, 0 <= n_size (weigh b)) -> fixed_length sha ->
    forall H, H = h ++ [RCall x base values di do m] -> names H -> Forall (sound_remote H) H -> first_time base h -> deletable sha ext_of dir x base ->
    sv_get (m_server x) (join_path base "index.json.gz") = Ok z -> gunzip z = Ok t -> (f <- parse t ;; load [] f) = Ok i ->
    (forall b d u z' t', sv_get (m_server x) (join_path base "index.json.sha256") = Ok b -> read_sha b = Ok d -> served H u z' -> gunzip z' = Ok t' -> digest t' = Ok d -> t' = t) ->
    IndexSpec.request di do gi go -> In (n, e) i -> answers py_str key_order fuel e gi go (method_alias m) ->
    snd (db_find x base di do m (rafter c h)) <> Ok None.
  Proof.
    intros WP FL H EH NM SO FT DE GZ UZ LD ONE [R1 R2] I AN E. destruct (C98_missed_partial c h x base values di do m WP FL H EH NM SO FT DE E) as (gi' & go' & t' & f & i' & [R1' R2'] & UP & PA & LD' & NO).
    rewrite R1 in R1'. rewrite R2 in R2'. injection R1' as <-. injection R2' as <-.
    assert (t' = t) as ->. { destruct UP as [(z' & GZ' & UZ')|(u & z' & b & d & SU & UZ' & GB & RB & DG)]; [congruence|exact (ONE b d u z' t' GB RB SU UZ' DG)]. }
    rewrite PA in LD. cbn [bind] in LD. assert (i' = i) as -> by congruence. rewrite Forall_forall in NO. specialize (NO _ I). cbn [snd] in NO.
    apply answer_yes in AN. apply answer_no in NO. congruence.
  Qed.
End Any.

(** ** A process looks at the server once *)
Definition nn_inter : interpolation := mkInter (Some "mir") (Some "16") (Some (MName "nearest-neighbour")).
Definition nn_raw : raw Z := mkRaw (Some demo_in) (Some [("grid", VStr "O32"); ("shape", VList [VInt 2])]) (Some nn_inter) 48.
Definition wide_index : file Z := mkFile (Some 1) (Some [("w", demo_raw); ("n", nn_raw)]).
Definition wide_site (u : string) : result page :=
  if String.eqb u "s/mir_16_nearest-neighbour/n.npz" then Ok (Npz matrix_b) else site "2" wide_index matrix_a u.
Definition wide_entry : entry Z := match load [] wide_index with Ok [_; (_, e)] => e | _ => mkEntry demo_gi demo_go "" nn_raw end.
Lemma wide_current : current page_parse page_gunzip wide_site "s" [("w", toy_entry demo_index); ("n", wide_entry)].
Proof. exists (PackedIndex "2" wide_index), (TextIndex "2" wide_index), wide_index. split; [reflexivity|]. split; [reflexivity|]. split; [reflexivity|]. vm_compute. reflexivity. Qed.
Lemma wide_answers : answers demo_py COMPARE_KEYS 10 wide_entry demo_gi demo_go (method_alias "nn").
Proof. split; [|split]; vm_compute; reflexivity. Qed.
Notation toy_find := (db_find page_parse page_gunzip page_digest page_sha page_npz page_weigh toy_sha "/c" None None true false toy_ext demo_py COMPARE_KEYS 10 (fun x : Z => x) demo_text).

(** A request missed; then the server got an index with an entry for it.  The same process says that
    there is none, a new process answers. *)
Theorem C98_refuted :
  let h := [visit_call old_site "nn"] in
  snd (toy_find (visit wide_site) "s" demo_in demo_out "nn" (toy_after roomy h)) = Ok None /\
  snd (toy_regrid (visit wide_site) "s" demo_values demo_in demo_out "nn" (toy_after roomy h)) = Raise ValueError /\
  (exists i n e, current page_parse page_gunzip wide_site "s" i /\ In (n, e) i /\ answers demo_py COMPARE_KEYS 10 e demo_gi demo_go (method_alias "nn")) /\
  exists r, snd (toy_regrid (visit wide_site) "s" demo_values demo_in demo_out "nn" (toy_after roomy (h ++ [RRestart roomy]))) = Ok (r, demo_out).
Proof.
  split; [vm_compute; reflexivity|]. split; [vm_compute; reflexivity|]. split; [|eexists; vm_compute; reflexivity].
  exists [("w", toy_entry demo_index); ("n", wide_entry)], "n", wide_entry. split; [exact wide_current|]. split; [right; left; reflexivity|exact wide_answers].
Qed.

(** The matrix has another name in the index on the server, and the old file is gone.  A new process
    finds the request in the index stored earlier, does not look at the server's, and fails to
    download the old file. *)
Definition moved_index : file Z := mkFile (Some 1) (Some [("v", demo_raw)]).
Definition moved_site (u : string) : result page :=
  if String.eqb u "s/index.json.gz" then Ok (PackedIndex "3" moved_index)
  else if String.eqb u "s/index.json.sha256" then Ok (Checksum "3")
  else if String.eqb u "s/mir_16_linear/v.npz" then Ok (Npz matrix_a)
  else Raise (UserError 404).
Definition moved_entry : entry Z := match load [] moved_index with Ok ((_, e) :: _) => e | _ => mkEntry demo_gi demo_go "" demo_raw end.
Theorem C98_moved_refuted :
  let h := [visit_call old_site "nn"; RRestart roomy] in
  snd (toy_regrid (visit moved_site) "s" demo_values demo_in demo_out "linear" (toy_after roomy h)) = Raise (UserError 404) /\
  toy_now moved_site "s" demo_gi demo_go "linear" matrix_a (VList [VInt 2]) /\
  exists r, snd (toy_regrid (visit moved_site) "s" demo_values demo_in demo_out "linear" (toy_after roomy (h ++ [visit_call moved_site "nn"]))) = Ok (r, demo_out).
Proof.
  split; [vm_compute; reflexivity|]. split; [|eexists; vm_compute; reflexivity].
  exists [("v", moved_entry)], [], "v", moved_entry, [], "mir_16_linear/v.npz", (Npz matrix_a).
  split; [exists (PackedIndex "3" moved_index), (TextIndex "3" moved_index), moved_index; split; [reflexivity|]; split; [reflexivity|]; split; [reflexivity|]; vm_compute; reflexivity|].
  split; [reflexivity|]. split; [split; [|split]; vm_compute; reflexivity|]. split; [constructor|]. split; [vm_compute; reflexivity|]. split; [reflexivity|]. split; [reflexivity|vm_compute; reflexivity].
Qed.

(** The hypotheses of the theorems are met: a call was made by an earlier process with another index
    of the server, and the first call of this process misses. *)
Definition check_all (m : string) : list (@rop Z page) := [visit_call old_site "linear"; RRestart roomy; RClearMemory] ++ [visit_call newer_site m].
Example C98_met :
  let h := [visit_call old_site "linear"; RRestart roomy; RClearMemory] in
  names page_parse page_gunzip toy_sha toy_ext (served (check_all "nn")) (asked (check_all "nn")) /\
  Forall (sound_remote page_parse page_gunzip toy_sha toy_ext demo_py COMPARE_KEYS 10 (served (check_all "nn")) (asked (check_all "nn"))) (check_all "nn") /\
  first_time "s" h /\ deletable toy_sha toy_ext "/c" (visit newer_site) "s" /\
  snd (toy_find (visit newer_site) "s" demo_in demo_out "nn" (toy_after roomy h)) = Ok None.
Proof.
  assert (T : Forall toy_op (check_all "nn")) by (repeat (apply Forall_cons; [try exact I; apply toy_visit; auto using matrix_a_proper, matrix_b_proper|]); apply Forall_nil).
  split; [apply toy_names|]. split; [exact (toy_sound _ T)|]. split.
  - exists [visit_call old_site "linear"; RRestart roomy], [RClearMemory]. split; [reflexivity|]. split; [right; exists [visit_call old_site "linear"], roomy; reflexivity|]. intros x values di do m [E|[]]. discriminate E.
  - split; [repeat split|]. vm_compute. reflexivity.
Qed.
Example C98_listed_met :
  let h := [visit_call old_site "linear"; RRestart roomy; RClearMemory] in
  names page_parse page_gunzip toy_sha toy_ext (served (check_all "linear")) (asked (check_all "linear")) /\
  Forall (sound_remote page_parse page_gunzip toy_sha toy_ext demo_py COMPARE_KEYS 10 (served (check_all "linear")) (asked (check_all "linear"))) (check_all "linear") /\
  sv_get (m_server (visit newer_site)) (join_path "s" "index.json.gz") = Ok (PackedIndex "2" demo_index2) /\ page_gunzip (PackedIndex "2" demo_index2) = Ok (TextIndex "2" demo_index2) /\
  (f <- page_parse (TextIndex "2" demo_index2) ;; load [] f) = Ok [("w", toy_entry demo_index2)] /\
  (forall b d u z t, sv_get (m_server (visit newer_site)) (join_path "s" "index.json.sha256") = Ok b -> page_sha b = Ok d ->
     served (check_all "linear") u z -> page_gunzip z = Ok t -> page_digest t = Ok d -> t = TextIndex "2" demo_index2) /\
  answers demo_py COMPARE_KEYS 10 (toy_entry demo_index2) demo_gi demo_go (method_alias "linear").
Proof.
  assert (T : Forall toy_op (check_all "linear")) by (repeat (apply Forall_cons; [try exact I; apply toy_visit; auto using matrix_a_proper, matrix_b_proper|]); apply Forall_nil).
  destruct (toy_load demo_index2 (or_intror eq_refl)) as (L & Y & _).
  split; [apply toy_names|]. split; [exact (toy_sound _ T)|]. split; [reflexivity|]. split; [reflexivity|]. split; [exact L|]. split; [|exact Y].
  intros b d u z t EB ED (x & base & values & di & do & m & J & SU) GZ DG. cbn in EB. injection EB as <-. cbn in ED. injection ED as <-.
  assert (S : sv_get (m_server x) u = old_site u \/ sv_get (m_server x) u = newer_site u).
  { cbn in J. repeat (destruct J as [J|J]; [try discriminate J; injection J as <- _ _ _ _ _; auto|]). contradiction. }
  rewrite SU in S. unfold old_site, newer_site, site in S. repeat (destruct (String.eqb u _) in S; [|]); destruct S as [S|S]; try discriminate S; injection S as ->; cbn in GZ; try discriminate GZ; injection GZ as <-; cbn in DG; try discriminate DG; reflexivity.
Qed.

Print Assumptions C98_missed_partial.
Print Assumptions C98_listed_partial.
Print Assumptions C98_refuted.
Print Assumptions C98_moved_refuted.
