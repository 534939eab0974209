(** C128, examples: a directory and two servers in one process. *)
From Coq Require Import Reals Psatz.
From Verif Require Import PyBase MemCacheProofs MemCacheProofs2 ListLemmas PyStr Float64 GridSpec GridVocab GridProofs GridProofs2 FloatReal GridMatchSpec GridReal GridMatch3 GridDecide
  Index IndexSpec Db MemCache Inventory Regrid RegridSpec Key KeySpec KeyProofs System SystemSpec SystemProofs EndSpec EndProofs Props_System Props_End
  Disk DiskSpec Props_Key CacheFile Remote RemoteSpec RemoteProofs3 Props_Remote Dispatch Api ApiSpec ApiProofs Props_Api Props_ApiLocal EndRemoteSpec Props_EndRemote Props_ApiRemote2 EndApiSpec Props_EndApi EndLocalSpec Props_EndLocal
  Every EverySpec EveryProofs Props_Every Props_Every2 EndEverySpec Props_EndEvery.
Set Default Proof Using "Type".
Local Open Scope string_scope.
Local Open Scope list_scope.
Local Open Scope Z_scope.

Notation mx_at := (inventory_at page_parse page_gunzip page_digest page_sha toy_sha toy_ext 10 (mx_files matrix_b) net_site).
Notation mx_known := (asks_known page_parse page_gunzip page_digest page_sha toy_sha toy_ext ll_values ll_grid 10 (mx_files matrix_b) net_site).
Lemma cut_tail (a b c : string) : (a ++ c = b ++ c)%string -> a = b.
Proof. intros E. apply chars_inj. apply (f_equal chars) in E. rewrite !chars_app in E. exact (app_inv_tail _ _ _ E). Qed.
Lemma string_assoc (a b c : string) : ((a ++ b) ++ c = a ++ b ++ c)%string.
Proof. apply chars_inj. rewrite !chars_app, app_assoc. reflexivity. Qed.
Lemma slash_or_not s : plain_end s -> ends_with_slash s = false /\ s <> "".
Proof.
  intros (t & c & -> & N). split; [|destruct t; discriminate]. unfold ends_with_slash. rewrite chars_app, rev_app_distr. cbn. destruct (Ascii.eqb_spec c "/"%char) as [E|_]; [contradiction|].
  destruct c as [[] [] [] [] [] [] [] []]; try reflexivity; exfalso; apply N; reflexivity.
Qed.
Lemma net_base base l : serves page_parse page_gunzip page_digest page_sha 10 net_site base l ->
  join_path base "index.json" = "http://s/index.json" \/ join_path base "index.json" = "http://tt/index.json".
Proof.
  intros [_ (u & z & t & d & AD & G & GZ & _) _ _ _].
  assert (U : u = "http://s/index.json.gz" \/ u = "http://tt/index.json.gz").
  { unfold net_site in G. repeat match type of G with context [String.eqb u ?s] => destruct (String.eqb_spec u s) as [->|_]; [injection G as <-; try (left; reflexivity); try (right; reflexivity); discriminate GZ|] end. discriminate G. }
  assert (J : exists X, u = (X ++ "index.json.gz")%string /\ join_path base "index.json" = (X ++ "index.json")%string).
  { destruct AD as [[PE ->]|[(t' & E) ->]].
    - exists (base ++ "/")%string. rewrite !string_assoc. split; [reflexivity|]. destruct (slash_or_not base PE) as [E N]. unfold join_path. change (starts_with_slash "index.json") with false. cbn iota. rewrite E. destruct (String.eqb_spec base ""); [contradiction|]. reflexivity.
    - exists base. split; [reflexivity|]. unfold join_path. change (starts_with_slash "index.json") with false. cbn iota. replace (ends_with_slash base) with true; [rewrite Bool.orb_true_r; reflexivity|].
      rewrite E. unfold ends_with_slash. rewrite chars_app, rev_app_distr. reflexivity. }
  destruct J as (X & -> & ->). destruct U as [U|U]; [left|right]; f_equal.
  - change "http://s/index.json.gz" with ("http://s/" ++ "index.json.gz")%string in U. rewrite (cut_tail _ _ _ U). reflexivity.
  - change "http://tt/index.json.gz" with ("http://tt/" ++ "index.json.gz")%string in U. rewrite (cut_tail _ _ _ U). reflexivity.
Qed.
Lemma net_unpacked base l : serves page_parse page_gunzip page_digest page_sha 10 net_site base l -> ~ RemoteSpec.clash toy_sha (unpacked "http://s") (unpacked base).
Proof.
  intros SV [N E]. assert (X : unpacked base = unpacked "http://s" \/ unpacked base = unpacked "http://tt").
  { destruct (net_base base l SV) as [J|J]; [left|right]; unfold unpacked; rewrite J; reflexivity. }
  destruct X as [X|X]; rewrite X in *; [exact (N eq_refl)|vm_compute in E; discriminate E].
Qed.
Lemma mx_there : mx_at (There "http://s") net_list.
Proof.
  destruct (C126_met (net_fields "http://s" "linear")) as (SV & ON & _); [auto|]. apply on_server; [exact SV|exact ON|exact net_unpacked].
Qed.
Lemma mx_here : mx_at (Here "d") net_list.
Proof.
  apply in_directory. constructor; [reflexivity|exists "", "d"%char; split; [reflexivity|discriminate]|cbn; repeat constructor; intros []|].
  intros n r [E|[]]; injection E as <- <-; do 4 eexists; exact net_lists.
Qed.
Lemma mx_asks u db q m d : mx_inventory u db q -> q <> There "http://tt" -> net_method m -> d = mx_fields matrix_b u m \/ (exists v, d = mx_given v matrix_b u m) -> mx_known d.
Proof.
  intros MI NQ NM D x q' v di do m' RQ.
  destruct (mx_requested [d] x q' v di do m') as (z & u' & db' & MZ & -> & MI' & -> & NO & MM).
  { constructor; [|constructor]. left. exists matrix_b, u, db, q, m. split; [right; reflexivity|auto]. }
  { exists d. split; [left; reflexivity|exact RQ]. }
  assert (E : mx_meets z = mx_meets matrix_b /\ q' = q).
  { destruct RQ as (db0 & PL & DM). destruct (mx_names u db q MI) as [_ L0].
    destruct D as [->|(w & ->)]; inversion DM; subst; match goal with P : picks _ _ _ |- _ => apply (mx_picks u db q _ MI) in P; subst end; split; try reflexivity; exact (placed_one _ _ _ L0 PL). }
  destruct E as [-> ->]. split; [destruct q; cbn; intros; reflexivity|]. split.
  - exists net_list. inversion MI; subst; [exact mx_there|exfalso; apply NQ; reflexivity|exact mx_here].
  - exists (end_b None), (end_ll None). destruct here_means as (M1 & M2 & M3). split; [exact M1|]. destruct NO as [->| ->]; assumption.
Qed.
Definition every_start : list mx_call := [mx_fields matrix_b "d" "linear"; PElse mx_restart].
Definition every_rest : list mx_call := [mx_values matrix_b "http://s" "nn"; mx_fields matrix_b "d" "linear"; mx_values matrix_b "d" "linear"].
(** A directory is asked, a new process is started; a server is asked with one method and the directory
    with another. *)
Example C128_met : forall d, d = mx_values matrix_b "d" "linear" \/ d = mx_fields matrix_b "d" "linear" ->
  mx_at (Here "d") net_list /\ mx_at (There "http://s") net_list /\ proper_everywhere page_npz (mx_files matrix_b) net_site /\
  only_inventory "inventory" [("inventory", VStr "d")] (FromPath "d") /\ placed (FromPath "d") (Here "d") /\
  mx_cleared every_start /\ mx_between (every_start ++ every_rest) /\ Forall mx_known (every_start ++ every_rest ++ [d]) /\
  (forall a0 b0, asked_only_at ll_values ll_grid 10 (Here "d") every_rest a0 b0 "linear") /\
  means 10 demo_out (end_b None) /\ means 10 ll_out (end_ll None) /\ for_grid 10 ll_out (end_ll None) /\
  surely 10 (end_b None) (end_ll None) "linear" ("w", ll_raw) /\ has_weights page_npz 10 (mx_files matrix_b) net_site (Here "d") ("w", ll_raw) matrix_b [2%nat].
Proof.
  intros d D. split; [exact mx_here|]. split; [exact mx_there|].
  split. { split.
    - intros p z AL. cbn [mx_files alookup] in AL. destruct (String.eqb p "d/index.json"); [discriminate AL|]. destruct (String.eqb p "d/mir_16_linear/w.npz"); [|discriminate AL]. injection AL as <-. exact matrix_b_proper.
    - destruct (C126_met (net_fields "http://s" "linear")) as (_ & _ & PF & _); [auto|exact PF]. }
  split; [apply oi_some, (mx_names _ _ _ mi_d)|]. split; [constructor|].
  split; [right; exists [mx_fields matrix_b "d" "linear"], mx_restart; split; [reflexivity|right; exists roomy; reflexivity]|].
  split. { intros f I. cbn in I. destruct I as [I|[I|[I|[I|[I|[]]]]]]; try discriminate I. injection I as <-. exists (ERestart roomy). split; [exact Logic.I|reflexivity]. }
  assert (K1 : mx_known (mx_fields matrix_b "d" "linear")) by (apply (mx_asks "d" _ _ "linear" _ mi_d); [discriminate|left; reflexivity|left; reflexivity]).
  assert (K2 : mx_known (mx_values matrix_b "d" "linear")) by (apply (mx_asks "d" _ _ "linear" _ mi_d); [discriminate|left; reflexivity|right; eexists; reflexivity]).
  assert (K3 : mx_known (mx_values matrix_b "http://s" "nn")) by (apply (mx_asks "http://s" _ _ "nn" _ mi_s); [discriminate|right; reflexivity|right; eexists; reflexivity]).
  assert (K4 : mx_known (PElse mx_restart)) by (intros x q v di do m (db & _ & DM); inversion DM).
  split. { repeat (apply Forall_cons; [first [exact K1|exact K2|exact K3|exact K4|destruct D as [->| ->]; assumption]|]). apply Forall_nil. }
  split. { intros a0 b0 x q' v di do a b (d' & I & db & L & DM) _ _ _ _.
    assert (X : d' = mx_fields matrix_b "d" "linear" \/ d' = mx_values matrix_b "d" "linear" -> q' = Here "d").
    { intros E. destruct E as [-> | ->]; inversion DM; subst; match goal with P : picks _ _ _ |- _ => apply (mx_picks "d" _ _ _ mi_d) in P; subst end; exact (placed_one _ _ _ (proj2 (mx_names _ _ _ mi_d)) L). }
    cbn in I. destruct I as [<-|[<-|[<-|[]]]]; [inversion DM|auto|auto]. }
  destruct here_means as (M1 & M2 & _). split; [exact M1|]. split; [exact M2|]. split; [exact net_reads_out|]. split; [exact net_surely|].
  exists (end_b None), (end_ll (Some [2])), "linear", "mir_16_linear/w.npz". split; [exact net_lists|]. split; reflexivity.
Qed.
(** The theorems applied to this history. *)
Example C128_array_used : exists r,
  map (Regrid.item r) [[0%nat]; [1%nat]] = [21; 69] /\
  (same_hash toy_sha demo_text ll_values ll_grid (every_rest ++ [mx_values matrix_b "d" "linear"]) demo_out ll_out "linear" \/
   answered_at 0 Z.add Z.mul page_npz 10 (mx_files matrix_b) net_site (Here "d") net_list (end_b None) (end_ll None) "linear" demo_values r).
Proof.
  assert (X : exists r, snd (mx_array (mx_meets matrix_b) demo_values (Some demo_out) (Some ll_out) (VStr "linear") (VStr "precomputed") [("inventory", VStr "d")] (mx_after (every_start ++ every_rest))) = Ok (r, ll_out) /\
    map (Regrid.item r) [[0%nat]; [1%nat]] = [21; 69]) by (eexists; split; vm_compute; reflexivity).
  destruct X as (r & R & E). exists r. split; [exact E|]. destruct C93_met as (WP & _).
  destruct (C128_met (mx_values matrix_b "d" "linear")) as (IV & _ & PF & OI & PL & CL & KB & AS & OH & MA & MB & _); [auto|].
  exact (proj2 (C128_array 0 Z.add Z.mul page_parse page_gunzip page_digest page_sha page_npz page_weigh toy_sha "/c" None None true false toy_ext demo_py COMPARE_KEYS 10 (fun x : Z => x) demo_text
    ll_mir ll_grib ll_values ll_grid ll_with ll_message ll_of_message (mx_files matrix_b) net_site (incl_refl _) (incl_refl _) WP toy_length demo_texts toy_cache_names
    roomy every_start every_rest (mx_meets matrix_b) (FromPath "d") (Here "d") net_list _ demo_values demo_out ll_out (end_b None) (end_ll None) "linear" r ll_out _ eq_refl IV PF OI PL CL KB AS (OH _ _) MA MB R)).
Qed.
Example C128_fields_used : exists rs,
  snd (mx_regrid (mx_meets matrix_b) (DFields [ll_one; ll_two]) (Some ll_out) (VStr "linear") (VStr "precomputed") [("inventory", VStr "d")] (mx_after (every_start ++ every_rest))) = Ok (DFields rs) /\ List.length rs = 2%nat /\
  exists dx dy n w s e dec, geometry (end_ll None) = LatLon dx dy n w s e dec.
Proof.
  assert (X : exists rs, snd (mx_regrid (mx_meets matrix_b) (DFields [ll_one; ll_two]) (Some ll_out) (VStr "linear") (VStr "precomputed") [("inventory", VStr "d")] (mx_after (every_start ++ every_rest))) = Ok (DFields rs) /\ List.length rs = 2%nat)
    by (eexists; split; vm_compute; reflexivity).
  destruct X as (rs & R & E). exists rs. split; [exact R|]. split; [exact E|]. destruct C93_met as (WP & _).
  destruct (C128_met (mx_fields matrix_b "d" "linear")) as (IV & _ & PF & OI & PL & CL & KB & AS & OH & MA & MB & FG & _); [auto|].
  exact (proj1 (C128_fields 0 Z.add Z.mul page_parse page_gunzip page_digest page_sha page_npz page_weigh toy_sha "/c" None None true false toy_ext demo_py COMPARE_KEYS 10 (fun x : Z => x) demo_text
    ll_mir ll_grib ll_values ll_grid ll_with ll_message ll_of_message (mx_files matrix_b) net_site (incl_refl _) (incl_refl _) WP toy_length demo_texts toy_cache_names
    roomy every_start every_rest (mx_meets matrix_b) (FromPath "d") (Here "d") net_list _ [ll_one; ll_two] ll_out ll_gs (end_ll None) "linear" _ _ eq_refl IV PF OI PL CL KB AS (fun _ _ _ _ _ _ _ => OH _ _) FG ltac:(vm_compute; reflexivity) R)).
Qed.

Print Assumptions C128_array.
Print Assumptions C128_fields.
