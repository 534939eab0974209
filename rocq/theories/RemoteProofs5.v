(** Lemmas about remote inventories: the checksum kept with an index is that of its text, and a
    comparison with the server makes the index the current one. *)
From Verif Require Import PyBase ListLemmas PyStr Float64 GridSpec GridVocab GridProofs GridProofs3 Index IndexSpec IndexProofs IndexProofs2
  Db MemCache MemCacheProofs MemCacheProofs2 Inventory Regrid System SystemSpec SystemProofs
  Disk DiskSpec DiskProofs DiskProofs2 Props_Disk Key KeySpec KeyProofs Props_Key CacheFile Props_CacheFile Remote RemoteSpec RemoteProofs RemoteProofs2.
Set Default Proof Using "Type".
Local Open Scope string_scope.
Local Open Scope list_scope.
Local Open Scope Z_scope.

(** ** What the manager does with the data of the entries *)
Definition data_of (d : disk json) (p : string) : option json := match find_row d p with Some r => r_data r | None => None end.
Definition inherits (d d' : disk json) : Prop :=
  forall r', In r' (rows d') -> r_data r' = None \/ exists r, In r (rows d) /\ r_path r = r_path r' /\ r_data r = r_data r'.
Lemma inherits_refl d : inherits d d.
Proof. intros r I. right. exists r. auto. Qed.
Lemma inherits_incl d d' : incl (rows d') (rows d) -> inherits d d'.
Proof. intros S r I. right. exists r. split; [apply S, I|auto]. Qed.
Lemma inherits_trans d d1 d2 : inherits d d1 -> inherits d1 d2 -> inherits d d2.
Proof.
  intros H K r I. destruct (K r I) as [N|(r1 & I1 & P1 & D1)]; [left; exact N|]. destruct (H r1 I1) as [N|(r0 & I0 & P0 & D0)]; [left; congruence|].
  right. exists r0. split; [exact I0|]. split; congruence.
Qed.
Lemma find_row_in (d : disk json) p r : find_row d p = Some r -> In r (rows d) /\ r_path r = p.
Proof. unfold find_row. intros E. apply List.find_some in E. destruct E as [I E]. apply String.eqb_eq in E. auto. Qed.
Lemma find_row_unique (d : disk json) r : NoDup (map r_path (rows d)) -> In r (rows d) -> find_row d (r_path r) = Some r.
Proof.
  intros N I. destruct (find_row d (r_path r)) as [r'|] eqn:F.
  - apply find_row_in in F. destruct F as [I' P]. f_equal. exact (row_unique d r' r N I' I P).
  - apply find_row_None in F. exfalso. apply F, in_map, I.
Qed.
Lemma inherits_data d d' p j : NoDup (map r_path (rows d)) -> inherits d d' -> data_of d' p = Some j -> data_of d p = Some j.
Proof.
  intros N H E. unfold data_of in E. destruct (find_row d' p) as [r'|] eqn:F; [|discriminate E]. apply find_row_in in F. destruct F as [I P].
  destruct (H r' I) as [X|(r & I0 & P0 & D0)]; [congruence|]. unfold data_of. rewrite <- P, <- P0, (find_row_unique d r N I0). congruence.
Qed.
Lemma cut_inherits lk (d : disk json) ps d' : cut lk d ps d' -> inherits d d'.
Proof. intros C. apply inherits_incl. exact (cut_incl _ _ _ _ C). Qed.
Lemma register_inherits dir t p o a q (d d' : disk json) : register dir t p o a q d = Ok d' -> inherits d d'.
Proof.
  unfold register. destruct (negb (in_cache dir p)); [discriminate|]. destruct (find_row d p) as [r1|]; intros E; injection E as <-; intros r I; cbn [rows] in I.
  - apply in_map_iff in I. destruct I as (r0 & <- & I). right. exists r0. split; [exact I|]. destruct (String.eqb (r_path r0) p); auto.
  - apply in_app_or in I. destruct I as [I|[<-|[]]]; [right; exists r; auto|left; reflexivity].
Qed.
Lemma update_cache_inherits clean (d : disk json) : inherits d (update_cache clean d).
Proof.
  intros r I. cbn [update_cache rows] in I. apply in_flat_map in I. destruct I as (r0 & I0 & I). right. exists r0. split; [exact I0|].
  destruct (update_row_cases _ _ _ _ I) as [->|(_ & n & _ & ->)]; auto.
Qed.
Lemma housekeeping_inherits dir e clean (d d' : disk json) : housekeeping JNull dir e clean d = Ok d' -> inherits d d'.
Proof.
  unfold housekeeping. set (f := register_orphan JNull dir e).
  assert (X : forall l d0 d1, fold_left f l (Ok d0) = Ok d1 -> inherits d0 d1).
  { assert (NO : forall l d1 (r : result (disk json)), (forall d0, r <> Ok d0) -> fold_left f l r <> Ok d1).
    { induction l as [|n l IH]; intros d1 r N; cbn [fold_left]; [apply N|]. apply IH. intros d0. unfold f, register_orphan. destruct r as [x|y|]; [destruct (N x eq_refl)|discriminate..]. }
    induction l as [|n l IH]; intros d0 d1 E; cbn [fold_left] in E; [injection E as <-; apply inherits_refl|].
    destruct (f (Ok d0) n) as [d2|y|] eqn:F; [|exfalso; refine (NO l d1 _ _ E); intros ? ?; discriminate..].
    apply (inherits_trans _ d2); [|exact (IH _ _ E)]. unfold f, register_orphan in F. cbn [bind] in F. destruct (String.eqb n CACHE_DB); [injection F as <-; apply inherits_refl|].
    destruct (find_row d0 (join dir n)); [injection F as <-; apply inherits_refl|]. destruct (recent e (join dir n)); [injection F as <-; apply inherits_refl|]. exact (register_inherits _ _ _ _ _ _ _ _ F). }
  destruct (fold_left f (listdir dir d) (Ok d)) as [d1|y|] eqn:F; cbn [bind]; [|discriminate..]. intros E. injection E as <-. apply (inherits_trans _ d1); [exact (X _ _ _ F)|apply update_cache_inherits].
Qed.
Lemma decache_inherits dir e latest bytes (d d' : disk json) r : tidy dir d -> decache dir e latest bytes d = Ok (d', r) -> inherits d d'.
Proof.
  intros T E. destruct (decache_any dir e latest bytes d T) as (d1 & r1 & E1 & H). rewrite E in E1. injection E1 as <- _. destruct H as [->|[(ev & CU & _) _]]; [apply inherits_refl|exact (cut_inherits _ _ _ _ CU)].
Qed.
Lemma check_inherits dir e limit usage (d d' : disk json) : tidy dir d -> check_cache_size JNull dir e limit usage d = Ok d' -> inherits d d'.
Proof.
  intros T. unfold check_cache_size.
  assert (STEP : forall bytes d0 d1, tidy dir d0 -> (h <- housekeeping JNull dir e false d0 ;; r <- decache dir e (latest_date (now e) h) bytes h ;; Ok (fst r)) = Ok d1 -> inherits d0 d1 /\ tidy dir d1).
  { intros bytes d0 d1 T0 E. destruct (housekeeping_spec JNull dir e false d0 T0) as (h & E1 & TH & _). rewrite E1 in E. cbn [bind] in E.
    destruct (decache_any' dir e (latest_date (now e) h) bytes h TH) as (d2 & r & E2 & T2 & _). rewrite E2 in E. injection E as <-. split; [|exact T2].
    apply (inherits_trans _ h); [exact (housekeeping_inherits _ _ _ _ _ E1)|exact (decache_inherits _ _ _ _ _ _ _ TH E2)]. }
  assert (SAME : forall d0 d1 : disk json, Ok d0 = Ok d1 -> tidy dir d0 -> inherits d0 d1 /\ tidy dir d1) by (intros d0 d1 E T0; injection E as <-; split; [apply inherits_refl|exact T0]).
  match goal with |- bind ?a _ = _ -> _ => destruct a as [d1|y|] eqn:E1; cbn [bind]; [|discriminate..] end. intros E2.
  assert (H1 : inherits d d1 /\ tidy dir d1). { destruct limit as [m|]; [|exact (SAME _ _ E1 T)]. destruct (cache_size d >? m); [exact (STEP _ _ _ T E1)|exact (SAME _ _ E1 T)]. }
  destruct H1 as [H1 T1]. apply (inherits_trans _ d1); [exact H1|]. destruct usage as [u|]; [|exact (proj1 (SAME _ _ E2 T1))].
  revert E2. match goal with |- (if ?b then _ else _) = _ -> _ => destruct b end; intros E2; [exact (proj1 (STEP _ _ _ T1 E2))|exact (proj1 (SAME _ _ E2 T1))].
Qed.
Lemma purge_inherits dir e latest (d d' : disk json) : tidy dir d -> purge JNull dir e latest d = Ok d' -> inherits d d'.
Proof.
  intros T E. unfold purge in E. destruct (housekeeping_spec JNull dir e true d T) as (h & E1 & TH & _). rewrite E1 in E. cbn [bind] in E.
  destruct (decache dir e latest (cache_size h) h) as [[d2 r]|y|] eqn:E2; [|discriminate E..]. injection E as <-.
  apply (inherits_trans _ h); [exact (housekeeping_inherits _ _ _ _ _ E1)|exact (decache_inherits _ _ _ _ _ _ _ TH E2)].
Qed.

Section Stamped.
  Context {A rest blob : Type}.
  Variable parse : blob -> result (file rest).
  Variable gunzip : blob -> result blob.
  Variable digest : blob -> result string.
  Variable read_sha : blob -> result string.
  Variable load_npz : blob -> result (csr A).
  Variable weigh : blob -> node.
  Variable sha : string -> string.
  Variable dir : string.
  Variables limit usage : option Z.
  Variables check fetch : bool.
  Variable ext_of : string -> string.
  Variables (py_str : val -> string) (key_order : list string) (fuel : nat).
  Variable S : string -> blob -> Prop.
  Variable B : string -> Prop.
  Hypothesis WP : forall c, 0 <= n_size (weigh c).
  Hypothesis NM : names parse gunzip sha ext_of S B.
  Hypothesis FL : fixed_length sha.
  Notation world := (@world blob).
  Notation meets := (@meets blob).
  Notation rst := (@rst rest blob).
  Notation cache_file := (cache_file weigh sha dir limit usage).
  Notation create_file := (create_file weigh dir limit usage).
  Notation path_of := (path_of sha dir).
  Notation file_request := (file_request ext_of).
  Notation ours := (our_request parse gunzip sha ext_of S B).
  Notation address := (address parse gunzip sha ext_of S B).
  Notation good := (good parse gunzip sha dir ext_of S B).
  Notation shrinks := (shrinks dir).
  Notation serves := (serves S).
  Notation free := (free sha ext_of dir).
  Notation rst_ok := (rst_ok parse gunzip sha dir ext_of fuel S B).
  Notation download := (download weigh sha dir limit usage check fetch ext_of).
  Notation remote_sha := (remote_sha read_sha weigh sha dir limit usage check fetch ext_of).
  Notation create_index := (create_index gunzip digest weigh sha dir limit usage check fetch ext_of).
  Notation get_index := (get_index gunzip digest read_sha weigh sha dir limit usage check fetch ext_of).
  Notation got_index := (got_index gunzip digest read_sha weigh sha dir limit usage check fetch ext_of).
  Notation index_path := (index_path gunzip digest read_sha weigh sha dir limit usage check fetch ext_of).
  Notation load_index := (load_index parse gunzip digest read_sha weigh sha dir limit usage check fetch ext_of).
  Notation get_or_load := (get_or_load parse gunzip digest read_sha weigh sha dir limit usage check fetch ext_of).
  Notation index_find := (index_find py_str key_order fuel).
  Notation find_entry := (find_entry parse gunzip digest read_sha weigh sha dir limit usage check fetch ext_of py_str key_order fuel).
  Notation load_weights := (load_weights load_npz weigh sha dir limit usage check fetch ext_of).
  Implicit Types (x : meets) (w : world) (s : rst) (q : Key.request).

  (** The checksum kept with the file [p], if any, is that of its text. *)
  Definition stamped_at w p : Prop := forall t c, content w p = Some t -> stored_sha (data_of (w_disk w) p) = Some c -> digest t = Ok c.
  Definition stamped w : Prop := forall b, B b -> stamped_at w (path_of (unpacked b)).
  Definition fine w : Prop := good w /\ stamped w.
  Definition drops w w' : Prop := shrinks w w' /\ inherits (w_disk w) (w_disk w').

  Lemma stored_some (o : option json) c : stored_sha o = Some c -> exists j, o = Some j.
  Proof. destruct o as [j|]; [eauto|discriminate]. Qed.
  Lemma stamped_drops w w' p : tidy dir (w_disk w) -> drops w w' -> stamped_at w p -> stamped_at w' p.
  Proof.
    intros T [SH IH] H t c CT ST. apply (H t c); [exact (shrinks_content dir _ _ _ _ SH CT)|]. destruct (stored_some _ _ ST) as (j & E). rewrite (inherits_data _ _ _ j (t_rows _ _ T) IH E). rewrite <- E. exact ST.
  Qed.
  Lemma fine_drops w w' : fine w -> drops w w' -> fine w'.
  Proof. intros [G H] D. split; [exact (good_shrinks _ _ _ _ _ _ _ _ _ G (proj1 D))|]. intros b BB. apply (stamped_drops w w'); [apply G|exact D|exact (H b BB)]. Qed.
  Lemma manager_drops f w : tidy dir (w_disk w) -> shrinks w (fst (manager f w)) -> (forall d, f (w_disk w) = Ok d -> inherits (w_disk w) d) -> drops w (fst (manager f w)).
  Proof. intros T SH H. split; [exact SH|]. unfold manager. destruct (f (w_disk w)) as [d|y|]; cbn [fst w_disk]; [apply H; reflexivity|apply inherits_refl..]. Qed.
  Lemma register_drops t q w : ours q -> tidy dir (w_disk w) -> exists w1, register_file dir t (path_of q) q w = (w1, Ok tt) /\ drops w w1 /\ forall p, there w1 p = there w p.
  Proof using NM.
    intros O T. destruct (register_shrinks parse gunzip sha dir ext_of S B NM t q w O T) as (w1 & E & SH & TH). exists w1. split; [exact E|]. split; [|exact TH].
    split; [exact SH|]. unfold register_file, manager in E. destruct (register dir t (path_of q) (q_owner q) (q_args q) None (w_disk w)) as [d|y|] eqn:R; [|discriminate E..]. injection E as <-. exact (register_inherits _ _ _ _ _ _ _ _ R).
  Qed.
  Lemma decache_drops e q w : ours q -> tidy dir (w_disk w) -> exists w1, manager (decache_file dir e (path_of q)) w = (w1, Ok tt) /\ drops w w1 /\ (locked e (path_of q) = false -> there w1 (path_of q) = false).
  Proof using NM.
    intros O T. pose proof (ours_inside parse gunzip sha dir ext_of S B NM q O) as IN.
    destruct (delete_entry_spec dir e (depth (w_disk w)) (w_disk w) (path_of q) (match alookup (path_of q) (files (w_disk w)) with Some n => n_size n | None => 0 end) T IN) as (d3 & t & E3 & CU & _).
    { intros r I. apply depth_bound. exact I. } { unfold depth. clear. lia. }
    exists (mkWorld d3 (w_text w) (w_log w)). split; [unfold manager, decache_file; rewrite E3; reflexivity|].
    split; [split; [apply disk_shrinks; [exact (cut_tidy dir _ _ _ _ CU T)|]; intros y; apply (cut_files_incl _ _ _ _ _ CU)|exact (cut_inherits _ _ _ _ CU)]|].
    intros LK. destruct (there (mkWorld d3 (w_text w) (w_log w)) (path_of q)) eqn:TH; [|reflexivity]. apply there_In in TH. exfalso. exact (c_removed _ _ _ _ CU _ (or_introl (or_introl eq_refl)) LK TH).
  Qed.
  Lemma check_drops e w : tidy dir (w_disk w) -> drops w (manager_async (check_cache_size JNull dir e limit usage) w).
  Proof. intros T. apply manager_drops; [exact T|exact (check_shrinks dir limit usage e w T)|]. intros d E. exact (check_inherits dir e limit usage _ _ T E). Qed.
  Lemma purge_drops e latest w : tidy dir (w_disk w) -> drops w (fst (manager (purge JNull dir e latest) w)).
  Proof. intros T. apply manager_drops; [exact T|exact (purge_shrinks dir e latest w T)|]. intros d E. exact (purge_inherits dir e latest _ _ T E). Qed.
  Lemma erase_drops p w : tidy dir (w_disk w) -> drops w (erase p w).
  Proof. intros T. split; [exact (erase_shrinks dir p w T)|]. intros r I. right. exists r. auto. Qed.
  Lemma drops_trans a b c : drops a b -> drops b c -> drops a c.
  Proof. intros [S1 I1] [S2 I2]. split; [exact (shrinks_trans dir _ _ _ S1 S2)|exact (inherits_trans _ _ _ I1 I2)]. Qed.

  Lemma write_tmp_fine q c w : fine w -> fine (write weigh (path_of q ++ ".tmp")%string c w).
  Proof using WP NM.
    intros [G H]. split; [exact (write_tmp_good parse gunzip weigh sha dir ext_of S B WP q c w G)|]. intros b BB t d CT ST. apply (H b BB t d); [|exact ST]. rewrite content_write in CT.
    destruct (String.eqb_spec (path_of (unpacked b)) (path_of q ++ ".tmp")) as [E|_]; [|exact CT]. exfalso. rewrite tmp_path in E. exact (ours_not_tmp parse gunzip sha dir ext_of S B NM (unpacked b) _ (or_intror (ex_intro _ b (conj BB eq_refl))) E).
  Qed.
  (** A creation function that keeps things fine and hands back the checksum of an index. *)
  Definition creates_fine q (create : creator) : Prop := forall w, fine w ->
    let '(w1, r) := create (path_of q ++ ".tmp")%string (q_args q) w in
    fine w1 /\ forall j c, r = Ok j -> content w1 (path_of q ++ ".tmp")%string = Some c -> forall b, B b -> path_of (unpacked b) = path_of q -> forall d, stored_sha (Some j) = Some d -> digest c = Ok d.
  Definition asks_fine q (f : force) : Prop := match f with FFlag _ => True | FCall g => forall o w, fine w -> fine (fst (g (q_args q) (path_of q) o w)) end.

  Lemma find_map (f : row json -> row json) (d : list (row json)) p : (forall r, r_path (f r) = r_path r) -> List.find (fun r => String.eqb (r_path r) p) (map f d) = option_map f (List.find (fun r => String.eqb (r_path r) p) d).
  Proof. intros P. induction d as [|r d IH]; [reflexivity|]. cbn [map List.find]. rewrite P. destruct (String.eqb (r_path r) p); [reflexivity|exact IH]. Qed.
  (** After the creation: what is at the path is what the creation function wrote, if anything. *)
  Lemma create_file_fine a q create w : ours q -> fine w -> creates_right parse gunzip sha dir ext_of S B q create -> creates_fine q create ->
    fine (fst (create_file a q (path_of q) create w)) /\
    forall p t, snd (create_file a q (path_of q) create w) = Ok p -> content (fst (create_file a q (path_of q) create w)) (path_of q) = Some t ->
      exists w1 j, create (path_of q ++ ".tmp")%string (q_args q) (logged (path_of q) w) = (w1, Ok j) /\ content w1 (path_of q ++ ".tmp")%string = Some t.
  Proof using WP NM.
    intros O FI CR CF. pose proof (create_file_good parse gunzip weigh sha dir limit usage ext_of S B WP NM a q create w O (proj1 FI) CR) as [GG _].
    unfold CacheFile.create_file in *. assert (GL : fine (logged (path_of q) w)) by exact FI. pose proof (CR _ (proj1 GL)) as CR1. specialize (CF _ GL).
    destruct (create (path_of q ++ ".tmp")%string (q_args q) (logged (path_of q) w)) as [w1 r]. destruct CF as [F1 C1], CR1 as [_ _]. destruct r as [j|e|]; [|split; [exact F1|discriminate]..].
    rewrite andthen_ok in *. unfold rename in *. destruct (content w1 (path_of q ++ ".tmp")) as [c|] eqn:CT; [|split; [exact F1|discriminate]]. rewrite andthen_ok in *. specialize (C1 j c eq_refl eq_refl).
    set (w2 := write weigh (path_of q) c (erase (path_of q ++ ".tmp") w1)) in *.
    assert (T2 : tidy dir (w_disk w2)) by (apply write_tidy; [exact WP|apply erase_tidy, F1]).
    assert (H2 : In (path_of q) (akeys (files (w_disk w2)))) by (apply there_In; unfold w2; rewrite there_write, String.eqb_refl; reflexivity).
    destruct (update_ok dir (path_of q) j _ (ours_inside parse gunzip sha dir ext_of S B NM q O) T2 H2) as (n & d3 & _ & E3 & T3 & F3 & R3).
    assert (M : manager (update_entry dir (path_of q) j) w2 = (mkWorld d3 (w_text w2) (w_log w2), Ok tt)) by (unfold manager; rewrite E3; reflexivity). rewrite M, andthen_ok in *. cbn [fst snd] in *.
    set (w3 := mkWorld d3 (w_text w2) (w_log w2)) in *.
    assert (C3 : forall p, content w3 p = if String.eqb p (path_of q) then Some c else if String.eqb p (path_of q ++ ".tmp") then None else content w1 p).
    { intros p. rewrite <- (content_erase (path_of q ++ ".tmp") w1 p), <- content_write with (weigh := weigh). fold w2. unfold content, there, w3, file_exists. cbn [w_disk w_text]. rewrite F3. reflexivity. }
    assert (ST3 : stamped w3).
    { intros b BB t d CB SB. rewrite C3 in CB.
      assert (D3 : data_of d3 (path_of (unpacked b)) = if String.eqb (path_of (unpacked b)) (path_of q) then match find_row (w_disk w1) (path_of (unpacked b)) with Some _ => Some j | None => None end else data_of (w_disk w1) (path_of (unpacked b))).
      { unfold data_of, find_row. rewrite R3. change (rows (w_disk w2)) with (rows (w_disk w1)). rewrite find_map by (intros r; destruct (String.eqb (r_path r) (path_of q)); reflexivity).
        destruct (List.find (fun r => String.eqb (r_path r) (path_of (unpacked b))) (rows (w_disk w1))) as [r|] eqn:FR; cbn [option_map]; [|destruct (String.eqb _ _); reflexivity].
        apply List.find_some in FR. destruct FR as [_ FR]. apply String.eqb_eq in FR. rewrite FR. destruct (String.eqb (path_of (unpacked b)) (path_of q)); reflexivity. }
      cbn [w_disk w3] in SB. rewrite D3 in SB. destruct (String.eqb_spec (path_of (unpacked b)) (path_of q)) as [E|NE].
      - injection CB as <-. destruct (find_row (w_disk w1) (path_of (unpacked b))); [|discriminate SB]. exact (C1 b BB E d SB).
      - destruct (String.eqb (path_of (unpacked b)) (path_of q ++ ".tmp")); [discriminate CB|]. exact (proj2 F1 b BB t d CB SB). }
    pose proof (check_drops (a_check a) w3 T3) as DR. split.
    - split; [exact GG|]. intros b BB. apply (stamped_drops w3); [exact T3|exact DR|exact (ST3 b BB)].
    - intros p t _ CC. apply (shrinks_content dir _ _ _ _ (proj1 DR)) in CC. rewrite C3, String.eqb_refl in CC. injection CC as <-. exists w1, j. auto.
  Qed.

  Lemma owner_is w p : owner_data w p = data_of (w_disk w) p.
  Proof. reflexivity. Qed.
  (** A call of [cache_file]: the file at the path is a new one, or the force function had it kept,
      or it could not be deleted. *)
  Lemma cache_fine a q f create w : ours q -> fine w -> creates_right parse gunzip sha dir ext_of S B q create -> creates_fine q create -> asks_well parse gunzip sha dir ext_of S B q f -> asks_fine q f ->
    fine (fst (cache_file a q f create w)) /\
    forall p t, snd (cache_file a q f create w) = Ok p -> content (fst (cache_file a q f create w)) (path_of q) = Some t ->
      (exists v w1 j, fine v /\ create (path_of q ++ ".tmp")%string (q_args q) v = (w1, Ok j) /\ content w1 (path_of q ++ ".tmp")%string = Some t) \/
      (there w (path_of q) = true /\ exists w1 w2 b, fine w1 /\ drops w w1 /\ says f q (path_of q) w1 = (w2, Ok b) /\ content w2 (path_of q) = Some t /\ (b = false \/ locked (a_delete a) (path_of q) = true)).
  Proof using WP NM.
    intros O FI CR CF AW AF. unfold CacheFile.cache_file. fold (path_of q).
    destruct (register_drops (a_time a) q w O (proj1 (proj1 (proj1 FI)))) as (w1 & E1 & D1 & TH1). rewrite E1, andthen_ok. pose proof (fine_drops _ _ FI D1) as F1.
    assert (F2 : fine (fst (decide q (path_of q) f w1))). { unfold decide. destruct (there w1 (path_of q)); [|exact F1]. destruct f as [b|g]; [exact F1|]. apply AF, F1. }
    assert (SY : there w1 (path_of q) = true -> decide q (path_of q) f w1 = says f q (path_of q) w1) by (intros X; unfold decide; rewrite X; reflexivity).
    assert (SN : there w1 (path_of q) = false -> decide q (path_of q) f w1 = (w1, Ok false)) by (intros X; unfold decide; rewrite X; reflexivity).
    destruct (decide q (path_of q) f w1) as [w2 r]. cbn [fst] in F2. destruct r as [forced|e|]; [|split; [exact F2|discriminate]..]. rewrite andthen_ok.
    assert (X : exists w3, (if forced then andthen (manager (decache_file dir (a_delete a) (path_of q)) w2) (fun _ w3 => register_file dir (a_again a) (path_of q) q w3) else (w2, Ok tt)) = (w3, Ok tt) /\ fine w3 /\ drops w2 w3 /\
      (there w3 (path_of q) = true -> forced = false \/ locked (a_delete a) (path_of q) = true)).
    { destruct forced; [|exists w2; split; [reflexivity|]; split; [exact F2|]; split; [split; [split; [apply F2|auto]|apply inherits_refl]|auto]].
      destruct (decache_drops (a_delete a) q w2 O (proj1 (proj1 (proj1 F2)))) as (w3 & E3 & D3 & L3). rewrite E3, andthen_ok. pose proof (fine_drops _ _ F2 D3) as F3.
      destruct (register_drops (a_again a) q w3 O (proj1 (proj1 (proj1 F3)))) as (w4 & E4 & D4 & TH4). exists w4. split; [exact E4|]. split; [exact (fine_drops _ _ F3 D4)|]. split; [exact (drops_trans _ _ _ D3 D4)|].
      rewrite TH4. intros Y. right. destruct (locked (a_delete a) (path_of q)); [reflexivity|]. rewrite (L3 eq_refl) in Y. discriminate Y. }
    destruct X as (w3 & -> & F3 & D3 & L3). rewrite andthen_ok. destruct (there w3 (path_of q)) eqn:TH3.
    - cbn [fst snd]. split; [exact F3|]. intros p t _ CT. right. pose proof (shrinks_content dir _ _ _ _ (proj1 D3) CT) as C2. destruct (there w1 (path_of q)) eqn:T1.
      + rewrite <- TH1. split; [exact T1|]. exists w1, w2, forced. split; [exact F1|]. split; [exact D1|]. split; [symmetry; exact (SY eq_refl)|]. split; [exact C2|exact (L3 eq_refl)].
      + exfalso. specialize (SN eq_refl). injection SN as -> ->. pose proof (proj2 (proj2 (proj1 D3)) _ TH3). congruence.
    - destruct (create_file_fine a q create w3 O F3 CR CF) as [H1 H2]. split; [exact H1|]. intros p t EP CT. left. destruct (H2 p t EP CT) as (v & j & EC & CC). exists (logged (path_of q) w3), v, j. split; [exact F3|auto].
  Qed.
  (** Elsewhere nothing appears, if the creation function writes to its target only. *)
  Definition writes_only (create : creator) : Prop := forall target args w p t, p <> target -> content (fst (create target args w)) p = Some t -> content w p = Some t.
  Lemma drops_content w w' p t : drops w w' -> content w' p = Some t -> content w p = Some t.
  Proof. intros [SH _]. exact (shrinks_content dir _ _ _ _ SH). Qed.
  Lemma create_file_elsewhere a q create w p t : ours q -> fine w -> creates_right parse gunzip sha dir ext_of S B q create -> creates_fine q create -> writes_only create ->
    p <> path_of q -> p <> (path_of q ++ ".tmp")%string -> content (fst (create_file a q (path_of q) create w)) p = Some t -> content w p = Some t.
  Proof using WP NM.
    intros O FI CR CF WO NP NT. unfold CacheFile.create_file. specialize (WO (path_of q ++ ".tmp")%string (q_args q) (logged (path_of q) w) p t NT). specialize (CF (logged (path_of q) w) FI).
    destruct (create (path_of q ++ ".tmp")%string (q_args q) (logged (path_of q) w)) as [w1 r]. cbn [fst] in WO. change (content (logged (path_of q) w) p) with (content w p) in WO. destruct CF as [F1 _]. destruct r as [j|e|]; [|exact WO..].
    rewrite andthen_ok. unfold rename. destruct (content w1 (path_of q ++ ".tmp")) as [c|]; [|exact WO]. rewrite andthen_ok.
    set (w2 := write weigh (path_of q) c (erase (path_of q ++ ".tmp") w1)).
    assert (T2 : tidy dir (w_disk w2)) by (apply write_tidy; [exact WP|apply erase_tidy, F1]).
    assert (H2 : In (path_of q) (akeys (files (w_disk w2)))) by (apply there_In; unfold w2; rewrite there_write, String.eqb_refl; reflexivity).
    destruct (update_ok dir (path_of q) j _ (ours_inside parse gunzip sha dir ext_of S B NM q O) T2 H2) as (n & d3 & _ & E3 & T3 & F3 & R3).
    assert (M : manager (update_entry dir (path_of q) j) w2 = (mkWorld d3 (w_text w2) (w_log w2), Ok tt)) by (unfold manager; rewrite E3; reflexivity). rewrite M, andthen_ok. cbn [fst].
    intros CT. apply (drops_content _ _ _ _ (check_drops (a_check a) (mkWorld d3 (w_text w2) (w_log w2)) T3)) in CT. apply WO.
    assert (CT2 : content w2 p = Some t). { unfold content, there, file_exists in CT |- *. cbn [w_disk w_text] in CT. rewrite F3 in CT. exact CT. }
    unfold w2 in CT2. rewrite content_write, content_erase in CT2. apply String.eqb_neq in NP, NT. rewrite NP, NT in CT2. exact CT2.
  Qed.
  Lemma cache_elsewhere a q b create w p t : ours q -> fine w -> creates_right parse gunzip sha dir ext_of S B q create -> creates_fine q create -> writes_only create ->
    p <> path_of q -> p <> (path_of q ++ ".tmp")%string -> content (fst (cache_file a q (FFlag b) create w)) p = Some t -> content w p = Some t.
  Proof using WP NM.
    intros O FI CR CF WO NP NT. unfold CacheFile.cache_file. fold (path_of q).
    destruct (register_drops (a_time a) q w O (proj1 (proj1 (proj1 FI)))) as (w1 & E1 & D1 & TH1). rewrite E1, andthen_ok. pose proof (fine_drops _ _ FI D1) as F1.
    assert (DE : exists c, decide q (path_of q) (FFlag b) w1 = (w1, Ok c)) by (unfold decide; destruct (there w1 (path_of q)); eauto). destruct DE as (c & ->). rewrite andthen_ok.
    assert (X : exists w3, (if c then andthen (manager (decache_file dir (a_delete a) (path_of q)) w1) (fun _ w3 => register_file dir (a_again a) (path_of q) q w3) else (w1, Ok tt)) = (w3, Ok tt) /\ fine w3 /\ drops w w3).
    { destruct c; [|exists w1; split; [reflexivity|]; auto].
      destruct (decache_drops (a_delete a) q w1 O (proj1 (proj1 (proj1 F1)))) as (w3 & E3 & D3 & L3). rewrite E3, andthen_ok. pose proof (fine_drops _ _ F1 D3) as F3.
      destruct (register_drops (a_again a) q w3 O (proj1 (proj1 (proj1 F3)))) as (w4 & E4 & D4 & TH4). exists w4. split; [exact E4|]. split; [exact (fine_drops _ _ F3 D4)|]. exact (drops_trans _ _ _ D1 (drops_trans _ _ _ D3 D4)). }
    destruct X as (w3 & -> & F3 & D3). rewrite andthen_ok. destruct (there w3 (path_of q)); [exact (drops_content _ _ _ _ D3)|].
    intros CT. apply (drops_content _ _ _ _ D3). exact (create_file_elsewhere a q create w3 p t O F3 CR CF WO NP NT CT).
  Qed.

  (** ** Downloads *)
  Lemma file_not_unpacked u b : path_of (unpacked b) <> path_of (file_request u).
  Proof. intros E. apply path_name in E. unfold key_name in E. cbn in E. discriminate E. Qed.
  Lemma address_ours u : address u -> ours (file_request u).
  Proof. intros AD. left. exists u. auto. Qed.
  Lemma download_creates x u : creates_fine (file_request u) (fun target _ => dl_download (downloader_of weigh ext_of x u) target).
  Proof using WP NM.
    intros w F. cbn [downloader_of dl_download]. destruct (sv_get (m_server x) u) as [b|e|] eqn:E.
    - split; [apply write_tmp_fine, F|]. intros j c _ _ b0 _ EP. exfalso. exact (file_not_unpacked u b0 EP).
    - split; [|discriminate]. destruct (sv_left (m_server x) u); [apply write_tmp_fine, F|exact F].
    - split; [exact F|discriminate].
  Qed.
  Lemma download_writes x u : writes_only (fun target _ => dl_download (downloader_of weigh ext_of x u) target).
  Proof.
    intros target args w p t N. apply String.eqb_neq in N. cbn [downloader_of dl_download]. destruct (sv_get (m_server x) u) as [b|e|]; cbn [fst]; [rewrite content_write, N; auto| |auto].
    destruct (sv_left (m_server x) u); [rewrite content_write, N|]; auto.
  Qed.
  Lemma download_fine x u given update w : address u -> serves x -> fine w -> (forall f, given = Some f -> exists b, f = FFlag b) -> fine (fst (download x u given update w)).
  Proof using WP NM.
    intros AD SV F FG. unfold Remote.download, download_and_cache. cbn [downloader_of dl_local dl_ext]. change (url_request "url" u JNull (ext_of u)) with (file_request u).
    match goal with |- context [CacheFile.cache_file weigh sha dir limit usage ?a ?q ?f ?c w] => pose proof (cache_fine a (file_request u) f c w (address_ours u AD) F (download_right parse gunzip weigh sha dir ext_of S B WP x u SV) (download_creates x u)) as H; set (r := CacheFile.cache_file weigh sha dir limit usage a q f c w) in * end.
    assert (H1 : fine (fst r)).
    { apply H; clear H r; (destruct given as [f|]; [destruct (FG f eq_refl) as (b & ->); exact I|]); cbn; intros o w0 G0; (destruct (negb check); [exact G0|]); unfold andthen; cbn [downloader_of dl_out_of_date fst snd]; destruct (sv_stale (m_server x) u); exact G0. }
    clear H. destruct r as [w1 [p|e|]]; exact H1.
  Qed.
  (** A forced download: the file is the one on the server, and elsewhere nothing appears. *)
  Lemma download_forced x u update w : address u -> serves x -> fine w -> locked (a_delete (m_around x u)) (path_of (file_request u)) = false ->
    forall p b, snd (download x u (Some (FFlag true)) update w) = Ok p -> content (fst (download x u (Some (FFlag true)) update w)) (path_of (file_request u)) = Some b -> sv_get (m_server x) u = Ok b.
  Proof using WP NM.
    intros AD SV F LK. unfold Remote.download, download_and_cache. cbn [downloader_of dl_local dl_ext]. change (url_request "url" u JNull (ext_of u)) with (file_request u).
    match goal with |- context [CacheFile.cache_file weigh sha dir limit usage ?a ?q ?f ?c w] => pose proof (cache_fine a (file_request u) f c w (address_ours u AD) F (download_right parse gunzip weigh sha dir ext_of S B WP x u SV) (download_creates x u) I I) as H; set (r := CacheFile.cache_file weigh sha dir limit usage a q f c w) in * end.
    destruct H as [_ H]. intros p b EP CT.
    assert (X : exists p', snd r = Ok p' /\ content (fst r) (path_of (file_request u)) = Some b). { destruct r as [w1 [p'|e|]]; cbn in *; [|discriminate EP..]. eauto. } destruct X as (p' & E' & C'). clear EP CT.
    destruct (H p' b E' C') as [(v & w1 & j & Fv & EC & CC)|(_ & w1 & w2 & b0 & _ & _ & SY & _ & [B0|L])]; [| |congruence].
    - cbn [downloader_of dl_download] in EC. destruct (sv_get (m_server x) u) as [b1|e|]; [|discriminate EC..]. injection EC as <- _. rewrite content_write, String.eqb_refl in CC. injection CC as ->. reflexivity.
    - unfold says in SY. injection SY as _ <-. discriminate B0.
  Qed.
  Lemma download_elsewhere x u f update w p t : address u -> serves x -> fine w -> p <> path_of (file_request u) -> p <> (path_of (file_request u) ++ ".tmp")%string ->
    content (fst (download x u (Some (FFlag f)) update w)) p = Some t -> content w p = Some t.
  Proof using WP NM.
    intros AD SV F NP NT. unfold Remote.download, download_and_cache. cbn [downloader_of dl_local dl_ext]. change (url_request "url" u JNull (ext_of u)) with (file_request u).
    match goal with |- context [CacheFile.cache_file weigh sha dir limit usage ?a ?q ?f ?c w] => pose proof (cache_elsewhere a (file_request u) true c w p t (address_ours u AD) F (download_right parse gunzip weigh sha dir ext_of S B WP x u SV) (download_creates x u) (download_writes x u) NP NT) as H; pose proof (cache_elsewhere a (file_request u) false c w p t (address_ours u AD) F (download_right parse gunzip weigh sha dir ext_of S B WP x u SV) (download_creates x u) (download_writes x u) NP NT) as H' end.
    intros CT. destruct f; [apply H; revert CT; clear|apply H'; revert CT; clear]; match goal with |- content (fst (andthen (andthen ?X _) _)) _ = _ -> _ => destruct X as [w1 [p'|e|]] end; intros Z; exact Z.
  Qed.
  Lemma unpacked_elsewhere u b : B b -> path_of (unpacked b) <> path_of (file_request u) /\ path_of (unpacked b) <> (path_of (file_request u) ++ ".tmp")%string.
  Proof using NM.
    intros BB. split; [apply file_not_unpacked|]. rewrite tmp_path. apply (ours_not_tmp parse gunzip sha dir ext_of S B NM). right. eauto.
  Qed.

  Lemma sha_address base : B base -> address (join_path base "index.json.sha256").
  Proof. intros BB. exists base. auto. Qed.
  Lemma gz_address base : B base -> address (join_path base "index.json.gz").
  Proof. intros BB. exists base. auto. Qed.
  Lemma remote_sha_fine x base w : B base -> serves x -> fine w ->
    fine (fst (remote_sha x base w)) /\
    (forall b t, B b -> content (fst (remote_sha x base w)) (path_of (unpacked b)) = Some t -> content w (path_of (unpacked b)) = Some t) /\
    (free x (join_path base "index.json.sha256") -> forall d, snd (remote_sha x base w) = Ok d -> exists c, sv_get (m_server x) (join_path base "index.json.sha256") = Ok c /\ read_sha c = Ok d).
  Proof using WP NM.
    intros BB SV F. pose proof (sha_address base BB) as AD. unfold Remote.remote_sha. set (u := join_path base "index.json.sha256") in *.
    pose proof (download_fine x u (Some (FFlag true)) true w AD SV F (flag_given true)) as F1. pose proof (download_forced x u true w AD SV F) as D1.
    pose proof (fun b t BB' => download_elsewhere x u true true w (path_of (unpacked b)) t AD SV F (proj1 (unpacked_elsewhere u b BB')) (proj2 (unpacked_elsewhere u b BB'))) as E1.
    destruct (download_good parse gunzip weigh sha dir limit usage check fetch ext_of S B WP NM x u (Some (FFlag true)) true w AD SV (proj1 F) (flag_given true)) as [_ P1].
    destruct (download x u (Some (FFlag true)) true w) as [w1 r]. cbn [fst snd] in *. unfold andthen. cbn [fst snd].
    destruct r as [p|e|]; cbn [fst snd]; [rewrite reading_world|..]; (split; [exact F1|]); (split; [exact E1|]); intros FR d; [|discriminate..].
    specialize (P1 p eq_refl). subst p. unfold reading. destruct (content w1 (path_of (file_request u))) as [c|] eqn:CT; [|discriminate]. intros E. exists c. split; [exact (D1 FR _ c eq_refl eq_refl)|exact E].
  Qed.

  Lemma create_index_creates x base : B base -> serves x -> creates_fine (unpacked base) (create_index x base).
  Proof using WP NM.
    intros BB SV w F. pose proof (gz_address base BB) as AD. unfold Remote.create_index. set (u := join_path base "index.json.gz") in *.
    pose proof (download_fine x u (Some (FFlag true)) true w AD SV F (flag_given true)) as F1.
    destruct (download x u (Some (FFlag true)) true w) as [w1 r]. cbn [fst snd] in *. unfold andthen. cbn [fst snd]. destruct r as [p|e|]; [|split; [exact F1|discriminate]..].
    unfold reading. destruct (content w1 p) as [g|]; cbn [fst snd]; [|split; [exact F1|discriminate]]. destruct (gunzip g) as [t|e|]; [|split; [exact F1|discriminate]..].
    assert (F3 : fine (write weigh (path_of (unpacked base) ++ ".tmp")%string t w1)) by (apply write_tmp_fine, F1).
    destruct (digest t) as [d|e|] eqn:DG; (split; [exact F3|]); [|discriminate..]. intros j c E. injection E as <-. rewrite content_write, String.eqb_refl. intros E; injection E as <-.
    intros b _ _ d' ES. cbn in ES. injection ES as <-. exact DG.
  Qed.
  (** What a created index is. *)
  Lemma create_index_current x base v w1 j t : B base -> serves x -> fine v -> free x (join_path base "index.json.gz") ->
    create_index x base (path_of (unpacked base) ++ ".tmp")%string (q_args (unpacked base)) v = (w1, Ok j) -> content w1 (path_of (unpacked base) ++ ".tmp")%string = Some t ->
    exists z, sv_get (m_server x) (join_path base "index.json.gz") = Ok z /\ gunzip z = Ok t.
  Proof using WP NM.
    intros BB SV F FR. pose proof (gz_address base BB) as AD. unfold Remote.create_index. set (u := join_path base "index.json.gz") in *. pose proof (download_forced x u true v AD SV F FR) as D1.
    destruct (download_good parse gunzip weigh sha dir limit usage check fetch ext_of S B WP NM x u (Some (FFlag true)) true v AD SV (proj1 F) (flag_given true)) as [_ P1].
    destruct (download x u (Some (FFlag true)) true v) as [v1 r]. cbn [fst snd] in *. unfold andthen. cbn [fst snd]. destruct r as [p|e|]; [|discriminate..]. specialize (P1 p eq_refl). subst p.
    unfold reading. destruct (content v1 (path_of (file_request u))) as [g|] eqn:CT; cbn [fst snd]; [|discriminate]. destruct (gunzip g) as [t'|e|] eqn:GZ; [|discriminate..].
    destruct (digest t') as [d|e|]; intros E; [|discriminate E..]. injection E as <- _. rewrite content_write, String.eqb_refl. intros E; injection E as <-. exists g. split; [exact (D1 _ g eq_refl eq_refl)|exact GZ].
  Qed.

  Notation up_to_date := (up_to_date gunzip digest read_sha S).
  Notation deletable := (deletable sha ext_of dir).
  Lemma get_index_fine m x base w : B base -> serves x -> fine w ->
    fine (fst (get_index m x base w)) /\
    forall p t, deletable x base -> snd (get_index m x base w) = Ok p -> content (fst (get_index m x base w)) (path_of (unpacked base)) = Some t ->
      up_to_date x base t \/ (m = Plain /\ there w (path_of (unpacked base)) = true).
  Proof using WP NM FL.
    intros BB SV F. unfold Remote.get_index. change (index_request base) with (unpacked base).
    set (a := m_around x (join_path base "index.json")).
    assert (AW : asks_well parse gunzip sha dir ext_of S B (unpacked base) (force_of read_sha weigh sha dir limit usage check fetch ext_of m x base)).
    { destruct m; cbn [force_of asks_well]; [exact I|..]; intros o w0 G0; pose proof (remote_sha_good parse gunzip read_sha weigh sha dir limit usage check fetch ext_of S B WP NM x base w0 BB SV G0) as H.
      - unfold compare_sha. destruct (stored_sha o); [|exact G0]. destruct (remote_sha x base w0) as [w1 r]. unfold andthen. destruct r; exact H.
      - unfold force_download. destruct (remote_sha x base w0) as [w1 r]. unfold andthen. destruct r; exact H. }
    assert (AF : asks_fine (unpacked base) (force_of read_sha weigh sha dir limit usage check fetch ext_of m x base)).
    { destruct m; cbn [force_of asks_fine]; [exact I|..]; intros o w0 G0; destruct (remote_sha_fine x base w0 BB SV G0) as [H _].
      - unfold compare_sha. destruct (stored_sha o); [|exact G0]. destruct (remote_sha x base w0) as [w1 r]. unfold andthen. destruct r; exact H.
      - unfold force_download. destruct (remote_sha x base w0) as [w1 r]. unfold andthen. destruct r; exact H. }
    destruct (cache_fine a (unpacked base) _ _ w (or_intror (ex_intro _ base (conj BB eq_refl))) F (create_index_right parse gunzip digest weigh sha dir limit usage check fetch ext_of S B WP NM FL x base BB SV) (create_index_creates x base BB SV) AW AF) as [H1 H2].
    split; [exact H1|]. intros p t (FS & FG & FI) EP CT. destruct (H2 p t EP CT) as [(v & w1 & j & Fv & EC & CC)|(TH & w1 & w2 & b & F1 & D1 & SY & C2 & [B0|L])]; [| |unfold a in L; congruence].
    - left. left. exact (create_index_current x base v w1 j t BB SV Fv FG EC CC).
    - subst b. destruct m; cbn [force_of says] in SY; [right; auto|left; right|exfalso].
      + unfold compare_sha in SY. match type of SY with (match stored_sha ?o with _ => _ end) = _ => destruct (stored_sha o) as [d|] eqn:ST end; [|discriminate SY]. destruct (remote_sha_fine x base w1 BB SV F1) as (_ & E1 & R1).
        destruct (remote_sha x base w1) as [w3 r]. cbn [fst snd] in *. unfold andthen in SY. cbn [fst snd] in SY. destruct r as [d'|e|]; [|discriminate SY..]. injection SY as -> SY. apply Bool.negb_false_iff in SY. apply String.eqb_eq in SY. subst d'.
        destruct (R1 FS d eq_refl) as (c & SC & RC). pose proof (E1 base t BB C2) as C1.
        destruct (read_unpacked parse gunzip sha dir ext_of S B NM FL w1 base t BB (proj1 F1) C1) as (base' & z & _ & (u & _ & SU) & GZ).
        exists u, z, c, d. split; [exact SU|]. split; [exact GZ|]. split; [exact SC|]. split; [exact RC|]. exact (proj2 F1 base BB t d C1 ST).
      + unfold force_download in SY. destruct (remote_sha x base w1) as [w3 r]. unfold andthen in SY. cbn [fst snd] in SY. destruct r; discriminate SY.
  Qed.
End Stamped.
