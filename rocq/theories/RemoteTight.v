(** Lemmas about remote inventories with a disk cache whose limits are exceeded: the file of the
    index never stays. *)
From Verif Require Import PyBase ListLemmas PyStr Float64 GridSpec GridVocab GridProofs GridProofs3 Index IndexSpec IndexProofs
  Db MemCache MemCacheProofs Inventory Regrid System SystemProofs
  Disk DiskSpec DiskProofs DiskProofs2 Key Props_Key CacheFile Props_CacheFile Remote RemoteSpec RemoteProofs.
Set Default Proof Using "Type".
Local Open Scope string_scope.
Local Open Scope list_scope.
Local Open Scope Z_scope.

Lemma filter_false {T} (f : T -> bool) l : (forall x, In x l -> f x = false) -> filter f l = [].
Proof. induction l as [|a l IH]; intros H; [reflexivity|]. cbn. rewrite (H a (or_introl eq_refl)). apply IH. intros x I. apply H. right. exact I. Qed.

(** ** Two entries *)
Section Two.
  Variable dir : string.
  Variables limit usage : option Z.
  Notation row := (row json).
  Notation disk := (disk json).
  Implicit Types (d : disk) (r : row) (e : env).

  (** More than allowed, in bytes or of the disk. *)
  Definition exceeded e (size : Z) : Prop :=
    (exists m, limit = Some m /\ m < size) \/ (exists u, usage = Some u /\ u < percent e /\ 0 < disk_total e).

  (** A check that finds nothing to delete. *)
  Lemma decache_none e latest bytes d : (forall r, In r (rows d) -> evictable latest r = false) -> exists y, decache dir e latest bytes d = Ok (d, y).
  Proof.
    intros H. unfold decache. destruct (bytes <=? 0); [eauto|].
    assert (X : forall f, filter (fun r => evictable latest r && f r) (rows d) = []) by (intros f; apply filter_false; intros r I; rewrite (H r I); reflexivity).
    rewrite X. cbn [delete_until bind]. rewrite (filter_false (evictable latest) (rows d) H). cbn. eauto.
  Qed.
  Lemma check_none e d : nothing_new dir e d -> (forall r, In r (rows d) -> evictable (latest_date (now e) d) r = false) -> check_cache_size JNull dir e limit usage d = Ok d.
  Proof.
    intros NN H. unfold check_cache_size.
    assert (S : forall bytes, (h <- housekeeping JNull dir e false d ;; r <- decache dir e (latest_date (now e) h) bytes h ;; Ok (fst r)) = Ok d).
    { intros bytes. rewrite (housekeeping_nothing JNull dir e d NN). cbn [bind]. destruct (decache_none e (latest_date (now e) d) bytes d H) as (y & ->). reflexivity. }
    destruct limit as [m|]; [destruct (cache_size d >? m); [rewrite S|]|]; cbn [bind]; (destruct usage as [u|]; [destruct (percent e >? u); [apply S|reflexivity]|reflexivity]).
  Qed.
  Lemma registered_nothing e d : (forall p, In p (akeys (files d)) -> In p (map r_path (rows d))) -> (forall r, In r (rows d) -> r_size r = None -> ~ In (r_path r) (akeys (files d))) -> nothing_new dir e d.
  Proof. intros H1 H2. split; [intros p I _; right; left; exact (H1 p I)|exact H2]. Qed.

  Definition sized_row (p owner : string) (args : json) (t : Z) (n : node) (j : json) : row := set_data j (set_size (n_size n) (n_dir n) (new_row p owner args t None)).
  Lemma check_first e p0 o0 a0 t0 p1 o1 a1 t1 n1 j1 : p0 <> p1 -> t0 < t1 -> let d := mkDisk [new_row p0 o0 a0 t0 None; sized_row p1 o1 a1 t1 n1 j1] [(p1, n1)] in
    check_cache_size JNull dir e limit usage d = Ok d.
  Proof.
    intros NE L d. apply check_none.
    - apply registered_nothing; [intros p [<-|[]]; right; left; reflexivity|]. intros r [<-|[<-|[]]] E; [|discriminate E]. intros [F|[]]. exact (NE (eq_sym F)).
    - intros r [<-|[<-|[]]]; [reflexivity|]. cbn. apply Z.ltb_ge. lia.
  Qed.
  Lemma check_second e p0 o0 a0 t0 n0 j0 p1 o1 a1 t1 n1 j1 : p0 <> p1 -> t0 < t1 -> in_cache dir p0 = true -> locked e p0 = false -> o0 <> "orphans" -> o1 <> "orphans" -> exceeded e (n_size n0 + n_size n1) ->
    check_cache_size JNull dir e limit usage (mkDisk [sized_row p0 o0 a0 t0 n0 j0; sized_row p1 o1 a1 t1 n1 j1] [(p1, n1); (p0, n0)]) =
    Ok (mkDisk [sized_row p1 o1 a1 t1 n1 j1] [(p1, n1)]).
  Proof.
    intros NE L IC LK O0 O1 EX. set (r0 := sized_row p0 o0 a0 t0 n0 j0). set (r1 := sized_row p1 o1 a1 t1 n1 j1). set (d := mkDisk [r0; r1] [(p1, n1); (p0, n0)]). set (d' := mkDisk [r1] [(p1, n1)]).
    assert (E01 : String.eqb p0 p1 = false) by (apply String.eqb_neq; congruence).
    assert (E10 : String.eqb p1 p0 = false) by (apply String.eqb_neq; congruence).
    assert (NN : nothing_new dir e d). { apply registered_nothing; [intros p [<-|[<-|[]]]; [right; left; reflexivity|left; reflexivity]|]. intros r [<-|[<-|[]]] E; discriminate E. }
    assert (NN' : nothing_new dir e d'). { apply registered_nothing; [intros p [<-|[]]; left; reflexivity|]. intros r [<-|[]] E; discriminate E. }
    assert (LD : latest_date (now e) d = t1) by (cbn; apply Z.max_r; lia). assert (LD' : latest_date (now e) d' = t1) by reflexivity.
    assert (V0 : evictable t1 r0 = true) by (cbn; apply Z.ltb_lt; exact L). assert (V1 : evictable t1 r1 = false) by (cbn; apply Z.ltb_irrefl).
    assert (F0 : is_orphan r0 = false) by (apply String.eqb_neq, O0). assert (F1 : is_orphan r1 = false) by (apply String.eqb_neq, O1).
    assert (DE : delete_entry dir (depth d) e d p0 (size_of r0) = Ok (d', size_of r0)).
    { unfold depth. cbn [delete_entry]. assert (C : filter (is_child p0) (rows d) = []) by reflexivity. rewrite C. cbn [fold_left bind]. unfold file_exists, d. cbn [files amem alookup]. 
      unfold amem. cbn [alookup]. rewrite E01, String.eqb_refl. rewrite IC, LK. cbn [negb]. unfold drop_row, unlink, r0, r1. cbn. rewrite ?E10, ?E01, ?String.eqb_refl. cbn. rewrite ?E10, ?E01, ?String.eqb_refl. reflexivity. }
    assert (DC : forall bytes, 0 < bytes -> exists y, decache dir e t1 bytes d = Ok (d', y)).
    { intros bytes B. assert (X1 : filter (fun r => evictable t1 r && is_orphan r) (rows d) = []) by (cbn [rows d filter]; rewrite F0, F1, !andb_false_r; reflexivity).
      assert (X2 : filter (evictable t1) (rows d) = [r0]) by (cbn [rows d filter]; rewrite V0, V1; reflexivity).
      unfold decache. destruct (Z.leb_spec bytes 0); [lia|]. rewrite X1. cbn [delete_until bind]. rewrite X2. cbn [sort_by_access fold_right insert_by_access delete_until]. change (r_path r0) with p0. rewrite DE. cbn [bind fst snd]. destruct (bytes <=? 0 + size_of r0); cbn [bind]; eauto. }
    assert (ST : forall bytes, 0 < bytes -> (h <- housekeeping JNull dir e false d ;; r <- decache dir e (latest_date (now e) h) bytes h ;; Ok (fst r)) = Ok d').
    { intros bytes B. rewrite (housekeeping_nothing JNull dir e d NN). cbn [bind]. rewrite LD. destruct (DC bytes B) as (y & ->). reflexivity. }
    assert (ST' : forall bytes, (h <- housekeeping JNull dir e false d' ;; r <- decache dir e (latest_date (now e) h) bytes h ;; Ok (fst r)) = Ok d').
    { intros bytes. rewrite (housekeeping_nothing JNull dir e d' NN'). cbn [bind]. rewrite LD'. destruct (decache_none e t1 bytes d') as (y & ->); [intros r [<-|[]]; exact V1|reflexivity]. }
    assert (CS : cache_size d = n_size n0 + n_size n1) by (cbn; lia).
    assert (DL : forall u, usage = Some u -> u < percent e -> 0 < disk_total e -> 0 < delta (percent e) u (disk_total e)).
    { intros u _ P D. unfold delta. assert (0 < (percent e - u) * disk_total e) by (apply Z.mul_pos_pos; lia). apply Z.div_str_pos. lia. }
    unfold check_cache_size. rewrite CS. unfold exceeded in EX. destruct limit as [m|] eqn:EL.
    - destruct (n_size n0 + n_size n1 >? m) eqn:G; rewrite Z.gtb_ltb in G.
      + apply Z.ltb_lt in G. rewrite ST by lia. cbn [bind]. destruct usage as [u|]; [destruct (percent e >? u); [apply ST'|reflexivity]|reflexivity].
      + apply Z.ltb_ge in G. cbn [bind]. destruct EX as [(m' & E & LT)|(u & EU & P & D)]; [injection E as <-; lia|]. rewrite EU. rewrite Z.gtb_ltb. destruct (Z.ltb_spec u (percent e)); [|lia]. apply ST, (DL u EU P D).
    - cbn [bind]. destruct EX as [(m' & E & _)|(u & EU & P & D)]; [discriminate E|]. rewrite EU. rewrite Z.gtb_ltb. destruct (Z.ltb_spec u (percent e)); [|lia]. apply ST, (DL u EU P D).
  Qed.
End Two.

(** ** The file of the index *)
Section Index.
  Context {rest blob : Type}.
  Variable parse : blob -> result (file rest).
  Variable gunzip : blob -> result blob.
  Variable digest : blob -> result string.
  Variable read_sha : blob -> result string.
  Variable weigh : blob -> node.
  Variable sha : string -> string.
  Variable dir : string.
  Variables limit usage : option Z.
  Variables check fetch : bool.
  Variable ext_of : string -> string.
  Variables (py_str : val -> string) (key_order : list string) (fuel : nat).
  Notation world := (@world blob).
  Notation meets := (@meets blob).
  Notation rst := (@rst rest blob).
  Notation path_of := (path_of sha dir).
  Notation file_request := (file_request ext_of).
  Notation download := (download weigh sha dir limit usage check fetch ext_of).
  Notation get_index := (get_index gunzip digest read_sha weigh sha dir limit usage check fetch ext_of).
  Notation got_index := (got_index gunzip digest read_sha weigh sha dir limit usage check fetch ext_of).
  Notation load_index := (load_index parse gunzip digest read_sha weigh sha dir limit usage check fetch ext_of).
  Notation find_entry := (find_entry parse gunzip digest read_sha weigh sha dir limit usage check fetch ext_of py_str key_order fuel).
  Implicit Types (w : world) (x : meets) (s : rst).

  (** What a call meets when the limits are exceeded: the server has an index, the times go on, and
      nothing keeps the files from being deleted. *)
  Definition tight x (base : string) : Prop :=
    let a0 := m_around x (join_path base "index.json") in let a1 := m_around x (join_path base "index.json.gz") in
    a_time a0 < a_time a1 /\ a_time a0 < a_again a1 /\ (forall p, locked (a_delete a1) p = false) /\ (forall p, locked (a_check a0) p = false) /\
    exists z t (k : string), sv_get (m_server x) (join_path base "index.json.gz") = Ok z /\ gunzip z = Ok t /\ digest t = Ok k /\ exceeded limit usage (a_check a0) (n_size (weigh t) + n_size (weigh z)).

  Variable base : string.
  Notation p0 := (path_of (unpacked base)).
  Notation url := (join_path base "index.json.gz").
  Notation p1 := (path_of (file_request url)).
  Lemma paths_differ (a b : string) : (p0 ++ a)%string <> (p1 ++ b)%string.
  Proof.
    assert (X : forall d n m, ((d ++ "/" ++ n) ++ a)%string = ((d ++ "/" ++ m) ++ b)%string -> (n ++ a)%string = (m ++ b)%string) by (clear; induction d as [|c d IH]; intros n m H; [injection H as H; exact H|injection H as H; exact (IH n m H)]).
    intros H. apply X in H. discriminate H.
  Qed.
  Lemma path_cached q : in_cache dir (path_of q) = true.
  Proof. unfold in_cache, CacheFile.path_of, join. clear. induction dir as [|c d IH]; [reflexivity|]. cbn. destruct (ascii_dec c c) as [_|N]; [exact IH|destruct (N eq_refl)]. Qed.
  Lemma tmp_differs (p : string) : p <> (p ++ ".tmp")%string.
  Proof. induction p as [|c p IH]; intros H; [discriminate H|]. injection H as H. exact (IH H). Qed.

  (** The cache holds nothing, or only the compressed index. *)
  Definition bare w : Prop :=
    (rows (w_disk w) = [] /\ files (w_disk w) = []) \/
    exists r n, rows (w_disk w) = [r] /\ files (w_disk w) = [(p1, n)] /\ r_path r = p1 /\ r_parent r = None.
  Lemma not_there w : bare w -> there w p0 = false.
  Proof.
    intros [(R & F)|(r & n & R & F & _)]; unfold there, file_exists, amem; rewrite F; [reflexivity|]. cbn [alookup].
    destruct (String.eqb_spec p0 p1) as [E|_]; [|reflexivity]. exfalso. apply (paths_differ "" ""). rewrite E. reflexivity.
  Qed.

  (** A creation function that writes under the temporary name. *)
  Definition filled (p : string) (n : node) (j : json) (l : list (row json)) : list (row json) :=
    map (fun r => if String.eqb (r_path r) p then set_data j (set_size (n_size n) (n_dir n) r) else r) l.
  Lemma create_plain a q p create w w1 c j d4 : in_cache dir p = true ->
    create (p ++ ".tmp")%string (q_args q) (logged p w) = (write weigh (p ++ ".tmp") c w1, Ok j) ->
    ~ In p (akeys (files (w_disk w1))) -> ~ In (p ++ ".tmp")%string (akeys (files (w_disk w1))) ->
    check_cache_size JNull dir (a_check a) limit usage (mkDisk (filled p (weigh c) j (rows (w_disk w1))) (files (w_disk w1) ++ [(p, weigh c)])) = Ok d4 ->
    exists w', create_file weigh dir limit usage a q p create w = (w', Ok p) /\ w_disk w' = d4 /\ (In p (akeys (files d4)) -> content w' p = Some c).
  Proof.
    intros IC CR N1 N2 CH. set (w0 := write weigh (p ++ ".tmp") c w1) in *.
    assert (C0 : content w0 (p ++ ".tmp") = Some c) by (unfold w0; rewrite content_write, String.eqb_refl; reflexivity).
    set (w2 := write weigh p c (erase (p ++ ".tmp") w0)).
    assert (D2 : w_disk w2 = mkDisk (rows (w_disk w1)) (files (w_disk w1) ++ [(p, weigh c)])).
    { unfold w2, w0, write, erase, unlink. cbn [w_disk rows files]. rewrite (aset_notin (p ++ ".tmp")) by exact N2.
      assert (X : aremove (p ++ ".tmp") (files (w_disk w1) ++ [((p ++ ".tmp")%string, weigh c)]) = files (w_disk w1)).
      { clear - N2. induction (files (w_disk w1)) as [|[k v] l IH]; cbn [app aremove]; [rewrite String.eqb_refl; reflexivity|]. destruct (String.eqb_spec (p ++ ".tmp") k) as [E|_]; [exfalso; apply N2; left; symmetry; exact E|]. rewrite IH; [reflexivity|]. intros I. apply N2. right. exact I. }
      rewrite X, aset_notin by exact N1. reflexivity. }
    assert (LK : alookup p (files (w_disk w2)) = Some (weigh c)) by (unfold w2, write; cbn [w_disk files]; apply alookup_aset_eq).
    unfold create_file. rewrite CR, andthen_ok. unfold rename. rewrite C0, andthen_ok. fold w2. unfold manager at 1, update_entry. rewrite IC. cbn [negb]. rewrite LK, andthen_ok. rewrite D2. cbn [rows files].
    unfold manager_async, manager. cbn [w_disk]. fold (filled p (weigh c) j (rows (w_disk w1))). rewrite CH. cbn [fst]. eexists. split; [reflexivity|]. split; [reflexivity|].
    intros I. cbv beta. assert (TH : forall (w : world), w_disk w = d4 -> there w p = true) by (intros w' <-; apply there_In; exact I). unfold content. rewrite TH by reflexivity. apply alookup_aset_eq.
  Qed.

  Lemma p01 : p0 <> p1.
  Proof. intros E. apply (paths_differ "" ""). rewrite E. reflexivity. Qed.
  Lemma e01 : String.eqb p0 p1 = false.
  Proof. apply String.eqb_neq, p01. Qed.
  Lemma e10 : String.eqb p1 p0 = false.
  Proof. apply String.eqb_neq. intros E. exact (p01 (eq_sym E)). Qed.

  (** The compressed index is fetched anew and stays, as the index itself is in progress. *)
  Notation row0 t := (new_row p0 "regrid" (q_args (unpacked base)) t None : row json).
  Lemma gz_fetched x z t0 t1 w : sv_get (m_server x) url = Ok z -> t0 < t1 ->
    w_disk w = mkDisk [row0 t0; new_row p1 "url" (q_args (file_request url)) t1 None] [] ->
    exists w' j, create_file weigh dir limit usage (m_around x url) (file_request url) p1 (fun target _ => dl_download (downloader_of weigh ext_of x url) target) w = (w', Ok p1) /\
      w_disk w' = mkDisk [row0 t0; sized_row p1 "url" (q_args (file_request url)) t1 (weigh z) j] [(p1, weigh z)] /\ content w' p1 = Some z.
  Proof.
    intros E L D. set (j := sv_data (m_server x) url).
    set (d := mkDisk [row0 t0; sized_row p1 "url" (q_args (file_request url)) t1 (weigh z) j] [(p1, weigh z)]).
    destruct (create_plain (m_around x url) (file_request url) p1 (fun target _ => dl_download (downloader_of weigh ext_of x url) target) w (logged p1 w) z j d) as (w' & E' & D' & C').
    - apply path_cached.
    - cbn [downloader_of dl_download]. rewrite E. reflexivity.
    - change (w_disk (logged p1 w)) with (w_disk w). rewrite D. intros [].
    - change (w_disk (logged p1 w)) with (w_disk w). rewrite D. intros [].
    - change (w_disk (logged p1 w)) with (w_disk w). rewrite D. cbn [rows files app filled map r_path new_row]. rewrite e01, String.eqb_refl.
      exact (check_first dir limit usage (a_check (m_around x url)) p0 "regrid" _ t0 p1 "url" _ t1 (weigh z) j p01 L).
    - exists w', j. split; [exact E'|]. split; [exact D'|]. apply C'. left. reflexivity.
  Qed.
  Lemma gz_deleted e r n t0 : r_path r = p1 -> r_parent r = None -> locked e p1 = false -> decache_file dir e p1 (mkDisk [r; row0 t0] [(p1, n)]) = Ok (mkDisk [row0 t0] []).
  Proof.
    intros RP RN U. set (d := mkDisk [r; row0 t0] [(p1, n)]). assert (C : filter (is_child p1) (rows d) = []) by (cbn [rows d filter]; unfold is_child; cbn [r_parent new_row]; rewrite RN; reflexivity).
    unfold decache_file, depth. cbn [delete_entry]. rewrite C. cbn [fold_left bind]. assert (F : file_exists d p1 = true) by (unfold file_exists, amem, d; cbn [files alookup]; rewrite String.eqb_refl; reflexivity). rewrite F. cbn [negb]. rewrite path_cached, U. cbn [negb bind fst].
    unfold unlink, drop_row, d. cbn [rows files filter aremove r_path new_row]. rewrite RP, String.eqb_refl, e01. reflexivity.
  Qed.
  Lemma gz_downloaded x z t0 w : sv_get (m_server x) url = Ok z -> t0 < a_time (m_around x url) -> t0 < a_again (m_around x url) -> (forall p, locked (a_delete (m_around x url)) p = false) ->
    (w_disk w = mkDisk [row0 t0] [] \/ exists r n, w_disk w = mkDisk [r; row0 t0] [(p1, n)] /\ r_path r = p1 /\ r_parent r = None) ->
    exists w' j t1, download x url (Some (FFlag true)) true w = (w', Ok p1) /\ t0 < t1 /\
      w_disk w' = mkDisk [row0 t0; sized_row p1 "url" (q_args (file_request url)) t1 (weigh z) j] [(p1, weigh z)] /\ content w' p1 = Some z.
  Proof.
    intros E L1 L2 U D. unfold Remote.download, download_and_cache. cbn [downloader_of dl_local dl_ext]. change (url_request "url" url JNull (ext_of url)) with (file_request url).
    assert (X : exists w1 t1, t0 < t1 /\ w_disk w1 = mkDisk [row0 t0; new_row p1 "url" (q_args (file_request url)) t1 None] [] /\
      cache_file weigh sha dir limit usage (m_around x url) (file_request url) (FFlag true) (fun target _ => dl_download (downloader_of weigh ext_of x url) target) w =
      create_file weigh dir limit usage (m_around x url) (file_request url) p1 (fun target _ => dl_download (downloader_of weigh ext_of x url) target) w1).
    { unfold cache_file. destruct D as [D|(r & n & D & RP & RN)].
      - exists (mkWorld (mkDisk [row0 t0; new_row p1 "url" (q_args (file_request url)) (a_time (m_around x url)) None] []) (w_text w) (w_log w)), (a_time (m_around x url)).
        split; [exact L1|]. split; [reflexivity|]. unfold register_file, manager, register. rewrite path_cached, D. cbn [negb]. unfold find_row. cbn [rows List.find r_path new_row files]. rewrite e01. rewrite andthen_ok. reflexivity.
      - exists (mkWorld (mkDisk [row0 t0; new_row p1 "url" (q_args (file_request url)) (a_again (m_around x url)) None] []) (w_text w) (w_log w)), (a_again (m_around x url)).
        split; [exact L2|]. split; [reflexivity|]. unfold register_file at 1, manager at 1, register. rewrite path_cached, D. cbn [negb]. unfold find_row at 1. cbn [rows List.find files]. rewrite RP, String.eqb_refl. cbn [map r_path new_row]. rewrite RP, e01, String.eqb_refl, andthen_ok.
        unfold decide, there at 1, file_exists, amem. cbn [w_disk files alookup]. rewrite String.eqb_refl, andthen_ok.
        unfold manager at 1. cbn [w_disk]. rewrite (gz_deleted _ (touch (a_time (m_around x url)) r) n t0 RP RN (U p1)). rewrite andthen_ok. cbn [w_text w_log].
        unfold register_file, manager, register. cbn [w_disk]. rewrite path_cached. cbn [negb]. unfold find_row. cbn [rows List.find r_path new_row files]. rewrite e01. rewrite andthen_ok. reflexivity. }
    destruct X as (w1 & t1 & LT & D1 & ->). destruct (gz_fetched x z t0 t1 w1 E LT D1) as (w' & j & -> & D' & C'). rewrite andthen_ok. exists w', j, t1. auto.
  Qed.

  (** The file of the index is created and deleted again. *)
  Lemma index_gone m x w : tight x base -> bare w ->
    exists w', get_index m x base w = (w', Ok p0) /\ bare w' /\ sets_checked read_sha weigh sha dir limit usage check fetch ext_of m x base w = false.
  Proof.
    intros (L1 & L2 & U1 & U0 & z & t & k & EZ & ET & EK & EX) BW. pose proof (not_there w BW) as NT. set (a0 := m_around x (join_path base "index.json")) in *. set (a1 := m_around x url) in *.
    set (w1 := fst (register_file dir (a_time a0) p0 (unpacked base) w)).
    assert (R1 : register_file dir (a_time a0) p0 (unpacked base) w = (w1, Ok tt) /\ w_disk w1 = mkDisk (rows (w_disk w) ++ [row0 (a_time a0)]) (files (w_disk w))).
    { unfold w1, register_file, manager, register. rewrite path_cached. cbn [negb]. assert (F : find_row (w_disk w) p0 = None).
      { destruct BW as [(R & _)|(r & n & R & _ & RP & _)]; unfold find_row; rewrite R; cbn [List.find]; [reflexivity|]. rewrite RP, e10. reflexivity. }
      rewrite F. split; reflexivity. }
    destruct R1 as [R1 D1]. assert (NT1 : there w1 p0 = false) by (unfold there in *; rewrite D1; exact NT).
    assert (GD : w_disk w1 = mkDisk [row0 (a_time a0)] [] \/ exists r n, w_disk w1 = mkDisk [r; row0 (a_time a0)] [(p1, n)] /\ r_path r = p1 /\ r_parent r = None).
    { rewrite D1. destruct BW as [(R & F)|(r & n & R & F & RP & RN)]; rewrite R, F; [left; reflexivity|right; exists r, n; auto]. }
    assert (SC : sets_checked read_sha weigh sha dir limit usage check fetch ext_of m x base w = false).
    { unfold sets_checked. change (index_file sha dir base) with p0. change (index_request base) with (unpacked base). fold a0 w1. rewrite NT1. reflexivity. }
    assert (X : exists w', create_file weigh dir limit usage a0 (unpacked base) p0 (create_index gunzip digest weigh sha dir limit usage check fetch ext_of x base) w1 = (w', Ok p0) /\ bare w').
    { destruct (gz_downloaded x z (a_time a0) (logged p0 w1) EZ L1 L2 U1 GD) as (w2 & j & t1 & E2 & LT & D2 & C2).
      destruct (create_plain a0 (unpacked base) p0 (create_index gunzip digest weigh sha dir limit usage check fetch ext_of x base) w1 w2 t (JDict [("sha256", JStr k)])
        (mkDisk [sized_row p1 "url" (q_args (file_request url)) t1 (weigh z) j] [(p1, weigh z)])) as (w' & E' & D' & _).
      - apply path_cached.
      - unfold create_index. rewrite E2, andthen_ok. unfold reading. rewrite C2, ET, andthen_ok, EK. reflexivity.
      - rewrite D2. intros [F|[]]. exact (p01 (eq_sym F)).
      - rewrite D2. intros [F|[]]. apply (paths_differ ".tmp" ""). rewrite <- F. clear. induction p1 as [|c s IH]; [reflexivity|]. cbn. f_equal. exact IH.
      - rewrite D2. cbn [rows files app filled map sized_row set_data set_size r_path new_row]. rewrite e10, String.eqb_refl.
        apply (check_second dir limit usage (a_check a0) p0 "regrid" _ (a_time a0) (weigh t) _ p1 "url" _ t1 (weigh z) j p01 LT (path_cached _) (U0 p0)); [discriminate|discriminate|exact EX].
      - exists w'. split; [exact E'|]. right. eexists. eexists. rewrite D'. split; [reflexivity|]. split; [reflexivity|]. split; reflexivity. }
    destruct X as (w' & E' & B'). exists w'. split; [|split; [exact B'|exact SC]].
    unfold Remote.get_index. change (index_request base) with (unpacked base). fold a0. unfold cache_file. rewrite R1, andthen_ok. unfold decide. rewrite NT1, andthen_ok, andthen_ok, NT1. exact E'.
  Qed.

  Lemma load_lost x s : tight x base -> bare (r_world s) -> d_checked _ (r_db s) = false -> exists s', load_index x base s = (s', Raise FileNotFoundError) /\ bare (r_world s') /\ d_index _ (r_db s') = Some [] /\ d_checked _ (r_db s') = false.
  Proof.
    intros TI BW CK. unfold Remote.load_index, Remote.index_path. change (r_world (set_index s (Some []))) with (r_world s). change (index_file sha dir base) with p0. rewrite (not_there _ BW), andb_false_r.
    unfold Remote.got_index. change (r_world (set_index s (Some []))) with (r_world s). destruct (index_gone Plain x (r_world s) TI BW) as (w' & -> & B' & SC). rewrite SC. cbn [bind]. unfold reading, content. cbn [r_world]. rewrite (not_there _ B'). cbn [snd bind].
    eexists. split; [reflexivity|]. split; [exact B'|]. split; [reflexivity|]. cbn. exact CK.
  Qed.
  Lemma find_lost x s gi go m : tight x base -> bare (r_world s) -> (d_index _ (r_db s) = None \/ d_index _ (r_db s) = Some []) -> d_checked _ (r_db s) = false -> (exists di do, NoDup (akeys di) /\ NoDup (akeys do) /\ from_dict di = Ok gi /\ from_dict do = Ok go) ->
    exists s', find_entry x base s (gd gi) (gd go) m = (s', Raise FileNotFoundError) /\ bare (r_world s') /\ d_index _ (r_db s') = Some [] /\ d_checked _ (r_db s') = false.
  Proof.
    intros TI BW DI CK (di & do & N & N' & GI & GO). unfold Remote.find_entry, Remote.get_or_load. destruct DI as [DI|DI]; rewrite DI.
    - destruct (load_lost x s TI BW CK) as (s' & -> & R). exists s'. split; [reflexivity|exact R].
    - assert (FI : Remote.index_find py_str key_order fuel s (gd gi) (gd go) (method_alias m) = (set_index s (Some []), Ok None)).
      { unfold Remote.index_find. rewrite DI. pose proof (idempotent di gi N GI) as SI. pose proof (idempotent do go N' GO) as SO. unfold Index.find. destruct (from_dict (gd gi)) as [g1|x1|]; try contradiction SI. destruct (from_dict (gd go)) as [g2|x2|]; try contradiction SO. reflexivity. }
      rewrite FI. change (d_checked rest (r_db (set_index s (Some [])))) with (d_checked rest (r_db s)). rewrite CK. cbn [negb]. unfold reload, Remote.got_index. change (r_world (set_index s (Some []))) with (r_world s).
      destruct (index_gone Compare x (r_world s) TI BW) as (w' & -> & B' & SC). rewrite SC.
      match goal with |- context [load_index x base ?s3] => destruct (load_lost x s3 TI B') as (s' & -> & R) end; [cbn; exact CK|]. exists s'. split; [reflexivity|exact R].
  Qed.
End Index.
