(** Model of cache_file (src/earthkit/regrid/utils/caching.py:934-1064) and download_and_cache
    (src/earthkit/regrid/utils/download.py:22-106), one call at a time: what several processes do
    at once is in Protocol.v, and the files of the locks are only there.

    The manager's calls are those of Disk.v; a file has contents of which the directory knows size
    and kind.  Creation functions and force functions are arbitrary: they may change the world
    (download other files, call cache_file) and may raise.  [w_log] records which paths had their
    creation function called: a ghost. *)
From Verif Require Import PyBase PyStr Disk Key.
Local Open Scope string_scope.
Local Open Scope list_scope.
Local Open Scope Z_scope.

Section CacheFile.
  Context {C : Type}.
  Variable weigh : C -> node.
  Variable sha : string -> string.
  Variable dir : string.
  (** maximum-cache-size and maximum-cache-disk-usage of the policy. *)
  Variables limit usage : option Z.

  Record world := mkWorld { w_disk : disk json; w_text : list (string * C); w_log : list string }.
  Definition there (w : world) (p : string) : bool := file_exists (w_disk w) p.
  Definition content (w : world) (p : string) : option C := if there w p then alookup p (w_text w) else None.
  (** Writing a file, and os.rename *)
  Definition write (p : string) (c : C) (w : world) : world :=
    mkWorld (mkDisk (rows (w_disk w)) (aset p (weigh c) (files (w_disk w)))) (aset p c (w_text w)) (w_log w).
  Definition erase (p : string) (w : world) : world := mkWorld (unlink p (w_disk w)) (w_text w) (w_log w).
  Definition rename (a b : string) (w : world) : world * result unit :=
    match content w a with
    | Some c => (write b c (erase a w), Ok tt)
    | None => (w, Raise FileNotFoundError)
    end.
  Definition logged (p : string) (w : world) : world := mkWorld (w_disk w) (w_text w) (w_log w ++ [p]).

  (** A call of the manager: an exception is handed back, and nothing was changed. *)
  Definition manager (f : disk json -> result (disk json)) (w : world) : world * result unit :=
    match f (w_disk w) with
    | Ok d => (mkWorld d (w_text w) (w_log w), Ok tt)
    | Raise e => (w, Raise e)
    | OutOfFuel => (w, OutOfFuel)
    end.
  (** The same for check_size, whose result nobody waits for; the next call of the manager comes after it. *)
  Definition manager_async (f : disk json -> result (disk json)) (w : world) : world := fst (manager f w).
  Definition andthen {A B} (m : world * result A) (k : A -> world -> world * result B) : world * result B :=
    match snd m with
    | Ok a => k a (fst m)
    | Raise e => (fst m, Raise e)
    | OutOfFuel => (fst m, OutOfFuel)
    end.

  (** force: None or a flag, or a function of (args, path, owner_data) *)
  Inductive force := FFlag (b : bool) | FCall (f : json -> string -> option json -> world -> world * result bool).
  Definition creator := string -> json -> world -> world * result json.
  (** What the call finds: the times of its registrations, and the surroundings of its deletion and of the check at the end. *)
  Record around := mkAround { a_time : Z; a_delete : env; a_again : Z; a_check : env }.

  (** caching.py:1003-1036 *)
  Definition owner_data (w : world) (p : string) : option json := match find_row (w_disk w) p with Some r => r_data r | None => None end.
  Definition register_file (t : Z) (p : string) (q : request) (w : world) : world * result unit := manager (register dir t p (q_owner q) (q_args q) None) w.
  Definition create_file (a : around) (q : request) (p : string) (create : creator) (w : world) : world * result string :=
    andthen (create (p ++ ".tmp")%string (q_args q) (logged p w)) (fun data w1 =>
    andthen (rename (p ++ ".tmp")%string p w1) (fun _ w2 =>
    andthen (manager (update_entry dir p data) w2) (fun _ w3 =>
    (manager_async (check_cache_size JNull dir (a_check a) limit usage) w3, Ok p)))).
  Definition decide (q : request) (p : string) (f : force) (w : world) : world * result bool :=
    if there w p then match f with FFlag b => (w, Ok b) | FCall g => g (q_args q) p (owner_data w p) w end else (w, Ok false).
  Definition path_of (q : request) : string := join dir (key_name sha q).
  Definition cache_file (a : around) (q : request) (f : force) (create : creator) (w : world) : world * result string :=
    let p := path_of q in
    andthen (register_file (a_time a) p q w) (fun _ w1 =>
    andthen (decide q p f w1) (fun forced w2 =>
    andthen (if (forced : bool) then andthen (manager (decache_file dir (a_delete a) p) w2) (fun _ w3 => register_file (a_again a) p q w3) else (w2, Ok tt)) (fun _ w3 =>
    if there w3 p then (w3, Ok p) else create_file a q p create w3))).

  (** caching.py:1038-1062, policy off: no table, and a new name each time *)
  Definition off_path (q : request) (t : moment) (random : Z) : string := join dir (fresh_name sha (q_owner q) (q_ext q) t random).
  Definition cache_file_off (q : request) (t : moment) (random : Z) (create : creator) (w : world) : world * result string :=
    let p := off_path q t random in
    if there w p then (w, Ok p)
    else andthen (create (p ++ ".tmp")%string (q_args q) (logged p w)) (fun _ w1 =>
         andthen (rename (p ++ ".tmp")%string p w1) (fun _ w2 => (w2, Ok p))).

  (** multiurl.Downloader, as far as it is used *)
  Record downloader := mkDownloader {
    dl_ext : string; dl_local : option string;
    dl_out_of_date : string -> option json -> world -> world * result bool;
    dl_download : string -> world -> world * result json (* cache_data() afterwards *) }.
  (** download.py:63-102.  [check] and [fetch] are check-out-of-date-urls and
      download-out-of-date-urls, [update] the argument update_if_out_of_date. *)
  Definition out_of_date (D : downloader) (check fetch update : bool) : force :=
    FCall (fun _ p data w =>
      if negb check then (w, Ok false)
      else andthen (dl_out_of_date D p data w) (fun old w1 => (w1, Ok (if (old : bool) then fetch || update else false)))).
  Definition url_request (owner url : string) (parts : json) (ext : string) : request :=
    mkRequest owner (JDict [("url", JStr url); ("parts", parts)]) JNull ext.
  Definition download_and_cache (a : around) (D : downloader) (owner url : string) (parts : json) (given : option force) (check fetch update : bool)
      (w : world) : world * result (option string) :=
    match dl_local D with
    | Some _ => (w, Ok None)
    | None =>
        let f := match given with Some f => f | None => out_of_date D check fetch update end in
        andthen (cache_file a (url_request owner url parts (dl_ext D)) f (fun target _ => dl_download D target) w) (fun p w1 => (w1, Ok (Some p)))
    end.
End CacheFile.
