(** Model of the disk cache's book-keeping: class CacheManager of
    src/earthkit/regrid/utils/caching.py, the methods that run on the manager thread.

    The sqlite table is a list of rows in the order they were inserted (rowid order, which is the
    order of SELECT without ORDER BY); times are integers (the ISO texts sqlite compares are
    ordered like the times they denote).  The files of the cache directory are paths with a size
    (for a directory the sum of the sizes of its files); the files inside a directory are not
    told apart.  What the operating system may do is an argument: deleting may fail, a file may
    be recent.  Commits are not modelled: every statement is committed by the innermost [with],
    and nothing reads in between. *)
From Verif Require Import PyBase.
Local Open Scope string_scope.
Local Open Scope list_scope.
Local Open Scope Z_scope.

Section Disk.
  (** JSON values stored in the columns args and owner_data. *)
  Variable json : Type.
  Variable jnull : json.

  (** caching.py:152-169; the columns flags, replaced, extra and expires are never used. *)
  Record row := mkRow {
    r_path : string; r_owner : string; r_args : json; r_created : Z; r_access : Z; r_accesses : Z;
    r_parent : option string; r_size : option Z; r_kind : option bool (* is a directory *); r_data : option json }.
  Record node := mkNode { n_size : Z; n_dir : bool }.
  Record disk := mkDisk { rows : list row; files : list (string * node) }.

  (** What a call finds in the world: the time, which files were modified less than two minutes
      ago, which files cannot be deleted, the use of the disk in percent and its size. *)
  Record env := mkEnv { now : Z; recent : string -> bool; locked : string -> bool; percent : Z; disk_total : Z }.

  (** The policy's directory. *)
  Variable dir : string.
  Definition CACHE_DB : string := "cache-2.db".
  (** os.path.join(dir, name) for a relative name; the directory does not end with a slash. *)
  Definition join (name : string) : string := (dir ++ "/" ++ name)%string.
  (** caching.py:626-627 [file_in_cache_directory]: path.startswith(directory) *)
  Definition in_cache (path : string) : bool := prefix dir path.
  Definition file_exists (d : disk) (path : string) : bool := amem path (files d).
  Definition find_row (d : disk) (path : string) : option row := find (fun r => String.eqb (r_path r) path) (rows d).

  (** caching.py:429-479 [_register_cache_file] *)
  Definition touch (t : Z) (r : row) : row :=
    mkRow (r_path r) (r_owner r) (r_args r) (r_created r) t (r_accesses r + 1) (r_parent r) (r_size r) (r_kind r) (r_data r).
  Definition new_row (path owner : string) (args : json) (t : Z) (parent : option string) : row :=
    mkRow path owner args t t 1 parent None None None.
  Definition register (t : Z) (path owner : string) (args : json) (parent : option string) (d : disk) : result disk :=
    if negb (in_cache path) then Raise AssertionError
    else match find_row d path with
         | Some _ => Ok (mkDisk (map (fun r => if String.eqb (r_path r) path then touch t r else r) (rows d)) (files d))
         | None => Ok (mkDisk (rows d ++ [new_row path owner args t parent]) (files d))
         end.

  (** caching.py:228-250 [_update_entry] *)
  Definition set_size (s : Z) (k : bool) (r : row) : row :=
    mkRow (r_path r) (r_owner r) (r_args r) (r_created r) (r_access r) (r_accesses r) (r_parent r) (Some s) (Some k) (r_data r).
  Definition set_data (j : json) (r : row) : row :=
    mkRow (r_path r) (r_owner r) (r_args r) (r_created r) (r_access r) (r_accesses r) (r_parent r) (r_size r) (r_kind r) (Some j).
  Definition update_entry (path : string) (owner_data : json) (d : disk) : result disk :=
    if negb (in_cache path) then Raise AssertionError
    else match alookup path (files d) with
         | None => Raise FileNotFoundError
         | Some n => Ok (mkDisk (map (fun r => if String.eqb (r_path r) path then set_data owner_data (set_size (n_size n) (n_dir n) r) else r) (rows d)) (files d))
         end.

  (** caching.py:252-279 [_update_cache]: sizes of the rows without, if their file exists; else
      with [clean] the row is deleted. *)
  Definition is_null (r : row) : bool := match r_size r with None => true | Some _ => false end.
  Definition update_row (d : disk) (clean : bool) (r : row) : list row :=
    if is_null r then
      match alookup (r_path r) (files d) with
      | Some n => [set_size (n_size n) (n_dir n) r]
      | None => if clean then [] else [r]
      end
    else [r].
  Definition update_cache (clean : bool) (d : disk) : disk := mkDisk (flat_map (update_row d clean) (rows d)) (files d).

  (** caching.py:281-322 [_housekeeping].  [start] is the path up to its first dot, and LIKE is
      taken as "begins with" (paths without % in them; its wildcard _ and its ignoring of the case
      only select more rows, among which the exact test then chooses). *)
  Fixpoint upto_dot (s : string) : string :=
    match s with
    | EmptyString => EmptyString
    | String c r => if Ascii.eqb c "."%char then EmptyString else String c (upto_dot r)
    end.
  Fixpoint has_slash (s : string) : bool :=
    match s with EmptyString => false | String c r => Ascii.eqb c "/"%char || has_slash r end.
  (** The name under which os.listdir(dir) lists a path, if it is directly inside. *)
  Definition strip (path : string) : option string :=
    if prefix (dir ++ "/") path then
      let name := substring (String.length dir + 1) (String.length path - (String.length dir + 1)) path in
      if has_slash name || String.eqb name "" then None else Some name
    else None.
  Definition listdir (d : disk) : list string :=
    flat_map (fun p => match strip (fst p) with Some name => [name] | None => [] end) (files d).
  Definition no_parent (r : row) : bool := match r_parent r with None => true | Some _ => false end.
  Definition find_parent (d : disk) (full : string) : option string :=
    option_map r_path (find (fun r => no_parent r && prefix (upto_dot full) (r_path r) && prefix (r_path r) full) (rows d)).
  Definition register_orphan (e : env) (acc : result disk) (name : string) : result disk :=
    d <- acc ;;
    if String.eqb name CACHE_DB then Ok d
    else let full := join name in
         match find_row d full with
         | Some _ => Ok d
         | None => if recent e full then Ok d
                   else register (now e) full "orphans" jnull (find_parent d full) d
         end.
  Definition housekeeping (e : env) (clean : bool) (d : disk) : result disk :=
    d1 <- fold_left (register_orphan e) (listdir d) (Ok d) ;;
    Ok (update_cache clean d1).

  (** caching.py:347-398 [_delete_entry] and 324-334 [_delete_file]: children first; a file that
      is gone costs only the row; if the file cannot be deleted that is only logged.  Fuel bounds
      the depth of children. *)
  Definition drop_row (path : string) (d : disk) : disk := mkDisk (filter (fun r => negb (String.eqb (r_path r) path)) (rows d)) (files d).
  Definition unlink (path : string) (d : disk) : disk := mkDisk (rows d) (aremove path (files d)).
  Definition size_of (r : row) : Z := match r_size r with Some s => s | None => 0 end.
  Definition is_child (path : string) (r : row) : bool := match r_parent r with Some p => String.eqb p path | None => false end.
  Fixpoint delete_entry (fuel : nat) (e : env) (d : disk) (path : string) (size : Z) : result (disk * Z) :=
    match fuel with
    | O => OutOfFuel
    | S f =>
        dt <- fold_left (fun acc c => dt <- acc ;; r <- delete_entry f e (fst dt) (r_path c) (size_of c) ;; Ok (fst r, snd dt + snd r))
                (filter (is_child path) (rows d)) (Ok (d, 0)) ;;
        let (d1, total) := (dt : disk * Z) in
        if negb (file_exists d1 path) then Ok (drop_row path d1, total)
        else if negb (in_cache path) then Raise AssertionError
        else let d2 := if locked e path then d1 else unlink path d1 in
             Ok (drop_row path d2, total + size)
    end.
  (** Enough: every parent is shorter than its children. *)
  Definition depth (d : disk) : nat := S (S (fold_right Nat.max O (map (fun r => String.length (r_path r)) (rows d)))).

  (** caching.py:189-201 [_latest_date] *)
  Fixpoint minimum (l : list Z) : option Z :=
    match l with [] => None | x :: r => match minimum r with None => Some x | Some y => Some (Z.min x y) end end.
  Fixpoint maximum (l : list Z) : option Z :=
    match l with [] => None | x :: r => match maximum r with None => Some x | Some y => Some (Z.max x y) end end.
  Definition latest_date (t : Z) (d : disk) : Z :=
    match minimum (map r_created (filter is_null (rows d))) with
    | Some x => x
    | None => match maximum (map r_created (filter (fun r => negb (is_null r)) (rows d))) with
              | Some x => x
              | None => t
              end
    end.

  (** caching.py:400-427 [_decache].  The first statement is read while rows are deleted (rows
      deleted meanwhile are not returned any more), the second is sorted first. *)
  Definition evictable (latest : Z) (r : row) : bool := negb (is_null r) && (r_created r <? latest).
  Definition is_orphan (r : row) : bool := String.eqb (r_owner r) "orphans".
  Fixpoint insert_by_access (r : row) (l : list row) : list row :=
    match l with
    | [] => [r]
    | x :: l' => if r_access r <=? r_access x then r :: l else x :: insert_by_access r l'
    end.
  Definition sort_by_access (l : list row) : list row := fold_right insert_by_access [] l.
  Fixpoint delete_until (live : bool) (e : env) (bytes : Z) (l : list row) (d : disk) (total : Z) : result (disk * Z * bool) :=
    match l with
    | [] => Ok (d, total, false)
    | r :: l' =>
        match (if live then find_row d (r_path r) else Some r) with
        | None => delete_until live e bytes l' d total
        | Some _ => dt <- delete_entry (depth d) e d (r_path r) (size_of r) ;;
                    let total' := total + snd dt in
                    if bytes <=? total' then Ok (fst dt, total', true)
                    else delete_until live e bytes l' (fst dt) total'
        end
    end.
  Definition decache (e : env) (latest : Z) (bytes : Z) (d : disk) : result (disk * option Z) :=
    if bytes <=? 0 then Ok (d, Some 0)
    else
      r1 <- delete_until true e bytes (filter (fun r => evictable latest r && is_orphan r) (rows d)) d 0 ;;
      let '(d1, t1, enough) := r1 in
      if (enough : bool) then Ok (d1, Some t1)
      else r2 <- delete_until false e bytes (sort_by_access (filter (evictable latest) (rows d1))) d1 t1 ;;
           let '(d2, t2, enough) := r2 in
           if (enough : bool) then Ok (d2, Some t2) else Ok (d2, None).

  (** caching.py:481-487 [_cache_size] *)
  Definition cache_size (d : disk) : Z := zsum (map size_of (rows d)).
  (** caching.py:492-511 [_check_cache_size], for a managed policy with the given limits.  The
      rounding of (percent - usage) * total * 0.01 is not modelled: the number of bytes is the
      least integer not below the exact product. *)
  Definition delta (p usage total : Z) : Z := ((p - usage) * total + 99) / 100.
  Definition check_cache_size (e : env) (max usage : option Z) (d : disk) : result disk :=
    d1 <- match max with
          | Some m => if cache_size d >? m then
                        h <- housekeeping e false d ;;
                        r <- decache e (latest_date (now e) h) (cache_size d - m) h ;; Ok (fst r)
                      else Ok d
          | None => Ok d
          end ;;
    match usage with
    | Some u => if percent e >? u then
                  h <- housekeeping e false d1 ;;
                  r <- decache e (latest_date (now e) h) (delta (percent e) u (disk_total e)) h ;; Ok (fst r)
                else Ok d1
    | None => Ok d1
    end.
  (** caching.py:489-490 [_decache_file] *)
  Definition decache_file (e : env) (path : string) (d : disk) : result disk :=
    r <- delete_entry (depth d) e d path (match alookup path (files d) with Some n => n_size n | None => 0 end) ;; Ok (fst r).
  (** caching.py:203-212 [_purge_cache]; [latest] is the time read by [_decache]. *)
  Definition purge (e : env) (latest : Z) (d : disk) : result disk :=
    h <- housekeeping e true d ;;
    r <- decache e latest (cache_size h) h ;; Ok (fst r).
  (** caching.py:541-551 [_dump_cache_database] *)
  Definition dump (matcher : row -> bool) (d : disk) : list row := filter matcher (rows d).
  Definition purge_matching (e : env) (matcher : row -> bool) (d : disk) : result disk :=
    fold_left (fun acc r => d <- acc ;; x <- delete_entry (depth d) e d (r_path r) (size_of r) ;; Ok (fst x)) (dump matcher d) (Ok d).
  (** caching.py:214-226 [_cache_entries] *)
  Definition cache_entries (d : disk) : list row := filter (fun r => file_exists d (r_path r)) (rows d).
  (** caching.py:553-559 [_summary_dump_cache_database]: the size is always a key of the rows, so
      a row in progress adds None. *)
  Fixpoint sum_sizes (l : list row) (s : Z) : result Z :=
    match l with [] => Ok s | r :: l' => match r_size r with Some x => sum_sizes l' (s + x) | None => Raise TypeError end end.
  Definition summary (matcher : row -> bool) (d : disk) : result (nat * Z) :=
    s <- sum_sizes (dump matcher d) 0 ;; Ok (List.length (dump matcher d), s).
End Disk.
Arguments mkRow {json}. Arguments r_path {json}. Arguments r_owner {json}. Arguments r_args {json}. Arguments r_created {json}.
Arguments r_access {json}. Arguments r_accesses {json}. Arguments r_parent {json}. Arguments r_size {json}. Arguments r_kind {json}. Arguments r_data {json}.
Arguments mkDisk {json}. Arguments rows {json}. Arguments files {json}. Arguments file_exists {json}. Arguments find_row {json}.
Arguments touch {json}. Arguments new_row {json}. Arguments register {json}. Arguments set_size {json}. Arguments set_data {json}. Arguments update_entry {json}.
Arguments is_null {json}. Arguments update_row {json}. Arguments update_cache {json}. Arguments listdir {json}. Arguments no_parent {json}. Arguments find_parent {json}.
Arguments register_orphan {json}. Arguments housekeeping {json}. Arguments drop_row {json}. Arguments unlink {json}. Arguments size_of {json}. Arguments is_child {json}.
Arguments delete_entry {json}. Arguments depth {json}. Arguments latest_date {json}. Arguments evictable {json}. Arguments is_orphan {json}.
Arguments insert_by_access {json}. Arguments sort_by_access {json}. Arguments delete_until {json}. Arguments decache {json}. Arguments cache_size {json}.
Arguments check_cache_size {json}. Arguments decache_file {json}. Arguments purge {json}. Arguments dump {json}. Arguments purge_matching {json}.
Arguments cache_entries {json}. Arguments sum_sizes {json}. Arguments summary {json}.
