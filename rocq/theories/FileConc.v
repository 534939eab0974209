(** One call of cache_file (utils/caching.py:934-1061) while other threads change the cache
    policy and directory.

    The call asks CACHE for its policy again and again (lines 979, 995, 1040, and in every
    [_call_manager], 799-809), and looks at the file system in between; other threads may
    change the settings between any two of these moments, and a temporary directory that is
    no longer used is deleted (and made again by some versions of FileLock).  What the call finds at its [n]th look is [o n].

    Simplifications: only this call uses the files (other callers and processes are in
    Protocol.v); [check_size] deletes nothing (it does in CacheFile.v); lock files and the
    half-written file are not shown; the table of the directory the manager was told can be used; a row
    of the table is its path, size and owner data;
    [replace] is None. *)
From Verif Require Import PyBase.
Local Open Scope string_scope.

Section FileConc.
  Variables C D : Type.
  Variable size_of : C -> Z.

  (** What is in force at one moment: [managed()] and [directory()] of the policy (caching.py:
      662-748), the directory of the policy the manager was told last (183-187), and which
      directories exist. *)
  Record now := mkNow { managed : bool; dir : string; mdir : string; there : string -> bool }.
  (** caching.py:776-797: a managed policy is told to the manager before _policy_lock is released. *)
  Definition told (x : now) : Prop := managed x = true -> mdir x = dir x.

  (** caching.py:146-162, the columns used here; None is NULL *)
  Record row := mkRow { r_size : option Z; r_data : option D }.

  Record world := mkWorld {
    files : string -> option C;               (* by full path *)
    tables : string -> string -> option row;  (* by directory, then by path *)
    look : nat }.                             (* how often the call has looked *)

  Definition upd {A} (f : string -> A) (k : string) (v : A) : string -> A :=
    fun x => if String.eqb x k then v else f x.
  Definition set_row (t : string -> string -> option row) (d p : string) (v : option row) :=
    upd t d (upd (t d) p v).
  Definition with_files (w : world) f := mkWorld f (tables w) (look w).
  Definition with_tables (w : world) t := mkWorld (files w) t (look w).

  (** os.path.join for a directory without trailing slash *)
  Definition join (d n : string) : string := d ++ "/" ++ n.
  (** caching.py:626-627 file_in_cache_directory: startswith *)
  Definition inside (d p : string) : bool := String.prefix d p.

  (** Effects: exceptions are values. *)
  Definition M A : Type := world -> world * result A.
  Definition ret {A} (a : A) : M A := fun w => (w, Ok a).
  Definition fail {A} (e : exn) : M A := fun w => (w, Raise e).
  Definition bind {A B} (m : M A) (k : A -> M B) : M B := fun w =>
    match m w with
    | (w, Ok a) => k a w
    | (w, Raise e) => (w, Raise e)
    | (w, OutOfFuel) => (w, OutOfFuel)
    end.
  Notation "x <-- m ;; k" := (bind m (fun x => k)) (at level 61, m at next level, right associativity).

  (** [force] of the call: a flag, or a function of the owner data (lines 1005-1009). *)
  Inductive force := Flag (b : bool) | Ask (f : option D -> bool).

  Section Call.
    Variable o : nat -> now.

    (** One look at what is in force. *)
    Definition see : M now := fun w => (mkWorld (files w) (tables w) (S (look w)), Ok (o (look w))).

    (** os.path.exists(path), for a path in directory [d] *)
    Definition exists_ (d p : string) : M bool :=
      x <-- see ;; fun w => (w, Ok (there x d && match files w p with Some _ => true | None => false end)).

    (** caching.py:799-809 [_call_manager]: the policy is asked for, then the manager, in its
        own time, does the work for the directory it was told last. *)
    Definition call_manager {A} (job : string -> M A) : M (option A) :=
      x <-- see ;;
      if managed x then y <-- see ;; r <-- job (mdir y) ;; ret (Some r) else ret None.

    (** caching.py:180-181 [_ensure_in_cache] *)
    Definition ensure (d p : string) : M unit := if inside d p then ret tt else fail AssertionError.

    (** caching.py:429-478 [_register_cache_file] *)
    Definition register (p d : string) : M row :=
      _ <-- ensure d p ;;
      fun w =>
        match tables w d p with
        | Some r => (w, Ok r)
        | None => (with_tables w (set_row (tables w) d p (Some (mkRow None None))), Ok (mkRow None None))
        end.

    (** caching.py:228-250 [_update_entry] of a file in directory [home] *)
    Definition update_entry (home p : string) (x : D) (d : string) : M unit :=
      _ <-- ensure d p ;;
      e <-- exists_ home p ;;
      if e then
        fun w =>
          match files w p, tables w d p with
          | Some c, Some r => (with_tables w (set_row (tables w) d p (Some (mkRow (Some (size_of c)) (Some x)))), Ok tt)
          | _, _ => (w, Ok tt)
          end
      else fail FileNotFoundError.

    (** caching.py:347-398, 489-490 [_decache_file]: no test of the directory *)
    Definition decache (home p d : string) : M unit :=
      e <-- exists_ home p ;;
      fun w => (mkWorld (if e then upd (files w) p None else files w) (set_row (tables w) d p None) (look w), Ok tt).

    (** [create] writes the file next to its place, and it is renamed (1022-1023, 1054-1055). *)
    Definition make (home p : string) (create : result (C * D)) : M D :=
      x <-- see ;;
      if there x home then
        match create with
        | Ok (c, d) =>
            y <-- see ;;
            if there y home then fun w => (with_files w (upd (files w) p (Some c)), Ok d)
            else fail FileNotFoundError
        | Raise e => fail e
        | OutOfFuel => fun w => (w, OutOfFuel)
        end
      else fail FileNotFoundError.

    (** Lines 1005-1011: is the file to be made again?  [record] is what the manager returned. *)
    Definition wanted (f : force) (record : option row) : M bool :=
      match f with
      | Flag b => ret b
      | Ask g => match record with
                 | None => fail TypeError           (* None["owner_data"], line 1006 *)
                 | Some r => ret (g (r_data r))
                 end
      end.

    (** caching.py:979-1061; [name] is the name from the hash of the request (982-1001),
        [fresh] the one from the time and a random number (1035-1046).  The second half of line
        979 always holds: no policy CACHE can have has None for its directory. *)
    Definition cache_file (name fresh : string) (f : force) (create : result (C * D)) : M string :=
      x <-- see ;;                                        (* 979: managed() *)
      (if managed x then
         h <-- see ;;                                     (* 995: directory() *)
         let home := dir h in
         let p := join home name in
         record <-- call_manager (register p) ;;          (* 1003 *)
         e <-- exists_ home p ;;                          (* 1004 *)
         _ <-- (if e then
                  again <-- wanted f record ;;
                  if again then
                    _ <-- call_manager (decache home p) ;;  (* 1013 *)
                    _ <-- call_manager (register p) ;; ret tt
                  else ret tt
                else ret tt) ;;
         e <-- exists_ home p ;;                          (* 1016 *)
         if e then ret p
         else
           e <-- exists_ home p ;;                        (* 1021 *)
           if e then ret p
           else
             d <-- make home p create ;;                  (* 1022-1023 *)
             _ <-- call_manager (update_entry home p d) ;;  (* 1025 *)
             ret p
       else
         h <-- see ;;                                     (* 1040 *)
         let home := dir h in
         let p := join home fresh in
         e <-- exists_ home p ;;                          (* 1048 *)
         if e then ret p
         else
           e <-- exists_ home p ;;                        (* 1053 *)
           if e then ret p
           else _ <-- make home p create ;; ret p).
  End Call.
End FileConc.

Arguments mkRow {D} _ _.
Arguments r_size {D} _.
Arguments r_data {D} _.
Arguments mkWorld {C D} _ _ _.
Arguments files {C D} _ _.
Arguments tables {C D} _ _ _.
Arguments look {C D} _.
Arguments Flag {D} _.
Arguments Ask {D} _.
Arguments cache_file {C D} _ _ _ _ _ _.
