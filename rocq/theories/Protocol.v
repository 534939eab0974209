(** Model of how processes create one and the same cache file: caching.py:1020-1036 (policies
    user and temporary) and 1054-1065 (policy off), step by step, with crashes.

    One path is modelled: the final name, the temporary name (path + ".tmp") and the lock file
    (path + ".lock"), each naming an inode or nothing.  Every system call is one step, and the steps of
    any number of processes (threads are processes here) interleave.  FileLock is the
    filelock package's UnixFileLock: open the lock file (creating it if need be), flock it without
    waiting, on failure close it and try again; release is unlock and close and does not delete
    the file.  Later versions of the package verify after flock that the file still has a
    name ([recheck]); both behaviours are modelled.  The creation function opens the temporary
    name for writing, which truncates an existing file, writes byte by byte at its own
    offset, and may fail anywhere.  A process may crash anywhere: the operating system drops its
    locks.  Others may delete the files: force and eviction (the cache manager) the final file, purge
    and cleaning up the temporary one.  Not modelled: caching.py:1027-1028 (update_entry
    and check_size, see Disk.v) beyond that they may fail. *)
From Verif Require Import PyBase.

Section Protocol.
  Variable recheck : bool.
  Definition bytes := list nat.

  (** Where a process is; [k] is the inode of the lock file it has open. *)
  Inductive pc :=
  | Start                      (* 1020 if not os.path.exists(path) *)
  | Opening                    (* 1024 with FileLock(lock): os.open *)
  | Flocking (k : nat)         (* fcntl.flock *)
  | Checking (k : nat)         (* os.fstat, if [recheck] *)
  | Inside (k : nat)           (* 1025 if not os.path.exists(path) *)
  | Creating (k : nat)         (* 1026 create(path + ".tmp", args): open *)
  | Writing (k ino : nat) (c : bytes) (n : nat)  (* n bytes of c written *)
  | Renaming (k : nat) (c : bytes)               (* 1027 os.rename *)
  | Created (k : nat)          (* 1029-1030 *)
  | Releasing (k : nat)        (* end of the with block *)
  | Unlinking                  (* 1032 os.unlink(lock) *)
  | Failing (k : nat)          (* an exception leaves the with block; os.unlink is not reached *)
  | Finished | Failed | Crashed.

  Record world := mkWorld {
    final : option nat; tmp : option nat; lockf : option nat;
    data : nat -> bytes;            (* contents of the inodes *)
    holder : nat -> option nat;     (* which process has flocked an inode *)
    next : nat;                     (* first unused inode *)
    procs : nat -> pc }.

  Definition upd {A} (f : nat -> A) (i : nat) (v : A) : nat -> A := fun j => if Nat.eqb j i then v else f j.
  Definition goto (i : nat) (p : pc) (w : world) : world :=
    mkWorld (final w) (tmp w) (lockf w) (data w) (holder w) (next w) (upd (procs w) i p).
  Definition set_holder (k : nat) (h : option nat) (w : world) : world :=
    mkWorld (final w) (tmp w) (lockf w) (data w) (upd (holder w) k h) (next w) (procs w).
  Definition set_data (j : nat) (c : bytes) (w : world) : world :=
    mkWorld (final w) (tmp w) (lockf w) (upd (data w) j c) (holder w) (next w) (procs w).
  Definition set_lockf (l : option nat) (w : world) : world := mkWorld (final w) (tmp w) l (data w) (holder w) (next w) (procs w).
  Definition set_tmp (l : option nat) (w : world) : world := mkWorld (final w) l (lockf w) (data w) (holder w) (next w) (procs w).
  Definition set_final (l : option nat) (w : world) : world := mkWorld l (tmp w) (lockf w) (data w) (holder w) (next w) (procs w).
  Definition fresh (w : world) : nat * world := (next w, mkWorld (final w) (tmp w) (lockf w) (data w) (holder w) (S (next w)) (procs w)).

  (** write(2) of one byte at an offset *)
  Definition write_at (l : bytes) (n b : nat) : bytes := firstn n (l ++ repeat 0%nat (n - List.length l)) ++ b :: skipn (S n) l.

  Definition holds (p : pc) : option nat :=
    match p with
    | Checking k | Inside k | Creating k | Writing k _ _ _ | Renaming k _ | Created k | Releasing k | Failing k => Some k
    | _ => None
    end.

  (** What may happen next. *)
  Inductive act :=
  | Go (i : nat)                 (* the next step of process i *)
  | Begin (i : nat) (c : bytes)  (* its creation function opens the file, about to write c *)
  | Fail (i : nat)               (* its creation function, or 1029-1030, raises *)
  | Crash (i : nat)
  | Call (i : nat)               (* it calls cache_file (again) *)
  | DeleteTmp
  | DeleteFinal.

  Definition go (i : nat) (w : world) : option world :=
    match procs w i with
    | Start => Some (goto i (match final w with Some _ => Finished | None => Opening end) w)
    | Opening => match lockf w with
                 | Some k => Some (goto i (Flocking k) w)
                 | None => let (k, w1) := fresh w in Some (goto i (Flocking k) (set_lockf (Some k) w1))
                 end
    | Flocking k => match holder w k with
                    | None => Some (goto i (Checking k) (set_holder k (Some i) w))
                    | Some _ => Some (goto i Opening w)
                    end
    | Checking k => if recheck && negb (match lockf w with Some l => Nat.eqb l k | None => false end)
                    then Some (goto i Opening (set_holder k None w))
                    else Some (goto i (Inside k) w)
    | Inside k => Some (goto i (match final w with Some _ => Releasing k | None => Creating k end) w)
    | Writing k ino c n => match nth_error c n with
                           | Some b => Some (goto i (Writing k ino c (S n)) (set_data ino (write_at (data w ino) n b) w))
                           | None => Some (goto i (Renaming k c) w)
                           end
    | Renaming k c => match tmp w with
                      | Some j => Some (goto i (Created k) (set_tmp None (set_final (Some j) w)))
                      | None => Some (goto i (Failing k) w)
                      end
    | Created k => Some (goto i (Releasing k) w)
    | Releasing k => Some (goto i Unlinking (set_holder k None w))
    | Unlinking => Some (goto i Finished (set_lockf None w))
    | Failing k => Some (goto i Failed (set_holder k None w))
    | Creating _ | Finished | Failed | Crashed => None
    end.
  Definition perform (a : act) (w : world) : option world :=
    match a with
    | Go i => go i w
    | Begin i c => match procs w i with
                   | Creating k => match tmp w with
                                   | Some j => Some (goto i (Writing k j c 0) (set_data j [] w))
                                   | None => let (j, w1) := fresh w in Some (goto i (Writing k j c 0) (set_data j [] (set_tmp (Some j) w1)))
                                   end
                   | _ => None
                   end
    | Fail i => match procs w i with
                | Creating k | Writing k _ _ _ | Created k => Some (goto i (Failing k) w)
                | _ => None
                end
    | Crash i => Some (goto i Crashed (match holds (procs w i) with Some k => set_holder k None w | None => w end))
    | Call i => match procs w i with Finished | Failed | Crashed => Some (goto i Start w) | _ => None end
    | DeleteTmp => Some (set_tmp None w)
    | DeleteFinal => Some (set_final None w)
    end.

  (** Nothing exists; nobody has called yet. *)
  Definition world0 : world := mkWorld None None None (fun _ => []) (fun _ => None) 0 (fun _ => Finished).
  (** The temporary and lock files of a previous life. *)
  Definition restarted (t l : bool) (c : bytes) : world :=
    mkWorld None (if t then Some 0%nat else None) (if l then Some 1%nat else None) (fun _ => c) (fun _ => None) 2 (fun _ => Finished).
  Fixpoint run (l : list act) (w : world) : option world :=
    match l with [] => Some w | a :: r => match perform a w with Some w' => run r w' | None => None end end.
End Protocol.
