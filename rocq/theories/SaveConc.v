(** Model of processes that save one configuration file: utils/config.py:253-279 [save_config], step
    by step.

    As in Protocol.v every system call is one step and the steps of any number of processes (or
    threads: every call makes its own FileLock) interleave, FileLock opens the lock file (creating
    it if need be) and flocks it without waiting, tries again on failure, verifies in later
    versions that the lock file is still the one with that name ([recheck]), and does not delete it on
    release.  [open(path, "w")] empties the file that is there; there is no temporary name.
    [unlinks] is whether os.unlink(lock) (config.py:276) succeeds: it does on Unix, and an OSError is
    ignored.  Simplification: buffers are flushed byte by byte; what is written, the text made by
    config.py:260-274, is any list of bytes. *)
From Verif Require Import PyBase Protocol.

Section SaveConc.
  Variable recheck unlinks : bool.

  (** Where a process is; [k] is the inode of the lock file it has open, [c] the text to write. *)
  Inductive spc :=
  | Idle
  | SOpening (c : bytes)               (* 258 with FileLock(lock): os.open *)
  | SFlocking (k : nat) (c : bytes)    (* fcntl.flock *)
  | SChecking (k : nat) (c : bytes)    (* os.fstat, if [recheck] *)
  | Entered (k : nat) (c : bytes)      (* 259 open(path, "w") *)
  | SWriting (k : nat) (c : bytes) (n : nat)   (* 260-274, n bytes written *)
  | SReleasing (k : nat) (c : bytes)   (* the file is closed; end of the with block *)
  | SUnlinking                         (* 275-278 *)
  | SFailing (k : nat).                (* an exception leaves the with block; os.unlink is not reached *)

  (** The file, the lock file (an inode), who has flocked an inode, first unused inode. *)
  Record disk := mkDisk { file : option bytes; slock : option nat; sholder : nat -> option nat; snext : nat; sprocs : nat -> spc }.
  Definition at_pc (i : nat) (p : spc) (w : disk) : disk := mkDisk (file w) (slock w) (sholder w) (snext w) (upd (sprocs w) i p).
  Definition hold (k : nat) (h : option nat) (w : disk) : disk := mkDisk (file w) (slock w) (upd (sholder w) k h) (snext w) (sprocs w).
  Definition with_file (f : option bytes) (w : disk) : disk := mkDisk f (slock w) (sholder w) (snext w) (sprocs w).
  Definition with_lock (l : option nat) (w : disk) : disk := mkDisk (file w) l (sholder w) (snext w) (sprocs w).
  Definition content (w : disk) : bytes := match file w with Some l => l | None => [] end.

  Definition locked_by (p : spc) : option nat :=
    match p with SChecking k _ | Entered k _ | SWriting k _ _ | SReleasing k _ | SFailing k => Some k | _ => None end.

  (** What may happen next. *)
  Inductive sact :=
  | Save (i : nat) (c : bytes)   (* process i calls save_config *)
  | SGo (i : nat)                (* its next step *)
  | SFail (i : nat)              (* opening or writing the file raises *)
  | SCrash (i : nat).            (* it dies; the operating system drops its locks *)

  Definition sgo (i : nat) (w : disk) : option disk :=
    match sprocs w i with
    | SOpening c => match slock w with
                    | Some k => Some (at_pc i (SFlocking k c) w)
                    | None => Some (at_pc i (SFlocking (snext w) c) (mkDisk (file w) (Some (snext w)) (sholder w) (S (snext w)) (sprocs w)))
                    end
    | SFlocking k c => match sholder w k with
                       | None => Some (at_pc i (SChecking k c) (hold k (Some i) w))
                       | Some _ => Some (at_pc i (SOpening c) w)
                       end
    | SChecking k c => if recheck && negb (match slock w with Some l => Nat.eqb l k | None => false end)
                       then Some (at_pc i (SOpening c) (hold k None w))
                       else Some (at_pc i (Entered k c) w)
    | Entered k c => Some (at_pc i (SWriting k c 0) (with_file (Some []) w))
    | SWriting k c n => match nth_error c n with
                        | Some b => Some (at_pc i (SWriting k c (S n)) (with_file (Some (write_at (content w) n b)) w))
                        | None => Some (at_pc i (SReleasing k c) w)
                        end
    | SReleasing k _ => Some (at_pc i SUnlinking (hold k None w))
    | SUnlinking => Some (at_pc i Idle (if unlinks then with_lock None w else w))
    | SFailing k => Some (at_pc i Idle (hold k None w))
    | Idle => None
    end.
  Definition sperform (a : sact) (w : disk) : option disk :=
    match a with
    | Save i c => match sprocs w i with Idle => Some (at_pc i (SOpening c) w) | _ => None end
    | SGo i => sgo i w
    | SFail i => match sprocs w i with Entered k _ | SWriting k _ _ => Some (at_pc i (SFailing k) w) | _ => None end
    | SCrash i => Some (at_pc i Idle (match locked_by (sprocs w i) with Some k => hold k None w | None => w end))
    end.
  Fixpoint srun (l : list sact) (w : disk) : option disk :=
    match l with [] => Some w | a :: r => match sperform a w with Some w' => srun r w' | None => None end end.
  (** The file as it is; perhaps a lock file from before. *)
  Definition disk0 (f : option bytes) (l : bool) : disk := mkDisk f (if l then Some 0%nat else None) (fun _ => None) 1 (fun _ => Idle).
End SaveConc.
