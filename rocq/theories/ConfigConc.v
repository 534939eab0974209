(** Threads that use one configuration (utils/config.py): [temporary] blocks, [set], [reset] and
    [get] of several threads, step by step.  There is no lock: the stack of temporary configurations
    (config.py:295) belongs to the module, not to a thread.

    Simplifications: the observers are left out (they do not change the configuration, and C14 and
    C15 are about those that raise); autosave is on; storing the values of one call of [set] and
    saving them is one step, as is copying a configuration; every statement is in a try, so that a
    thread goes on after an exception. *)
From Verif Require Import PyBase PyStr Config.
Local Open Scope string_scope.
Local Open Scope list_scope.

Section ConfigConc.
  Variable Obj : Type.
  Variable obj_str : Obj -> string.
  Variable obj_bool : Obj -> bool.
  Variable home : string.
  Variable writable : string -> bool.
  Variable version : string.
  (** os.environ *)
  Variable env : list (string * string).
  Notation value := (value Obj).
  Notation vals_t := (list (string * value)).
  Notation conf := (conf Obj).
  Notation setarg := (setarg Obj).

  (** Statements of a thread; [IWith p a body] is [with config.temporary(..., config_yaml=p): body]. *)
  Inductive instr :=
  | ISet (a : setarg)
  | IReset (n : option string)
  | IGet (n : string)
  | IWith (p : option string) (a : option setarg) (body : list instr).
  (** What a thread has still to do: statements, and ends of blocks. *)
  Inductive task := Do (i : instr) | Leave.
  (** [Bound i k]: the method was called and [forward] (config.py:243-250) has chosen object [k];
      [Made k rest]: [temporary] returned object [k], which is not on the stack yet. *)
  Inductive pc := Ready | Bound (i : instr) (k : nat) | Made (k : nat) (body : list instr).
  Record thread := mkThread { tasks : list task; at_ : pc; read : list (string * result value); errors : list exn }.
  (** All objects of class Config, the first one is CONFIG; CONFIG._stack, top first; the files. *)
  Record shared := mkShared { objs : list conf; stack : list nat; files : list (string * list (string * value)) }.
  Definition no_conf : conf := mkConf [] None.
  Definition object (k : nat) (s : shared) : conf := nth k (objs s) no_conf.
  Definition top (s : shared) : nat := match stack s with [] => 0 | k :: _ => k end.
  Fixpoint put {T} (k : nat) (x : T) (l : list T) : list T :=
    match l, k with [] , _ => [] | _ :: l, O => x :: l | y :: l, S k => y :: put k x l end.

  (** config.py:337-358 and 430-457 on one object: the values, what is raised. *)
  Definition new_vals (i : instr) (v : vals_t) : vals_t * result unit :=
    match i with
    | ISet a => let '(v', r) := set_vals Obj obj_str obj_bool home a v in (v', _ <- r ;; Ok tt)
    | IReset None => (defaults Obj home, Ok tt)
    | IReset (Some n) => match alookup n (defaults Obj home) with Some d => (aset n d (aremove n v), Ok tt) | None => (v, Raise KeyError) end
    | _ => (v, Ok tt)
    end.
  Notation save_to := (save_to Obj home writable version).
  Definition change (i : instr) (k : nat) (s : shared) : shared * result unit :=
    let o := object k s in
    let '(v, r) := new_vals i (vals o) in
    (mkShared (put k (mkConf v (path o)) (objs s)) (stack s) (match r with Ok _ => save_to (path o) v (files s) | _ => files s end), r).
  (** config.py:566-576 [temporary] *)
  Definition make (p : option string) (a : option setarg) (k : nat) (s : shared) : shared * result nat :=
    let v := vals (object k s) in
    let n := List.length (objs s) in
    match a with
    | None => (mkShared (objs s ++ [mkConf v p]) (stack s) (files s), Ok n)
    | Some a =>
        match set_vals Obj obj_str obj_bool home a v with
        | (v', Ok _) => (mkShared (objs s ++ [mkConf v' p]) (stack s) (save_to p v' (files s)), Ok n)
        | (_, Raise e) => (s, Raise e)
        | (_, OutOfFuel) => (s, OutOfFuel)
        end
    end.

  Definition noted (t : thread) (r : result unit) : list exn := match r with Raise e => errors t ++ [e] | _ => errors t end.
  Definition move (s : shared) (t : thread) : shared * thread :=
    match at_ t with
    | Ready =>
        match tasks t with
        | [] => (s, t)
        | Do i :: l => (s, mkThread l (Bound i (top s)) (read t) (errors t))
        | Leave :: l => (mkShared (objs s) (tl (stack s)) (files s), mkThread l Ready (read t) (errors t))   (* config.py:238-239: pop *)
        end
    | Bound (IGet n) k => (s, mkThread (tasks t) Ready (read t ++ [(n, get_in Obj obj_str home (vals (object k s)) env n)]) (errors t))
    | Bound (IWith p a body) k =>
        match make p a k s with
        | (s', Ok n) => (s', mkThread (tasks t) (Made n body) (read t) (errors t))
        | (s', Raise e) => (s', mkThread (tasks t) Ready (read t) (errors t ++ [e]))
        | (s', OutOfFuel) => (s', mkThread (tasks t) Ready (read t) (errors t))
        end
    | Bound i k => let '(s', r) := change i k s in (s', mkThread (tasks t) Ready (read t) (noted t r))
    | Made k body => (mkShared (objs s) (k :: stack s) (files s), mkThread (map Do body ++ Leave :: tasks t) Ready (read t) (errors t))   (* config.py:234: append *)
    end.

  Record state := mkState { sh : shared; threads : list thread }.
  Definition step (g : state) (n : nat) : state :=
    match nth_error (threads g) n with
    | Some t => let '(s, t') := move (sh g) t in mkState s (put n t' (threads g))
    | None => g
    end.
  (** A schedule: which thread moves. *)
  Definition run (g : state) (l : list nat) : state := fold_left step l g.
  Definition begin (p : list instr) : thread := mkThread (map Do p) Ready [] [].
  Definition start (c : conf) (f : list (string * list (string * value))) (progs : list (list instr)) : state := mkState (mkShared [c] [] f) (map begin progs).
  Definition finished (g : state) : Prop := Forall (fun t => tasks t = [] /\ at_ t = Ready) (threads g).
End ConfigConc.
Arguments ISet {Obj} a.
Arguments IReset {Obj} n.
Arguments IGet {Obj} n.
Arguments IWith {Obj} p a body.
Arguments Do {Obj} i.
Arguments Leave {Obj}.
Arguments Ready {Obj}.
Arguments Bound {Obj} i k.
Arguments Made {Obj} k body.
Arguments mkThread {Obj}.
Arguments tasks {Obj}.
Arguments at_ {Obj}.
Arguments read {Obj}.
Arguments errors {Obj}.
Arguments mkShared {Obj}.
Arguments objs {Obj}.
Arguments stack {Obj}.
Arguments files {Obj}.
Arguments object {Obj}.
Arguments top {Obj}.
Arguments mkState {Obj}.
Arguments sh {Obj}.
Arguments threads {Obj}.
Arguments begin {Obj}.
Arguments start {Obj}.
Arguments finished {Obj}.
