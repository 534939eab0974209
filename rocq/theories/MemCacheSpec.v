(** Vocabulary for the statements about the memory cache: histories, what a user
    sees of them, and recency.  No cache internals are used here except the
    interface of MemCache.v (step, operations and outputs). *)
From Verif Require Import PyBase MemCache.

Section Spec.
  Variables Req Ent W : Type.
  Variable key_of : Req -> string.
  Variable est_size : Ent -> Z.
  Variable size_of : W -> Z.

  (** The cache as it is after importing the package under configuration [c] and
      then performing [ops]. *)
  Definition after (c : mconf) (ops : list (op Req Ent W)) : state W :=
    fst (run key_of est_size size_of (fst (init c)) ops).

  (** The operations paired with what they returned. *)
  Definition trace (c : mconf) (ops : list (op Req Ent W)) : list (op Req Ent W * out Req Ent W) :=
    combine ops (snd (run key_of est_size size_of (fst (init c)) ops)).

  (** No configuration change in the history (including the initial one) raised. *)
  Definition updates_ok (c : mconf) (ops : list (op Req Ent W)) : Prop :=
    snd (@init W c) = Ok tt /\
    forall o r, In (o, OutUpdate r) (trace c ops) -> r = Ok tt.

  (** All requests of the history go to inventory [i]. *)
  Definition only_inventory (i : inventory Req Ent W) (ops : list (op Req Ent W)) : Prop :=
    forall j r, In (OpGet j r) ops -> j = i.

  (** A step of a trace that uses key [k]: a get of that key that returned. *)
  Definition uses (k : string) (x : op Req Ent W * out Req Ent W) : bool :=
    match x with
    | (OpGet _ r, OutGet _ (Ok _)) => String.eqb (key_of r) k
    | _ => false
    end.

  (** Position in the trace of the last use of [k]. *)
  Fixpoint last_use (k : string) (tr : list (op Req Ent W * out Req Ent W)) : option nat :=
    match tr with
    | [] => None
    | x :: rest =>
        match last_use k rest with
        | Some n => Some (S n)
        | None => if uses k x then Some O else None
        end
    end.

  (** Strictly earlier, "never" being earlier than anything. *)
  Definition earlier (a b : option nat) : Prop :=
    match a, b with
    | Some x, Some y => (x < y)%nat
    | None, Some _ => True
    | _, None => False
    end.

  (** A get answered without consulting the inventory / after consulting it. *)
  Definition from_memory (x : out Req Ent W) : bool :=
    match x with OutGet [] (Ok _) => true | _ => false end.
  Definition from_inventory (x : out Req Ent W) : bool :=
    match x with OutGet (_ :: _) (Ok _) => true | _ => false end.
  Definition returned_get (x : out Req Ent W) : bool :=
    match x with OutGet _ (Ok _) => true | _ => false end.
  Definition count (f : out Req Ent W -> bool) (l : list (out Req Ent W)) : Z :=
    Z.of_nat (List.length (filter f l)).

  (** What the statistics should say: (is the policy a caching one, hits, misses),
      folded over a trace.  clear_memory_cache() and switching to "off" start
      afresh; gets made while the policy is "off" are not counted. *)
  Definition tally1 (t : bool * Z * Z) (x : op Req Ent W * out Req Ent W) : bool * Z * Z :=
    let '(caching, h, m) := t in
    match fst x with
    | OpClear => (caching, 0, 0)
    | OpUpdate c => if String.eqb (c_policy c) "off" then (false, 0, 0) else (true, h, m)
    | OpGet _ _ =>
        if caching && from_memory (snd x) then (caching, h + 1, m)
        else if caching && from_inventory (snd x) then (caching, h, m + 1)
        else t
    | OpInfo => t
    end.
  Definition tally (c : mconf) (tr : list (op Req Ent W * out Req Ent W)) : bool * Z * Z :=
    fold_left tally1 tr (negb (String.eqb (c_policy c) "off"), 0, 0).

  (** Key [k] is held with size [z]. *)
  Definition holds (s : state W) (k : string) (z : Z) : Prop :=
    exists it, In (k, it) (items s) /\ it_size it = z.
  Definition held (s : state W) (k : string) : Prop := In k (akeys (items s)).
  (** Total size of the held items. *)
  Definition total_held (s : state W) : Z := zsum (map (fun p => it_size (snd p)) (items s)).

  Definition limited (s : state W) : Prop := pol s = PLru \/ pol s = PLargest.
End Spec.

Arguments after {Req Ent W} _ _ _ _ _.
Arguments trace {Req Ent W} _ _ _ _ _.
Arguments updates_ok {Req Ent W} _ _ _ _ _.
Arguments only_inventory {Req Ent W} _ _.
Arguments uses {Req Ent W} _ _ _.
Arguments last_use {Req Ent W} _ _ _.
Arguments from_memory {Req Ent W} _.
Arguments from_inventory {Req Ent W} _.
Arguments returned_get {Req Ent W} _.
Arguments count {Req Ent W} _ _.
Arguments tally1 {Req Ent W} _ _.
Arguments tally {Req Ent W} _ _.
Arguments holds {W} _ _ _.
Arguments held {W} _ _.
Arguments total_held {W} _.
Arguments limited {W} _.
