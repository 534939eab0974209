(** What is expected of the manager and the locks: a specification of traces. *)
From Verif Require Import PyBase Manager.
Local Open Scope list_scope.

(** The requests in the order of their arrival, and in the order in which they were begun. *)
Definition puts (tr : list ev) : list nat := flat_map (fun e => match e with EPut _ f _ => [f] | _ => [] end) tr.
Definition starts (tr : list ev) : list nat := flat_map (fun e => match e with EStart f => [f] | _ => [] end) tr.

(** A request that ends with [o], for some answers to what it asks. *)
Inductive yields : proc -> outcome -> Prop :=
| y_done o : yields (Done o) o
| y_ask k a o : yields (k a) o -> yields (Oracle k) o.

(** The caller of a request that ended with [o] receives [r]: the value (unless it is itself an exception), or
    the exception. *)
Definition received (o r : outcome) : Prop :=
  (forall v, o = Val v -> (forall e, v <> VExc e) -> r = Val v) /\ (forall e, o = Raised e -> r = Raised e).

(** What may happen after [tr]. *)
Definition ok_event (tr : list ev) (e : ev) : Prop :=
  match e with
  | EPut w f b => ~ In f (puts tr)
  | EStart f => exists later, puts tr = starts tr ++ f :: later
  | EStore f o => In (EStart f) tr /\ (forall o', ~ In (EStore f o') tr) /\
      exists w b, In (EPut w f b) tr /\ yields b o
  | EGot w f r => exists b o, In (EPut w f b) tr /\ In (EStore f o) tr /\ received o r
  end.
Definition ok_trace (tr : list ev) : Prop := forall tr1 e tr2, tr = tr1 ++ e :: tr2 -> ok_event tr1 e.

(** Requests that use neither the locks nor the manager, and do not end the manager's thread. *)
Inductive quiet : proc -> Prop :=
| q_val v : quiet (Done (Val v))
| q_exc e : quiet (Done (Raised e))
| q_ask k : (forall a, quiet (k a)) -> quiet (Oracle k).
Inductive client_ok : client -> Prop :=
| c_end : client_ok CEnd
| c_call m k : (forall g job, m = MManager g job -> quiet job) -> (forall o, client_ok (k o)) -> client_ok (CCall m k).

(** Nothing is left to do: every thread has ended, no request is pending or lost, the locks are free. *)
Definition complete (s : sys) : Prop :=
  (forall p z, In (p, z) (threads s) -> exists o, p = Done o) /\
  queue s = [] /\ starts (trace s) = puts (trace s) /\
  (forall f, In f (puts (trace s)) -> exists o, In (EStore f o) (trace s)) /\
  pl s = None /\ ml s = None.
