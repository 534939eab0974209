(** Vocabulary for the statements about weights indexes. *)
From Verif Require Import PyBase PyStr Float64 GridSpec GridVocab Index.
Local Open Scope string_scope.
Local Open Scope list_scope.
Local Open Scope Z_scope.

Section Spec.
  Context {rest : Type}.
  Variables (py_str : val -> string) (key_order : list string) (fuel : nat).

  (** [same_grid g h]: comparing g with h answers yes / no. *)
  Definition compares (g h : gspec) (b : bool) : Prop := snd (eq py_str key_order fuel g h) = Ok b.

  (** The entry answers the request (input grid, output grid, method). *)
  Definition answers (e : entry rest) (gi go : gspec) (m : string) : Prop :=
    interpolation_method_name (e_raw e) = Ok m /\ compares (e_input e) gi true /\ compares (e_output e) go true.
  (** The entry does not answer it: another method, another input grid or another output grid. *)
  Definition does_not_answer (e : entry rest) (gi go : gspec) (m : string) : Prop :=
    exists s, interpolation_method_name (e_raw e) = Ok s /\
      (s <> m \/ compares (e_input e) gi false \/ (compares (e_input e) gi true /\ compares (e_output e) go false)).

  (** [g] is the object [g0] after some comparisons: the same contents, and if it remembers
      whether it spans the globe, then rightly so. *)
  Definition used (g0 g : gspec) : Prop :=
    cls g = cls g0 /\ gd g = gd g0 /\ ns g = ns g0 /\
    (ew g = ew g0 \/ exists b, ew g0 = None /\ ew g = Some b /\ snd (is_global_ew fuel g0) = Ok b).
  Definition used_entry (e0 e : entry rest) : Prop :=
    used (e_input e0) (e_input e) /\ used (e_output e0) (e_output e) /\ e_name e = e_name e0 /\ e_raw e = e_raw e0.
  Definition used_index (i0 i : index rest) : Prop :=
    Forall2 (fun p0 p => fst p = fst p0 /\ used_entry (snd p0) (snd p)) i0 i.

  (** The entry read from the JSON entry [r] under the name [n]. *)
  Definition reads (n : string) (r : raw rest) (e : entry rest) : Prop :=
    e_name e = n /\ e_raw e = r /\
    exists i o, r_input r = Some i /\ from_dict i = Ok (e_input e) /\
                r_output r = Some o /\ from_dict o = Ok (e_output e).
  Definition loadable (r : raw rest) : bool :=
    match r_input r, r_output r with
    | Some i, Some o => is_ok (from_dict i) && is_ok (from_dict o)
    | _, _ => false
    end.
  (** Requests are dictionaries. *)
  Definition request (di do : dict) (gi go : gspec) : Prop := from_dict di = Ok gi /\ from_dict do = Ok go.
End Spec.
