(** Which tests are skipped: [modules_installed] and the two flags that utils/testing.py computes when
    it is imported (lines 63-80).

    Simplifications: importing a module has one of four outcomes, which does not change between two
    imports in a run; the printed message is left out. *)
From Verif Require Import PyBase.
Local Open Scope string_scope.
Local Open Scope list_scope.

(** What [import_module] does: ImportError (ModuleNotFoundError is one), another exception that
    [except Exception] catches, or one that it does not (SystemExit, KeyboardInterrupt). *)
Inductive import := Imported | Missing | Broken (e : exn) | Leaves.
(** How a piece of the module ends. *)
Inductive ending (A : Type) := Value (a : A) | Fails (e : exn) | Exits.
Arguments Value {A} a. Arguments Fails {A} e. Arguments Exits {A}.

Section Installed.
  Variable import_module : string -> import.

  (** testing.py:63-70 [modules_installed]; with it, the modules whose import was tried. *)
  Fixpoint modules_installed (modules : list string) : ending bool * list string :=
    match modules with
    | [] => (Value true, [])
    | m :: l =>
        match import_module m with
        | Imported => let '(r, tried) := modules_installed l in (r, m :: tried)
        | Missing => (Value false, [m])
        | Broken e => (Fails e, [m])
        | Leaves => (Exits, [m])
        end
    end.

  (** testing.py:73: NO_EKD *)
  Definition no_ekd : ending bool :=
    match fst (modules_installed ["earthkit.data"]) with Value b => Value (negb b) | Fails e => Fails e | Exits => Exits end.
  (** testing.py:75-78: NO_MIR *)
  Definition no_mir : ending bool :=
    match fst (modules_installed ["mir"]) with Value b => Value (negb b) | Fails _ => Value true | Exits => Exits end.
  (** testing.py:73-78: the flags (NO_EKD, NO_MIR), or the import of the helpers itself fails. *)
  Definition load : ending (bool * bool) :=
    match no_ekd with
    | Value a => match no_mir with Value b => Value (a, b) | Fails e => Fails e | Exits => Exits end
    | Fails e => Fails e
    | Exits => Exits
    end.
End Installed.
