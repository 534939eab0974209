(** Vocabulary for the statements about the configuration: what a value means for each
    documented option (from the documentation of the options, config.py:147-220, not from
    the code of get/set), and reachable states. *)
From Verif Require Import PyBase PyStr HumanizeSpec Config.

Local Open Scope string_scope.
Local Open Scope list_scope.
Local Open Scope Z_scope.

Definition root_options := ["temporary-cache-directory-root"; "temporary-directory-root"].
Definition size_options := ["maximum-cache-size"; "maximum-weights-memory-cache-size"].
Definition flag_options :=
  ["check-out-of-date-urls"; "download-out-of-date-urls"; "weights-memory-cache-strict-mode"].
Definition documented :=
  ["user-cache-directory"; "cache-policy"; "maximum-cache-disk-usage"; "url-download-timeout";
   "weights-memory-cache-policy"] ++ root_options ++ size_options ++ flag_options.

(** The text [s] is the quantity [z], the unit being read by [factor]. *)
Definition quantity (factor : ascii -> Z -> Prop) (s : string) (z : Z) : Prop :=
  written s z [] \/ exists n u us f, written s n (u :: us) /\ factor u f /\ z = n * f.

Section Spec.
  Context {Obj : Type} (obj_str : Obj -> string) (obj_bool : Obj -> bool).
  Notation str := (str_of Obj obj_str).

  (** [flag_of v b]: the truth value of [v]. *)
  Inductive flag_of : value Obj -> bool -> Prop :=
  | f_none : flag_of VNone false
  | f_bool b : flag_of (VBool b) b
  | f_zero : flag_of (VInt 0) false
  | f_number z : z <> 0 -> flag_of (VInt z) true
  | f_empty : flag_of (VStr "") false
  | f_text c s : flag_of (VStr (String c s)) true
  | f_object o : flag_of (VObj o) (obj_bool o).

  (** [means name v m]: the option admits [v], which stands for [m]. *)
  Inductive means : string -> value Obj -> value Obj -> Prop :=
  | m_dir v : means "user-cache-directory" v (VStr (str v))
  | m_root_none n : In n root_options -> means n VNone VNone
  | m_root n v : In n root_options -> v <> VNone -> means n v (VStr (str v))
  | m_cache_policy v : In (str v) ["off"; "temporary"; "user"] -> means "cache-policy" v (VStr (str v))
  | m_mem_policy v : In (str v) ["off"; "unlimited"; "largest"; "lru"] ->
      means "weights-memory-cache-policy" v (VStr (str v))
  | m_size_none n : In n size_options -> means n VNone VNone
  | m_size n v z : In n size_options -> v <> VNone -> quantity byte_factor (str v) z -> means n v (VInt z)
  | m_percent_none : means "maximum-cache-disk-usage" VNone VNone
  | m_percent v z : v <> VNone -> quantity percent_factor (str v) z ->
      means "maximum-cache-disk-usage" v (VInt z)
  | m_timeout v z : v <> VNone -> quantity second_factor (str v) z -> means "url-download-timeout" v (VInt z)
  | m_flag n v b : In n flag_options -> flag_of v b -> means n v (VBool b).
End Spec.

(** How the text of an environment variable is read, for the options that are quantities. *)
Definition factor_of (name : string) : option (ascii -> Z -> Prop) :=
  if existsb (String.eqb name) size_options then Some byte_factor
  else if String.eqb name "maximum-cache-disk-usage" then Some percent_factor
  else if String.eqb name "url-download-timeout" then Some second_factor
  else None.

(** The documented defaults. *)
Definition default_values (Obj : Type) (home : string) : list (string * value Obj) :=
  [("user-cache-directory", VStr (home ++ "/.cache/earthkit-regrid")%string);
   ("temporary-cache-directory-root", VNone); ("temporary-directory-root", VNone);
   ("cache-policy", VStr "user");
   ("maximum-cache-size", VInt (5 * 1024 * 1024 * 1024)); ("maximum-cache-disk-usage", VNone);
   ("url-download-timeout", VInt 30);
   ("check-out-of-date-urls", VBool false); ("download-out-of-date-urls", VBool false);
   ("maximum-weights-memory-cache-size", VInt (500 * 1024 * 1024));
   ("weights-memory-cache-policy", VStr "largest"); ("weights-memory-cache-strict-mode", VBool false)].

(** The last value given to [n] in a list of settings. *)
Fixpoint last_value {A} (n : string) (kvs : list (string * A)) : option A :=
  match kvs with
  | [] => None
  | (k, v) :: r => match last_value n r with Some w => Some w | None => if String.eqb n k then Some v else None end
  end.
