(** Vocabulary for the statements about the start of the package. *)
From Verif Require Import PyBase PyStr Config Startup.
Local Open Scope string_scope.
Local Open Scope list_scope.
Local Open Scope Z_scope.

Section Spec.
  Context {Obj : Type}.
  Variable home : string.
  Notation value := (value Obj).
  Notation content := (content Obj).
  Notation world := (world Obj).

  (** The options and their defaults, as in the documentation. *)
  Definition stated : list (string * value) :=
    [("user-cache-directory", VStr (home ++ "/.cache/earthkit-regrid")%string);
     ("temporary-cache-directory-root", VNone); ("temporary-directory-root", VNone);
     ("cache-policy", VStr "user"); ("maximum-cache-size", VStr "5GB"); ("maximum-cache-disk-usage", VNone);
     ("url-download-timeout", VStr "30s");
     ("check-out-of-date-urls", VBool false); ("download-out-of-date-urls", VBool false);
     ("maximum-weights-memory-cache-size", VStr "500MB");
     ("weights-memory-cache-policy", VStr "largest"); ("weights-memory-cache-strict-mode", VBool false)].
  Definition an_option (n : string) : Prop := exists d, In (n, d) stated.

  (** The configuration file: the one named in the environment, or else the one in the home directory. *)
  Definition its_file (w : world) (p : string) : Prop :=
    (alookup "EARTHKIT_REGRID_CONFIG_FILE" (w_env Obj w) = Some p /\ p <> "") \/
    ((forall s, alookup "EARTHKIT_REGRID_CONFIG_FILE" (w_env Obj w) = Some s -> s = "") /\ p = (home ++ "/.config/earthkit/regrid/config.yaml")%string).
  (** The directory [d] of the file [p]. *)
  Definition in_directory (p d : string) : Prop :=
    exists name, (forall a b, name <> (a ++ "/" ++ b)%string) /\
      ((exists k, p = (d ++ of_chars (repeat "/"%char (S k)) ++ name)%string /\ d <> "" /\ (forall a, d <> (a ++ "/")%string)) \/
       (exists k, d = of_chars (repeat "/"%char k) /\ p = (d ++ name)%string)).

  (** A mapping as YAML gives it: no key twice; its keys are texts. *)
  Definition distinct (kvs : list (ykey * value)) : Prop := NoDup (map fst kvs).
  Definition of_texts (kvs : list (ykey * value)) : Prop := forall k v, In (k, v) kvs -> exists s, k = Text s.
  (** The value of the option [n] if the file has the mapping [kvs]. *)
  Definition gives (kvs : list (ykey * value)) (n : string) (v : value) : Prop :=
    In (Text n, v) kvs \/ ((forall u, ~ In (Text n, u) kvs) /\ In (n, v) stated).
  (** Equal for Python. *)
  Definition alike (v w : value) : Prop := v = w \/ exists b, v = VInt (Z.b2z b) /\ w = VBool b.
  (** Set to something else than the default. *)
  Definition changed_to (n : string) (v : value) : Prop := exists d, In (n, d) stated /\ ~ alike v d.
  (** [l] are [k] of the options that are changed in [vals], those that come before [n] in the alphabet. *)
  Definition before (vals : list (string * value)) (n : string) (l : list string) : Prop :=
    NoDup l /\ forall m, In m l <-> String.compare m n = Lt /\ exists v, In (m, v) vals /\ changed_to m v.
End Spec.
