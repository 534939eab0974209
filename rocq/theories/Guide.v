(** The examples in the guide to the configuration (docs/guide/misc/config.rst and
    docs/guide/misc/include/*.py), as programs of Config.v.  What is printed is kept in the state of
    the observers. *)
From Verif Require Import PyBase PyStr Config.
Local Open Scope string_scope.
Local Open Scope list_scope.
Local Open Scope Z_scope.

Section Guide.
  Context {Obj : Type}.
  Notation value := (value Obj).
  (** What was printed. *)
  Definition printed := list value.
  Notation cmd := (cmd Obj printed).

  (** print(config.get(name)) *)
  Definition print_option (name : string) : cmd :=
    CAct (fun get o => match get name with Ok v => (o ++ [v], Ok tt) | Raise e => (o, Raise e) | OutOfFuel => (o, OutOfFuel) end).
  Definition set_option (name : string) (v : value) : cmd := CSet (SetPos name [v] 0).
  Fixpoint all (l : list cmd) : cmd := match l with [] => CSkip | c :: l => CSeq c (all l) end.
  Definition T : string := "url-download-timeout".

  (** include/config-temporary.py:3-11 *)
  Definition temporary_example : cmd :=
    all [print_option T;
         CTemp None None (all [set_option T (VInt 5); print_option T]);
         CTemp None (Some (SetPos T [VInt 11] 0)) (print_option T)].
  (** include/config-set.py:3-16 *)
  Definition set_example : cmd :=
    all [set_option "user-cache-directory" (VStr "/big-disk/earthkit-regrid-cache");
         set_option T (VStr "1m");
         CSet (SetDict [(T, VStr "1m"); ("check-out-of-date-urls", VBool true)]);
         CSet (SetKw [("url_download_timeout", VStr "1m"); ("check_out_of_date_urls", VBool true)])].
  (** include/config-reset.py:4, 7 *)
  Definition reset_example : cmd := all [CReset (Some "user-cache-directory"); CReset None].
  (** config.rst:104-146: the environment variable is set, and unset at the end; the new processes
      of the text are the same process here. *)
  Definition environment_example : cmd :=
    all [CEnv "EARTHKIT_REGRID_URL_DOWNLOAD_TIMEOUT" (Some "5"); print_option T;
         set_option T (VInt 10); print_option T;
         CEnv "EARTHKIT_REGRID_URL_DOWNLOAD_TIMEOUT" None; print_option T].

  (** docs/guide/misc/memory_cache.rst:46-53, 65-72, 84-87, 100-103: the examples of the policies; the
      last two do not print the other options. *)
  Definition P : string := "weights-memory-cache-policy".
  Definition M : string := "maximum-weights-memory-cache-size".
  Definition S_ : string := "weights-memory-cache-strict-mode".
  Definition policy_example (policy : string) : cmd := all [set_option P (VStr policy); print_option P; print_option M; print_option S_].
  Definition largest_example : cmd := policy_example "user".
  Definition lru_example : cmd := policy_example "lru".
  Definition unlimited_example : cmd := all [set_option P (VStr "unlimited"); print_option P].
  Definition off_example : cmd := all [set_option P (VStr "off"); print_option P].
  (** docs/guide/misc/memory_cache.rst:176-179; only the call of config.set *)
  Definition limit_example : cmd :=
    CSet (SetKw [("weights_memory_cache_policy", VStr "largest"); ("maximum_weights_memory_cache_size", VInt (100 * 1024 ^ 2))]).
End Guide.
