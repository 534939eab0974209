(** Properties C14-C20, C22 and C66-C68: utils/config.py, and the memory cache observing it.
    Vocabulary: ConfigSpec.v.  Models: Config.v, ConfigMem.v.
    Everywhere: [Obj] are opaque Python objects with their str() and bool(), and whether
    yaml.safe_load reads back what yaml.dump writes for them; [obs] is what the registered
    observers do, arbitrary unless said otherwise. *)
From Verif Require Import PyBase ListLemmas PyStr Humanize HumanizeSpec Config ConfigSpec.
From Verif Require Import ConfigProofs ConfigProofs2 ConfigProofs3 ConfigMem.
From Verif Require MemCache MemCacheDemo.

Local Open Scope string_scope.
Local Open Scope list_scope.
Local Open Scope Z_scope.

Section Statements.
Context {Obj : Type} (obj_str : Obj -> string) (obj_bool obj_yaml : Obj -> bool).
Context (home : string) (writable : string -> bool) (version : string).
Context {ObsSt : Type} (obs : nat -> (string -> result (value Obj)) -> ObsSt -> ObsSt * result unit).
Notation exec := (exec Obj obj_str obj_bool home writable version ObsSt obs).
Notation get := (get Obj obj_str home ObsSt).
Notation get_in := (get_in Obj obj_str home).
Notation start := (start Obj obj_yaml home writable version ObsSt).
Notation means := (means obj_str obj_bool).
Notation st := (st Obj ObsSt).

(** C14: whatever the body does and however it ends, the block puts the configuration back;
    all options read as before (unless the body changed the environment).  [failed] counts
    the entries of temporary() whose notification raised; see C14_nested_failure_refuted. *)
Theorem C14_temporary_restores_partial : forall p a body (s s' : st) r,
  exec (CTemp p a body) s = (s', r) -> failed s' = failed s ->
  base s' = base s /\ stack s' = stack s /\
  (environ s' = environ s -> forall n, get s' n = get s n).
Proof.
  intros p a body s s' r H HF.
  destruct (temp_restores Obj obj_str obj_bool home writable version ObsSt obs _ _ _ _ _ _ H HF) as [A B].
  split; [exact A|]. split; [exact B|]. intros HE n. unfold Config.get, top. rewrite A, B, HE. reflexivity.
Qed.
(** In particular whenever the observers do not raise. *)
Theorem C14_temporary_restores : (forall cb v o, snd (obs cb v o) = Ok tt) ->
  forall p a body (s s' : st) r, exec (CTemp p a body) s = (s', r) ->
  base s' = base s /\ stack s' = stack s /\
  (environ s' = environ s -> forall n, get s' n = get s n).
Proof.
  intros HQ p a body s s' r H. eapply C14_temporary_restores_partial; [exact H|].
  exact (quiet_failed Obj obj_str obj_bool home writable version ObsSt obs HQ _ _ _ _ H).
Qed.
(** C14: no file is written inside the block, other than those the program names (save_as, or
    config_yaml= of a temporary configuration). *)
Theorem C14_temporary_no_file : forall f p a body (s s' : st) r,
  exec (CTemp p a body) s = (s', r) -> avoids Obj ObsSt f (CTemp p a body) ->
  alookup f (files s') = alookup f (files s).
Proof. exact (temp_files Obj obj_str obj_bool home writable version ObsSt obs). Qed.

(** C15, the parts that hold: refused arguments leave no trace; an observer that raises on
    entry leaves exactly the new configuration on top of the untouched others. *)
Theorem C15_refused_arguments_partial : forall p name v body (s : st),
  In name documented -> (forall m, ~ means name v m) ->
  exec (CTemp p (Some (SetPos name [v] 0)) body) s = (s, Raise ValueError).
Proof. exact (temp_refused Obj obj_str obj_bool home writable version ObsSt obs). Qed.

(** C16: a set that returns stored the meaning of an admissible value, and nothing else. *)
Theorem C16_set_stores : forall name args k (s s' : st),
  exec (CSet (SetPos name args k)) s = (s', Ok tt) ->
  exists v m, args = [v] /\ k = 0%nat /\ means name v m /\
    (alookup (env_var_name name) (environ s) = None -> get s' name = Ok m) /\
    forall n, n <> name -> get s' n = get s n.
Proof. exact (set_pos_ok Obj obj_str obj_bool home writable version ObsSt obs). Qed.
(** C16: every admissible value is accepted (the call returns if the observers do). *)
Theorem C16_set_accepts : (forall cb v o, snd (obs cb v o) = Ok tt) ->
  forall name v m (s : st), means name v m -> exists s', exec (CSet (SetPos name [v] 0)) s = (s', Ok tt).
Proof.
  intros HQ name v m s HM.
  destruct (set_pos_accepts Obj obj_str obj_bool home writable version ObsSt obs name v m s HM) as (w & E).
  cbn [Config.exec]. rewrite E. cbn [Config.changed]. unfold changed1.
  assert (HN : forall x, snd (notify Obj obj_str home ObsSt obs x) = Ok tt).
  { intros x. unfold Config.notify. generalize (callbacks x). intros cbs. revert x.
    induction cbs as [|cb cbs IH]; intros x; cbn [Config.notify_loop]; [reflexivity|].
    pose proof (HQ cb (get x) (ostate x)) as X. destruct (obs cb (get x) (ostate x)) as [o' res]. cbn in X. subst res. apply IH. }
  match goal with |- context [notify _ _ _ _ _ ?y] => pose proof (HN y) as X; destruct (notify _ _ _ _ _ y) as [s' r] end.
  cbn in X. subst r. eauto.
Qed.
Theorem C16_set_rejects : forall name v (s : st),
  In name documented -> (forall m, ~ means name v m) ->
  exec (CSet (SetPos name [v] 0)) s = (s, Raise ValueError).
Proof. exact (set_pos_rejects Obj obj_str obj_bool home writable version ObsSt obs). Qed.
Theorem C16_unknown_name : forall name args k (s : st), ~ In name documented ->
  exec (CSet (SetPos name args k)) s = (s, Raise KeyError) /\ get s name = Raise KeyError.
Proof.
  intros name args k s H. split.
  - exact (set_pos_unknown Obj obj_str obj_bool home writable version ObsSt obs name args k s H).
  - exact (get_unknown Obj obj_str home ObsSt name s H).
Qed.
(** The meaning of a value is unique, so the theorems above determine [get]. *)
Theorem C16_meaning_unique : forall name v m m', means name v m -> means name v m' -> m = m'.
Proof. exact (means_unique Obj obj_str obj_bool). Qed.

(** C17, what does hold: options are stored up to the first one refused, none after it. *)
Theorem C17_set_many_prefix_partial : forall kvs (s s' : st) r,
  exec (CSet (SetDict kvs)) s = (s', r) ->
  (Forall (fun kv => exists m, means (fst kv) (snd kv) m) kvs /\
   got Obj obj_str obj_bool home ObsSt s s' kvs) \/
  (exists done k v rest e, kvs = done ++ (k, v) :: rest /\ r = Raise e /\
     Forall (fun kv => exists m, means (fst kv) (snd kv) m) done /\
     (e = KeyError /\ ~ In k documented \/ e = ValueError /\ In k documented /\ forall m, ~ means k v m) /\
     got Obj obj_str obj_bool home ObsSt s s' done).
Proof. exact (set_dict_cases Obj obj_str obj_bool home writable version ObsSt obs). Qed.

(** The same for keyword arguments, underscores standing for dashes. *)
Theorem C17_set_keywords_prefix_partial : forall kvs0 (s s' : st) r, kvs0 <> [] ->
  exec (CSet (SetKw kvs0)) s = (s', r) ->
  let kvs := map (fun p => (replace1 "_" "-" (fst p), snd p)) kvs0 in
  (Forall (fun kv => exists m, means (fst kv) (snd kv) m) kvs /\
   got Obj obj_str obj_bool home ObsSt s s' kvs) \/
  (exists done k v rest e, kvs = done ++ (k, v) :: rest /\ r = Raise e /\
     Forall (fun kv => exists m, means (fst kv) (snd kv) m) done /\
     (e = KeyError /\ ~ In k documented \/ e = ValueError /\ In k documented /\ forall m, ~ means k v m) /\
     got Obj obj_str obj_bool home ObsSt s s' done).
Proof. exact (set_kw_cases Obj obj_str obj_bool home writable version ObsSt obs). Qed.

(** C18: the environment comes first, read with the option's unit. *)
Theorem C18_environment_wins : forall n t (s : st), In n documented ->
  alookup (env_var_name n) (environ s) = Some t ->
  match factor_of n with
  | None => get s n = Ok (VStr t)
  | Some f => (exists z, quantity f t z /\ get s n = Ok (VInt z)) \/
              ((forall z, ~ quantity f t z) /\ get s n = Raise ValueError)
  end.
Proof. exact (env_get Obj obj_str home ObsSt). Qed.
Theorem C18_others_unaffected : forall n vs env env',
  alookup (env_var_name n) env = alookup (env_var_name n) env' -> get_in vs env n = get_in vs env' n.
Proof. exact (env_unset Obj obj_str home). Qed.
(** The variables, spelled out. *)
Definition variables : list (string * string) :=
  [("user-cache-directory", "EARTHKIT_REGRID_USER_CACHE_DIRECTORY");
   ("temporary-cache-directory-root", "EARTHKIT_REGRID_TEMPORARY_CACHE_DIRECTORY_ROOT");
   ("temporary-directory-root", "EARTHKIT_REGRID_TEMPORARY_DIRECTORY_ROOT");
   ("cache-policy", "EARTHKIT_REGRID_CACHE_POLICY");
   ("maximum-cache-size", "EARTHKIT_REGRID_MAXIMUM_CACHE_SIZE");
   ("maximum-cache-disk-usage", "EARTHKIT_REGRID_MAXIMUM_CACHE_DISK_USAGE");
   ("url-download-timeout", "EARTHKIT_REGRID_URL_DOWNLOAD_TIMEOUT");
   ("check-out-of-date-urls", "EARTHKIT_REGRID_CHECK_OUT_OF_DATE_URLS");
   ("download-out-of-date-urls", "EARTHKIT_REGRID_DOWNLOAD_OUT_OF_DATE_URLS");
   ("maximum-weights-memory-cache-size", "EARTHKIT_REGRID_MAXIMUM_WEIGHTS_MEMORY_CACHE_SIZE");
   ("weights-memory-cache-policy", "EARTHKIT_REGRID_WEIGHTS_MEMORY_CACHE_POLICY");
   ("weights-memory-cache-strict-mode", "EARTHKIT_REGRID_WEIGHTS_MEMORY_CACHE_STRICT_MODE")].
Theorem C18_variable_names : forall n, In n documented -> In (n, env_var_name n) variables.
Proof.
  assert (H : forallb (fun n => existsb (fun p => String.eqb (fst p) n && String.eqb (snd p) (env_var_name n))
                                  variables) documented = true) by reflexivity.
  intros n HI. rewrite forallb_forall in H. apply H, existsb_exists in HI. destruct HI as ([a b] & HI & E).
  apply andb_prop in E. destruct E as [E1 E2]. apply String.eqb_eq in E1, E2. cbn in E1, E2. subst. exact HI.
Qed.
Theorem C18_no_collision : forall a b, In a documented -> In b documented ->
  env_var_name a = env_var_name b -> a = b.
Proof. exact env_collision. Qed.

(** C19: a process started on the file after a successful set or reset reads, for every
    option, what the old process read (0 and 1 written by hand for a flag come back as
    False and True, which Python does not tell apart).  [savable]: no value is an object
    that YAML cannot read back; see C19_objects_refuted. *)
Theorem C19_set_survives_partial : forall p files0 env0 o0 c0 r0 c (s s' : st) o n,
  exec c0 (start p files0 env0 o0) = (s, r0) -> stack s = [] -> autosave s = true -> writable p = true ->
  is_change Obj ObsSt c -> exec c s = (s', Ok tt) -> savable Obj obj_yaml (vals (top s')) -> In n documented ->
  py_same Obj (get s' n) (get (start p (files s') (environ s') o) n).
Proof. exact (survives Obj obj_str obj_bool obj_yaml home writable version ObsSt obs). Qed.
Theorem C19_save_as_survives_partial : forall p files0 env0 o0 c0 r0 (s s' : st) q o n,
  exec c0 (start p files0 env0 o0) = (s, r0) -> writable q = true ->
  exec (CSaveAs q) s = (s', Ok tt) -> savable Obj obj_yaml (vals (top s')) -> In n documented ->
  py_same Obj (get s' n) (get (start q (files s') (environ s') o) n).
Proof. exact (save_as_survives Obj obj_str obj_bool obj_yaml home writable version ObsSt obs). Qed.

(** C20, the part that holds: genuine booleans. *)
Theorem C20_booleans_partial : forall n b (s s' : st), In n flag_options ->
  exec (CSet (SetPos n [VBool b] 0)) s = (s', Ok tt) ->
  alookup (env_var_name n) (environ s) = None -> get s' n = Ok (VBool b).
Proof.
  intros n b s s' HF H HE. destruct (C16_set_stores _ _ _ _ _ H) as (v & m & A & _ & B & C & _).
  injection A as <-. rewrite (C HE). f_equal.
  apply (C16_meaning_unique n (VBool b)); [exact B|]. exact (m_flag obj_str obj_bool n (VBool b) b HF (f_bool obj_bool b)).
Qed.

(** C22: a successful set or reset calls all observers, in order, one or more rounds, the new
    values being visible. *)
Theorem C22_change_notifies : forall c (s s' : st), is_change Obj ObsSt c -> exec c s = (s', Ok tt) ->
  exists n, seen s' = seen s ++ List.concat (repeat (map (fun cb => (cb, vals (top s'))) (callbacks s)) (S n)) /\
    callbacks s' = callbacks s.
Proof. exact (change_seen Obj obj_str obj_bool home writable version ObsSt obs). Qed.
(** C22: so do entry and exit of temporary(), the exit also when the body raises. *)
Theorem C22_temporary_notifies : forall p a body (s s' : st) r,
  (forall cb v o, snd (obs cb v o) = Ok tt) ->
  exec (CTemp p a body) s = (s', r) ->
  (is_ok r = false /\ s' = s) \/
  exists s1 s2, exec body s1 = (s2, r) /\
    seen s1 = seen s ++ map (fun cb => (cb, vals (top s1))) (callbacks s) /\ callbacks s1 = callbacks s /\
    seen s' = seen s2 ++ map (fun cb => (cb, vals (top s'))) (callbacks s2).
Proof. exact (temp_seen Obj obj_str obj_bool home writable version ObsSt obs). Qed.

(** C66: without environment variables, and if the file holds readable values, no program
    brings the configuration into a state where get raises for a documented option. *)
Theorem C66_get_total_partial : forall p files0 env0 o0 c (s : st) r n,
  good_file Obj obj_str home (alookup p files0) -> exec c (start p files0 env0 o0) = (s, r) ->
  In n documented -> alookup (env_var_name n) (environ s) = None -> exists v, get s n = Ok v.
Proof. exact (get_total Obj obj_str obj_bool obj_yaml home writable version ObsSt obs). Qed.

(** C68: reset gives the documented defaults back. *)
Theorem C68_reset_one : forall n (s s' : st), exec (CReset (Some n)) s = (s', Ok tt) ->
  exists v, alookup n (default_values Obj home) = Some v /\
    (alookup (env_var_name n) (environ s) = None -> get s' n = Ok v) /\
    forall k, k <> n -> get s' k = get s k.
Proof. exact (reset_one Obj obj_str obj_bool home writable version ObsSt obs). Qed.
Theorem C68_reset_all : forall (s s' : st), exec (CReset None) s = (s', Ok tt) -> forall n, In n documented ->
  exists v, alookup n (default_values Obj home) = Some v /\
    (alookup (env_var_name n) (environ s) = None -> get s' n = Ok v).
Proof. exact (reset_all Obj obj_str obj_bool home writable version ObsSt obs). Qed.
End Statements.

Section Memory.
Context {Obj : Type} (obj_str : Obj -> string) (obj_bool obj_yaml : Obj -> bool).
Context (home : string) (writable : string -> bool) (version : string).
Context {Req Ent W : Type} (key_of : Req -> string) (est_size : Ent -> Z) (size_of : W -> Z).
Context (size_nonneg : forall w, 0 <= size_of w).

(** C67: as long as no call raises, whatever is set, reset, temporarily changed and
    requested from the memory cache, in any order and nesting, the memory cache is as the
    visible configuration says. *)
Theorem C67_memory_cache_in_sync_partial : forall p files env s0 c s,
  boot Obj obj_str obj_bool obj_yaml home writable version W p files env = (s0, Ok tt) ->
  steady Obj Req Ent W key_of est_size size_of c ->
  exec Obj obj_str obj_bool home writable version _ (mem_obs Obj obj_str obj_bool W) c s0 = (s, Ok tt) ->
  in_sync Obj obj_str obj_bool home W s.
Proof.
  exact (always_in_sync Obj obj_str obj_bool obj_yaml home writable version Req Ent W
           key_of est_size size_of size_nonneg).
Qed.
End Memory.

(** ** A concrete system: Obj has one value that YAML does not read back; the memory cache of
    MemCacheDemo.v is observer 0. *)
Definition dstr (_ : unit) := "<obj>".
Definition dW := (Z * N)%type.
Notation mem := (MemCache.state dW).
Notation dexec := (exec unit dstr (fun _ => true) "/h" (fun _ => true) "1" mem (mem_obs unit dstr (fun _ => true) dW)).
Notation dget := (get unit dstr "/h" mem).
Definition boot0 env := boot unit dstr (fun _ => true) (fun _ => false) "/h" (fun _ => true) "1" dW "/c" [] env.
Definition s0 := fst (boot0 []).
Notation dmeans := (means dstr (fun _ => true)).
Definition max_mem_opt := "maximum-weights-memory-cache-size".

Example boot_ok : snd (boot0 []) = Ok tt.
Proof. vm_compute. reflexivity. Qed.

(** C15 refuted: temporary(maximum-weights-memory-cache-size=None) is admissible, makes the
    memory cache raise TypeError on entry, and the temporary value stays. *)
Theorem C15_failed_entry_refuted :
  dmeans max_mem_opt VNone VNone /\
  snd (dexec (CTemp None (Some (SetPos max_mem_opt [VNone] 0)) CSkip) s0) = Raise TypeError /\
  dget s0 max_mem_opt = Ok (VInt (500 * 1024 * 1024)) /\
  dget (fst (dexec (CTemp None (Some (SetPos max_mem_opt [VNone] 0)) CSkip) s0)) max_mem_opt = Ok VNone.
Proof. split; [apply m_size_none; cbn; auto|]. repeat split; vm_compute; reflexivity. Qed.

(** C14 refuted in full generality: such a failure inside a block, even if caught there, also
    keeps the outer block's values after it is left. *)
Theorem C14_nested_failure_refuted : exists body,
  snd (dexec (CTemp None (Some (SetPos "cache-policy" [VStr "off"] 0)) body) s0) = Ok tt /\
  dget s0 "cache-policy" = Ok (VStr "user") /\
  dget (fst (dexec (CTemp None (Some (SetPos "cache-policy" [VStr "off"] 0)) body) s0)) "cache-policy" = Ok (VStr "off").
Proof.
  exists (CSeq (CTry (CTemp None (Some (SetPos max_mem_opt [VNone] 0)) CSkip))
               (CSet (SetPos max_mem_opt [VStr "500MB"] 0))).
  repeat split; vm_compute; reflexivity.
Qed.

(** C17 refuted: the first option of a failing set has changed. *)
Theorem C17_multi_set_refuted : exists kvs,
  snd (dexec (CSet (SetDict kvs)) s0) = Raise KeyError /\
  dget s0 "cache-policy" = Ok (VStr "user") /\
  dget (fst (dexec (CSet (SetDict kvs)) s0)) "cache-policy" = Ok (VStr "off").
Proof.
  exists [("cache-policy", VStr "off"); ("no-such-option", VInt 1)]. repeat split; vm_compute; reflexivity.
Qed.

(** C67 refuted without "no call raises": after that failing set the memory cache has not
    heard of the change. *)
Theorem C67_failed_set_refuted : exists kvs,
  snd (dexec (CSet (SetDict kvs)) s0) = Raise KeyError /\
  dget (fst (dexec (CSet (SetDict kvs)) s0)) "weights-memory-cache-policy" = Ok (VStr "off") /\
  MemCache.f_policy (MemCache.info (ostate (fst (dexec (CSet (SetDict kvs)) s0)))) = "largest".
Proof.
  exists [("weights-memory-cache-policy", VStr "off"); ("no-such-option", VInt 1)].
  repeat split; vm_compute; reflexivity.
Qed.

(** C19 refuted for objects: one option set to an object YAML cannot read back makes the next
    process lose all settings. *)
Theorem C19_objects_refuted :
  let s := fst (dexec (CSeq (CSet (SetPos "cache-policy" [VStr "off"] 0))
                            (CSet (SetPos "temporary-directory-root" [VObj tt] 0))) s0) in
  dmeans "temporary-directory-root" (VObj tt) (VStr "<obj>") /\
  dget s "cache-policy" = Ok (VStr "off") /\
  dget (start unit (fun _ => false) "/h" (fun _ => true) "1" mem "/c" (files s) [] (ostate s)) "cache-policy" = Ok (VStr "user").
Proof.
  split; [apply (m_root dstr (fun _ => true) "temporary-directory-root" (VObj tt)); [cbn; auto|discriminate]|].
  split; vm_compute; reflexivity.
Qed.

(** C20 refuted: the text "False" turns every flag on, by set and by the environment. *)
Theorem C20_text_refuted : forall n, In n flag_options ->
  dget (fst (dexec (CSet (SetPos n [VStr "False"] 0)) s0)) n = Ok (VBool true) /\
  exists v, dget (fst (dexec (CEnv (env_var_name n) (Some "False")) s0)) n = Ok v /\
    flag_of (fun _ : unit => true) v true.
Proof.
  intros n H. cbn in H. destruct H as [<-|[<-|[<-|[]]]];
    (split; [vm_compute; reflexivity|eexists; split; [vm_compute; reflexivity|apply f_text]]).
Qed.

(** C66 refuted with environment variables: they are not validated. *)
Theorem C66_environment_refuted :
  dget (fst (dexec (CEnv (env_var_name "maximum-cache-size") (Some "lots")) s0)) "maximum-cache-size" = Raise ValueError /\
  dget (fst (dexec (CEnv (env_var_name "cache-policy") (Some "sometimes")) s0)) "cache-policy" = Ok (VStr "sometimes") /\
  forall m, ~ dmeans "cache-policy" (VStr "sometimes") m.
Proof.
  split; [vm_compute; reflexivity|]. split; [vm_compute; reflexivity|].
  intros m H. inversion H; subst; cbn in *; intuition discriminate.
Qed.

(** ** The hypotheses of the theorems above are met *)
Definition prog : Config.cmd unit mem :=
  CSeq (CSet (SetKw [("weights_memory_cache_policy", VStr "lru"); ("maximum_weights_memory_cache_size", VStr "60")]))
  (CSeq (CAct (act_get unit string (Z * N) dW MemCacheDemo.dkey MemCacheDemo.dest MemCacheDemo.dsize MemCacheDemo.invA "a"))
  (CSeq (CTemp None (Some (SetPos "weights-memory-cache-policy" [VStr "off"] 0))
          (CSeq (CSet (SetPos "url-download-timeout" [VStr "2 m"] 0))
          (CAct (act_get unit string (Z * N) dW MemCacheDemo.dkey MemCacheDemo.dest MemCacheDemo.dsize MemCacheDemo.invA "b"))))
        (CReset (Some "maximum-weights-memory-cache-size")))).
Example C67_hyp : steady unit string (Z * N) dW MemCacheDemo.dkey MemCacheDemo.dest MemCacheDemo.dsize prog /\
  snd (dexec prog s0) = Ok tt /\
  MemCache.f_policy (MemCache.info (ostate (fst (dexec prog s0)))) = "lru" /\
  MemCache.f_maxsize (MemCache.info (ostate (fst (dexec prog s0)))) = Some (500 * 1024 * 1024).
Proof. split; [cbn; intuition eauto|]. repeat split; vm_compute; reflexivity. Qed.

(** A block that changes much and ends with an exception. *)
Definition block : Config.cmd unit mem :=
  CTemp None (Some (SetPos "cache-policy" [VStr "temporary"] 0))
    (CSeq (CSet (SetDict [("cache-policy", VStr "off"); ("maximum-cache-size", VInt 10)]))
    (CSeq (CTemp None None (CReset None)) (CFail TypeError))).
Example C14_hyp : snd (dexec block s0) = Raise TypeError /\ failed (fst (dexec block s0)) = failed s0 /\
  avoids unit mem "/c" block /\ dget (fst (dexec block s0)) "cache-policy" = Ok (VStr "user").
Proof. split; [vm_compute; reflexivity|]. split; [vm_compute; reflexivity|]. split; [cbn; intuition discriminate|vm_compute; reflexivity]. Qed.

Example C16_hyp : snd (dexec (CSet (SetPos "maximum-cache-size" [VStr " 3 Gb"] 0)) s0) = Ok tt /\
  dget (fst (dexec (CSet (SetPos "maximum-cache-size" [VStr " 3 Gb"] 0)) s0)) "maximum-cache-size" = Ok (VInt (3 * 1024 * 1024 * 1024)).
Proof. split; vm_compute; reflexivity. Qed.
Example C16_reject_hyp : In "cache-policy" documented /\ forall m, ~ dmeans "cache-policy" (VStr "never") m.
Proof. split; [cbn; auto|]. intros m H. inversion H; subst; cbn in *; intuition discriminate. Qed.

Example C19_hyp :
  let s := fst (dexec (CSet (SetDict [("cache-policy", VStr "off"); ("maximum-cache-size", VInt 10)])) s0) in
  stack s0 = [] /\ autosave s0 = true /\
  dget (start unit (fun _ => false) "/h" (fun _ => true) "1" mem "/c" (files s) [] (ostate s)) "cache-policy" = Ok (VStr "off") /\
  dget (start unit (fun _ => false) "/h" (fun _ => true) "1" mem "/c" (files s) [] (ostate s)) "maximum-cache-size" = Ok (VInt 10).
Proof. repeat split; vm_compute; reflexivity. Qed.

Example C22_hyp : List.length (seen (fst (dexec prog s0))) = 6%nat.
Proof. vm_compute. reflexivity. Qed.

Print Assumptions C14_temporary_restores.
Print Assumptions C14_temporary_restores_partial.
Print Assumptions C14_temporary_no_file.
Print Assumptions C15_refused_arguments_partial.
Print Assumptions C16_set_stores.
Print Assumptions C16_set_accepts.
Print Assumptions C16_set_rejects.
Print Assumptions C16_unknown_name.
Print Assumptions C16_meaning_unique.
Print Assumptions C17_set_many_prefix_partial.
Print Assumptions C17_set_keywords_prefix_partial.
Print Assumptions C18_environment_wins.
Print Assumptions C18_others_unaffected.
Print Assumptions C18_variable_names.
Print Assumptions C18_no_collision.
Print Assumptions C19_set_survives_partial.
Print Assumptions C19_save_as_survives_partial.
Print Assumptions C20_booleans_partial.
Print Assumptions C22_change_notifies.
Print Assumptions C22_temporary_notifies.
Print Assumptions C66_get_total_partial.
Print Assumptions C67_memory_cache_in_sync_partial.
Print Assumptions C68_reset_one.
Print Assumptions C68_reset_all.
Print Assumptions C14_nested_failure_refuted.
Print Assumptions C15_failed_entry_refuted.
Print Assumptions C17_multi_set_refuted.
Print Assumptions C19_objects_refuted.
Print Assumptions C20_text_refuted.
Print Assumptions C66_environment_refuted.
Print Assumptions C67_failed_set_refuted.
