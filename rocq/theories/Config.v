(** Model of src/earthkit/regrid/utils/config.py: options, the stack of temporary
    configurations, observers, environment variables, the configuration file.

    Not modelled: warnings and logging; html and repr output; [set] of list and dict
    options (none exists).  The migration of the old settings file (config.py:605-623) and
    the creation of the directory holding the configuration file are in Startup.v. *)
From Verif Require Import PyBase PyStr Humanize.

Local Open Scope string_scope.
Local Open Scope list_scope.
Local Open Scope Z_scope.

(** Option values.  [VObj] stands for any other Python object (a float, a Path, a numpy
    scalar, a list...), of which only str(), bool() and "can yaml.safe_load read what
    yaml.dump wrote" matter. *)
Inductive value (Obj : Type) : Type :=
| VNone | VBool (b : bool) | VInt (z : Z) | VStr (s : string) | VObj (o : Obj).
Arguments VNone {Obj}.
Arguments VBool {Obj} b.
Arguments VInt {Obj} z.
Arguments VStr {Obj} s.
Arguments VObj {Obj} o.

Section Config.
  Variable Obj : Type.
  Variable obj_str : Obj -> string.
  Variable obj_bool : Obj -> bool.
  Variable obj_yaml : Obj -> bool.
  (** os.path.expanduser("~") *)
  Variable home : string.
  (** can the file be written? *)
  Variable writable : string -> bool.
  (** earthkit.regrid.__version__ *)
  Variable version : string.
  Notation value := (value Obj).
  Notation vals_t := (list (string * value)).

  (** str(v) *)
  Definition str_of (v : value) : string :=
    match v with
    | VNone => "None"
    | VBool true => "True" | VBool false => "False"
    | VInt z => show_Z z
    | VStr s => s
    | VObj o => obj_str o
    end.
  (** bool(v) *)
  Definition truth (v : value) : bool :=
    match v with
    | VNone => false
    | VBool b => b
    | VInt z => negb (z =? 0)
    | VStr s => negb (String.eqb s "")
    | VObj o => obj_bool o
    end.
  (** v == w where w is the default of an option (None, a bool or a str); opaque objects
      are taken to be different from it. *)
  Definition equals_default (v w : value) : bool :=
    match v, w with
    | VNone, VNone => true
    | VStr a, VStr b => String.eqb a b
    | VBool a, VBool b => Bool.eqb a b
    | VInt a, VBool b => a =? (if b then 1 else 0)
    | _, _ => false
    end.

  (** config.py:97-116 [ConfigOption]; [kind] is the type of the default. *)
  Inductive kind := KBool | KStr | KNoneType.
  Inductive getter := GStr | GBytes | GPercent | GSeconds.
  Record opt := mkOpt {
    o_default : value; o_kind : kind; o_getter : option getter; o_none_ok : bool;
    o_valid : option (list string) }.

  Definition plain_str d := mkOpt (VStr d) KStr None false None.
  Definition plain_bool b := mkOpt (VBool b) KBool None false None.

  (** config.py:147-220 [CONFIG_AND_HELP] *)
  Definition options : list (string * opt) :=
    [("user-cache-directory", plain_str (home ++ "/.cache/earthkit-regrid")%string);
     ("temporary-cache-directory-root", mkOpt VNone KNoneType (Some GStr) true None);
     ("temporary-directory-root", mkOpt VNone KNoneType (Some GStr) true None);
     ("cache-policy", mkOpt (VStr "user") KStr None false (Some ["off"; "temporary"; "user"]));
     ("maximum-cache-size", mkOpt (VStr "5GB") KStr (Some GBytes) true None);
     ("maximum-cache-disk-usage", mkOpt VNone KNoneType (Some GPercent) true None);
     ("url-download-timeout", mkOpt (VStr "30s") KStr (Some GSeconds) false None);
     ("check-out-of-date-urls", plain_bool false);
     ("download-out-of-date-urls", plain_bool false);
     ("maximum-weights-memory-cache-size", mkOpt (VStr "500MB") KStr (Some GBytes) true None);
     ("weights-memory-cache-policy",
      mkOpt (VStr "largest") KStr None false (Some ["off"; "unlimited"; "largest"; "lru"]));
     ("weights-memory-cache-strict-mode", plain_bool false)].

  (** config.py:223-226 [DEFAULTS] *)
  Definition defaults : vals_t := map (fun p => (fst p, o_default (snd p))) options.

  (** config.py:282-283 [env_var_name] *)
  Definition env_var_name (name : string) : string :=
    ("EARTHKIT_REGRID_" ++ replace1 "-" "_" (upper name))%string.

  (** config.py:536-551 the getters *)
  Definition lift_num (r : result (option Z)) : result value :=
    o <- r ;; Ok (match o with None => VNone | Some z => VInt z end).
  Definition as_text (v : value) : option string :=
    match v with VNone => None | _ => Some (str_of v) end.
  Definition run_getter (g : getter) (v : value) (none_ok : bool) : result value :=
    match g with
    | GStr => match v, none_ok with VNone, true => Ok VNone | _, _ => Ok (VStr (str_of v)) end
    | GBytes => lift_num (as_bytes (as_text v) none_ok)
    | GPercent => lift_num (as_percent (as_text v) none_ok)
    | GSeconds => lift_num (as_seconds (as_text v) none_ok)
    end.

  (** config.py:299-334 [get] on a configuration with these values; the environment
      comes first.  (The [default] argument matters only for a missing key.) *)
  Definition get_in (vals : vals_t) (env : list (string * string)) (name : string) : result value :=
    match alookup name options with
    | None => Raise KeyError
    | Some o =>
        v <- match alookup (env_var_name name) env with
             | Some text => Ok (VStr text)
             | None => match alookup name vals with Some v => Ok v | None => Raise KeyError end
             end ;;
        match o_getter o with
        | None => Ok v
        | Some g => run_getter g v (o_none_ok o)
        end
    end.

  (** config.py:360-427 [_set]: the value to be stored.  [nkw] counts keyword arguments. *)
  Definition checked (name : string) (args : list value) (nkw : nat) : result value :=
    match alookup name options with
    | None => Raise KeyError
    | Some o =>
        match args, nkw with
        | [a], O =>
            (* lines 385-390 *)
            let converted := match o_kind o with
                             | KBool => VBool (truth a)
                             | KStr => VStr (str_of a)
                             | KNoneType => a
                             end in
            (* lines 408-420; the isinstance test always holds after the conversion *)
            v <- match o_getter o with
                 | Some g => _ <- run_getter g a (o_none_ok o) ;; Ok a
                 | None => Ok converted
                 end ;;
            (* config.py:139-141 [validate] *)
            match o_valid o with
            | None => Ok v
            | Some l => if existsb (String.eqb (str_of v)) l then Ok v else Raise ValueError
            end
        | _, _ => Raise AssertionError
        end
    end.
  Definition set_one (name : string) (args : list value) (nkw : nat) (vals : vals_t) : vals_t * result unit :=
    match checked name args nkw with
    | Ok v => (aset name v vals, Ok tt)
    | Raise e => (vals, Raise e)
    | OutOfFuel => (vals, OutOfFuel)
    end.
  Fixpoint set_many (kvs : list (string * value)) (vals : vals_t) : vals_t * result unit :=
    match kvs with
    | [] => (vals, Ok tt)
    | (k, v) :: r =>
        match set_one k [v] 0 vals with
        | (vals', Ok _) => set_many r vals'
        | (vals', e) => (vals', e)
        end
    end.

  (** The three ways of calling [set]: with keywords only, with a dictionary, with a name and
      arguments. *)
  Inductive setarg :=
  | SetKw (kvs : list (string * value))
  | SetDict (kvs : list (string * value))
  | SetPos (name : string) (args : list value) (nkw : nat).

  (** config.py:337-358 [set], the part before [_changed]; the second component is the
      number of times [_changed] is called (twice for keywords: lines 353 and 358). *)
  Definition set_vals (a : setarg) (vals : vals_t) : vals_t * result nat :=
    match a with
    | SetKw [] => (vals, Raise AssertionError)
    | SetKw kvs =>
        match set_many (map (fun p => (replace1 "_" "-" (fst p), snd p)) kvs) vals with
        | (v, Ok _) => (v, Ok 2%nat) | (v, Raise e) => (v, Raise e) | (v, OutOfFuel) => (v, OutOfFuel)
        end
    | SetDict kvs =>
        match set_many kvs vals with
        | (v, Ok _) => (v, Ok 1%nat) | (v, Raise e) => (v, Raise e) | (v, OutOfFuel) => (v, OutOfFuel)
        end
    | SetPos name args nkw =>
        match set_one name args nkw vals with
        | (v, Ok _) => (v, Ok 1%nat) | (v, Raise e) => (v, Raise e) | (v, OutOfFuel) => (v, OutOfFuel)
        end
    end.

  (** A YAML file: the mapping it holds.  yaml.dump followed by yaml.safe_load is taken to
      give back None, booleans, integers and strings unchanged. *)
  Notation file := (list (string * value)).
  Definition yaml_safe (v : value) : bool := match v with VObj o => obj_yaml o | _ => true end.

  (** config.py:253-279 [save_config] and 118-129 [ConfigOption.save]: only options whose
      value differs from the default, then the version.  Order inside the file is not
      modelled (it is sorted). *)
  Definition to_save (p : string * value) : bool :=
    match alookup (fst p) options with
    | None => false
    | Some o => negb (equals_default (snd p) (o_default o))
    end.
  Definition dumped (vals : vals_t) : file := filter to_save vals ++ [("version", VStr version)].

  Fixpoint update_all (kvs : list (string * value)) (vals : vals_t) : vals_t :=
    match kvs with [] => vals | (k, v) :: r => update_all r (aset k v vals) end.

  (** config.py:665-690 [_init_config]: the values, and whether to save at once.  A file that
      is missing or that safe_load refuses gives the defaults. *)
  Definition load (f : option file) : vals_t * bool :=
    match f with
    | None => (defaults, false)
    | Some kvs =>
        if forallb (fun p => yaml_safe (snd p)) kvs then
          let vals := update_all kvs defaults in
          (vals, match alookup "version" vals with
                 | Some (VStr v) => String.ltb v version
                 | _ => false
                 end)
        else (defaults, false)
    end.

  (** One Config object (config.py:290-296). *)
  Record conf := mkConf { vals : vals_t; path : option string }.

  (** The observers, their private state, and what they do: they may read any option
      and may raise.  Simplification: an observer does not change the configuration. *)
  Variable ObsSt : Type.
  Variable obs : nat -> (string -> result value) -> ObsSt -> ObsSt * result unit.

  (** The module: CONFIG, CONFIG._stack (top first), CONFIG._callbacks (one list, shared by
      the temporary configurations: config.py:575), Config._auto_save_config, the files,
      os.environ, the observers' state.  Two ghost fields: [seen] records each call of an
      observer with the values visible then; [failed] counts the temporary() blocks whose
      entry notification raised. *)
  Record st := mkSt {
    base : conf; stack : list conf; callbacks : list nat; autosave : bool;
    files : list (string * file); environ : list (string * string);
    ostate : ObsSt; seen : list (nat * vals_t); failed : nat }.

  (** config.py:243-250 [forward] *)
  Definition top (s : st) : conf := match stack s with [] => base s | c :: _ => c end.
  Definition with_top (s : st) (c : conf) : st :=
    match stack s with
    | [] => mkSt c [] (callbacks s) (autosave s) (files s) (environ s) (ostate s) (seen s) (failed s)
    | _ :: r => mkSt (base s) (c :: r) (callbacks s) (autosave s) (files s) (environ s) (ostate s) (seen s) (failed s)
    end.
  Definition with_stack (s : st) (l : list conf) : st :=
    mkSt (base s) l (callbacks s) (autosave s) (files s) (environ s) (ostate s) (seen s) (failed s).
  Definition with_files (s : st) f :=
    mkSt (base s) (stack s) (callbacks s) (autosave s) f (environ s) (ostate s) (seen s) (failed s).

  Definition get (s : st) (name : string) : result value := get_in (vals (top s)) (environ s) name.

  (** config.py:514-531 [_save] / [save_as]; failures are logged only. *)
  Definition save_to (p : option string) (v : vals_t) (files : list (string * file)) :=
    match p with
    | Some p => if writable p then aset p (dumped v) files else files
    | None => files
    end.

  (** config.py:505-508 [_notify] *)
  Fixpoint notify_loop (cbs : list nat) (s : st) : st * result unit :=
    match cbs with
    | [] => (s, Ok tt)
    | cb :: r =>
        let '(o', res) := obs cb (get s) (ostate s) in
        let s' := mkSt (base s) (stack s) (callbacks s) (autosave s) (files s) (environ s) o'
                       (seen s ++ [(cb, vals (top s))]) (failed s) in
        match res with Ok _ => notify_loop r s' | e => (s', e) end
    end.
  Definition notify (s : st) := notify_loop (callbacks s) s.

  (** config.py:500-503 [_changed], [n] times *)
  Definition changed1 (s : st) : st * result unit :=
    notify (if autosave s then with_files s (save_to (path (top s)) (vals (top s)) (files s)) else s).
  Fixpoint changed (n : nat) (s : st) : st * result unit :=
    match n with
    | O => (s, Ok tt)
    | S m => match changed1 s with (s', Ok _) => changed m s' | (s', e) => (s', e) end
    end.

  Definition do_set (a : setarg) (s : st) : st * result unit :=
    let '(v, r) := set_vals a (vals (top s)) in
    let s' := with_top s (mkConf v (path (top s))) in
    match r with
    | Ok n => changed n s'
    | Raise e => (s', Raise e)
    | OutOfFuel => (s', OutOfFuel)
    end.

  (** config.py:430-457 [reset] *)
  Definition do_reset (name : option string) (s : st) : st * result unit :=
    match name with
    | None => changed 1 (with_top s (mkConf defaults (path (top s))))
    | Some n =>
        match alookup n defaults with
        | None => (s, Raise KeyError)
        | Some d => changed 1 (with_top s (mkConf (aset n d (aremove n (vals (top s)))) (path (top s))))
        end
    end.

  (** Programs using the configuration.  [CTemp p a body] is
      [with config.temporary(..., config_yaml=p): body]; [CTry] is try/except: pass;
      [CAct] is any use of the objects observing the configuration, such as a regrid that goes
      through the memory cache; it may read options. *)
  Inductive cmd :=
  | CSkip
  | CSeq (a b : cmd)
  | CSet (a : setarg)
  | CReset (n : option string)
  | CTemp (p : option string) (a : option setarg) (body : cmd)
  | COnChange (cb : nat)
  | CAutosave (b : bool)
  | CSaveAs (p : string)
  | CEnv (k : string) (v : option string)
  | CFail (e : exn)
  | CAct (f : (string -> result value) -> ObsSt -> ObsSt * result unit)
  | CTry (c : cmd).

  (** config.py:566-576 [temporary]: the new Config object (and the file it may write:
      it has no callbacks yet, so [set] only saves). *)
  Definition make_temp (p : option string) (a : option setarg) (s : st)
    : st * result conf :=
    match a with
    | None => (s, Ok (mkConf (vals (top s)) p))
    | Some a =>
        match set_vals a (vals (top s)) with
        | (v, Ok n) =>
            let s' := if autosave s then with_files s (save_to p v (files s)) else s in
            (s', Ok (mkConf v p))
        | (_, Raise e) => (s, Raise e)
        | (_, OutOfFuel) => (s, OutOfFuel)
        end
    end.

  (** config.py:231-240 [new_config], entry: append, notify; no try around these. *)
  Definition enter (c : conf) (s : st) : st * result unit :=
    match notify (with_stack s (c :: stack s)) with
    | (s', Ok _) => (s', Ok tt)
    | (s', e) => (mkSt (base s') (stack s') (callbacks s') (autosave s') (files s') (environ s')
                       (ostate s') (seen s') (S (failed s')), e)
    end.
  (** ... and the [finally]: pop, notify; an exception of notify replaces the body's. *)
  Definition leave (r : result unit) (s : st) : st * result unit :=
    match notify (with_stack s (tl (stack s))) with
    | (s', Ok _) => (s', r)
    | (s', e) => (s', e)
    end.

  Fixpoint exec (c : cmd) (s : st) : st * result unit :=
    match c with
    | CSkip => (s, Ok tt)
    | CSeq a b => match exec a s with (s', Ok _) => exec b s' | (s', e) => (s', e) end
    | CSet a => do_set a s
    | CReset n => do_reset n s
    | CTemp p a body =>
        match make_temp p a s with
        | (s0, Ok c) =>
            match enter c s0 with
            | (s1, Ok _) => let '(s2, r) := exec body s1 in leave r s2
            | (s1, e) => (s1, e)
            end
        | (s0, Raise e) => (s0, Raise e)
        | (s0, OutOfFuel) => (s0, OutOfFuel)
        end
    | COnChange cb =>
        (mkSt (base s) (stack s) (callbacks s ++ [cb]) (autosave s) (files s) (environ s)
              (ostate s) (seen s) (failed s), Ok tt)
    | CAutosave b =>
        (mkSt (base s) (stack s) (callbacks s) b (files s) (environ s) (ostate s) (seen s) (failed s), Ok tt)
    | CSaveAs p => (with_files s (save_to (Some p) (vals (top s)) (files s)), Ok tt)
    | CEnv k v =>
        (mkSt (base s) (stack s) (callbacks s) (autosave s) (files s)
              (match v with Some t => aset k t (environ s) | None => aremove k (environ s) end)
              (ostate s) (seen s) (failed s), Ok tt)
    | CFail e => (s, Raise e)
    | CAct f =>
        let '(o', r) := f (get s) (ostate s) in
        (mkSt (base s) (stack s) (callbacks s) (autosave s) (files s) (environ s) o' (seen s) (failed s), r)
    | CTry c => let '(s', _) := exec c s in (s', Ok tt)
    end.

  (** config.py:692-698: importing the module, the configuration file being [p]. *)
  Definition start (p : string) (files : list (string * file)) (env : list (string * string)) (o : ObsSt) : st :=
    let '(v, save) := load (alookup p files) in
    let c := mkConf v (Some p) in
    mkSt c [] [] true (if save then save_to (Some p) v files else files) env o [] 0.
End Config.

Arguments mkConf {Obj}.
Arguments vals {Obj}.
Arguments path {Obj}.
Arguments mkSt {Obj ObsSt}.
Arguments base {Obj ObsSt}.
Arguments stack {Obj ObsSt}.
Arguments callbacks {Obj ObsSt}.
Arguments autosave {Obj ObsSt}.
Arguments files {Obj ObsSt}.
Arguments environ {Obj ObsSt}.
Arguments ostate {Obj ObsSt}.
Arguments seen {Obj ObsSt}.
Arguments failed {Obj ObsSt}.
Arguments top {Obj ObsSt}.
Arguments CSkip {Obj ObsSt}.
Arguments CSeq {Obj ObsSt}.
Arguments CSet {Obj ObsSt}.
Arguments CReset {Obj ObsSt}.
Arguments CTemp {Obj ObsSt}.
Arguments COnChange {Obj ObsSt}.
Arguments CAutosave {Obj ObsSt}.
Arguments CSaveAs {Obj ObsSt}.
Arguments CEnv {Obj ObsSt}.
Arguments CFail {Obj ObsSt}.
Arguments CTry {Obj ObsSt}.
Arguments CAct {Obj ObsSt}.
Arguments SetKw {Obj}.
Arguments SetDict {Obj}.
Arguments SetPos {Obj}.
