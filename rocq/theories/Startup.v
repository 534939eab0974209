(** Model of the part of utils/config.py that runs when the package is imported: finding the
    configuration file, making its directory, taking over the settings of older versions, writing the
    file, reading it; and of what a save that was interrupted leaves behind.

    Not modelled: the lock file beside the configuration file, comments in the file, logging. *)
From Verif Require Import PyBase PyStr Config.
Local Open Scope string_scope.
Local Open Scope list_scope.
Local Open Scope Z_scope.

(** posixpath.dirname: what comes before the last slash, without slashes at its end unless it has only
    slashes. *)
Fixpoint from_slash (l : list ascii) : list ascii :=
  match l with [] => [] | c :: r => if Ascii.eqb c "/" then l else from_slash r end.
Fixpoint no_slashes (l : list ascii) : list ascii :=
  match l with [] => [] | c :: r => if Ascii.eqb c "/" then no_slashes r else l end.
Definition dirname (p : string) : string :=
  let head := from_slash (rev (chars p)) in
  of_chars (rev (match no_slashes head with [] => head | l => l end)).

Section Startup.
  Variable Obj : Type.
  (** as in Config.v: can yaml.safe_load read it back, expanduser("~"), can the file be opened for writing, the version of the package *)
  Variable obj_yaml : Obj -> bool.
  Variable home : string.
  Variable writable : string -> bool.
  Variable version : string.
  (** can os.makedirs make this directory? *)
  Variable can_make : string -> bool.
  Notation value := (value Obj).

  (** Keys of a YAML mapping: a text, or anything else (a number, a date, null). *)
  Inductive ykey := Text (s : string) | Other (n : nat).
  (** What a file gives to yaml.load with SafeLoader: a mapping (its keys are distinct), something
      that is no mapping (nothing but comments, a list, a text), an exception. *)
  Inductive content := Mapping (kvs : list (ykey * value)) | NoMapping | Broken.
  Record world := mkWorld { w_env : list (string * string); w_dirs : list string; w_files : list (string * content); w_umask : Z }.

  Definition with_file (p : string) (c : content) (w : world) : world := mkWorld (w_env w) (w_dirs w) (aset p c (w_files w)) (w_umask w).
  (** os.path.exists; the empty path does not exist *)
  Definition there (p : string) (w : world) : bool :=
    negb (String.eqb p "") && (existsb (String.eqb p) (w_dirs w) || amem p (w_files w)).
  Definition is_text (k : ykey * value) : bool := match fst k with Text _ => true | Other _ => false end.
  Definition texts (kvs : list (ykey * value)) : list (string * value) :=
    flat_map (fun p => match fst p with Text s => [(s, snd p)] | Other _ => [] end) kvs.

  (** sorted(config.items()): the keys are distinct *)
  Fixpoint insert_item (x : string * value) (l : list (string * value)) : list (string * value) :=
    match l with [] => [x] | y :: r => if String.ltb (fst x) (fst y) then x :: l else y :: insert_item x r end.
  Definition sorted_items (l : list (string * value)) : list (string * value) := fold_right insert_item [] l.
  (** config.py:262-276, 118-129: the entries of the file in the order in which they are written. *)
  Definition entries (vals : list (string * value)) : list (string * value) :=
    filter (to_save Obj home) (sorted_items vals) ++ [("version", VStr version)].
  (** What is in the file when [k] of the entries are written.  Simplified: the text of an entry is
      written at once. *)
  Definition written (k : nat) (vals : list (string * value)) : content :=
    match firstn k (entries vals) with
    | [] => NoMapping
    | l => if forallb (fun p => yaml_safe Obj obj_yaml (snd p)) l then Mapping (map (fun p => (Text (fst p), snd p)) l) else Broken
    end.

  (** config.py:253-279 [save_config]; the keys are those of DEFAULTS and of [kvs], so that sorting
      them raises if one is no text; the file is open (and empty) then.  Simplified: one exception for all
      reasons why the file cannot be opened. *)
  Definition save_config (p : string) (kvs : list (ykey * value)) (w : world) : world * result unit :=
    if writable p then
      if forallb is_text kvs then (with_file p (written (List.length (entries (texts kvs))) (texts kvs)) w, Ok tt)
      else (with_file p NoMapping w, Raise TypeError)
    else (w, Raise FileNotFoundError).
  Definition as_items (l : list (string * value)) : list (ykey * value) := map (fun p => (Text (fst p), snd p)) l.
  (** dict.update with the entries of a file *)
  Fixpoint updated (kvs : list (ykey * value)) (vals : list (ykey * value)) : list (ykey * value) :=
    match kvs with
    | [] => vals
    | (k, v) :: r =>
        updated r ((fix put (l : list (ykey * value)) : list (ykey * value) :=
          match l with
          | [] => [(k, v)]
          | (k', v') :: l' => if match k, k' with Text a, Text b => String.eqb a b | Other a, Other b => Nat.eqb a b | _, _ => false end then (k', v) :: l' else (k', v') :: put l'
          end) vals)
    end.

  (** config.py:605-623 [_migrate_old_config] *)
  Definition old_file : string := (home ++ "/.earthkit_regrid/settings.yaml")%string.
  Definition migrate (p : string) (w : world) : world * bool :=
    match alookup old_file (w_files w) with
    | Some (Mapping kvs) => match save_config p (updated kvs (as_items (defaults Obj home))) w with (w', Ok _) => (w', true) | (w', _) => (w', false) end
    | _ => (w, false)
    end.

  (** config.py:626-634: the path of the file *)
  Definition config_path (w : world) : string :=
    match alookup "EARTHKIT_REGRID_CONFIG_FILE" (w_env w) with
    | Some s => if String.eqb s "" then (home ++ "/.config/earthkit/regrid/config.yaml")%string else s
    | None => (home ++ "/.config/earthkit/regrid/config.yaml")%string
    end.
  (** config.py:640-650: the directory; os.umask is put back only if os.makedirs succeeds.  os.makedirs
      raises for the empty path. *)
  Definition make_dir (d : string) (w : world) : world :=
    if there d w then w
    else if negb (String.eqb d "") && can_make d then mkWorld (w_env w) (d :: w_dirs w) (w_files w) (w_umask w)
    else mkWorld (w_env w) (w_dirs w) (w_files w) 63.
  (** config.py:626-662 [_init_config_file] *)
  Definition init_file (w : world) : world :=
    let p := config_path w in
    let d := dirname p in
    let w1 := make_dir d w in
    if there d w1 then
      if there p w1 then w1
      else match migrate p w1 with
           | (w2, true) => w2
           | (w2, false) => fst (save_config p (as_items (defaults Obj home)) w2)
           end
    else w1.
  (** config.py:665-690 [_init_config]: the values, and whether to save at once *)
  Definition init_values (c : option content) : list (ykey * value) * bool :=
    match c with
    | Some (Mapping kvs) =>
        let vals := updated kvs (as_items (defaults Obj home)) in
        (vals, match alookup "version" (texts vals) with Some (VStr v) => String.ltb v version | _ => false end)
    | _ => (as_items (defaults Obj home), false)
    end.
  (** config.py:692-698: what importing the package does.  Config(...) copies the values by
      dict( **values ), which refuses keys that are no texts. *)
  Definition import (w : world) : world * result (conf Obj) :=
    let p := config_path w in
    let w1 := init_file w in
    let '(vals, save) := init_values (alookup p (w_files w1)) in
    if forallb is_text vals
    then (if save then fst (save_config p vals w1) else w1, Ok (mkConf (texts vals) (Some p)))
    else (w1, Raise TypeError).
  (** A process that is killed while it saves [vals], [k] entries being written (config.py:514-524). *)
  Definition killed_saving (k : nat) (vals : list (string * value)) (w : world) : world :=
    if writable (config_path w) then with_file (config_path w) (written k vals) w else w.
End Startup.
