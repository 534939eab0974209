(** Model of the pages of options in the documentation: sphinxext/generate_config_rst.py and
    generate_config_env_rst.py.  A page is the list of its rows.  Not modelled: the text of the
    descriptions; hyphens are printed as a character that does not break lines. *)
From Verif Require Import PyBase PyStr Index.
From Verif Require Config.
Local Open Scope string_scope.
Local Open Scope list_scope.
Local Open Scope Z_scope.

(** Values as they come in configurations *)
Inductive doc :=
| DNone | DBool (b : bool) | DInt (z : Z) | DStr (s : string)
| DList (l : list doc) | DTup (l : list doc) | DDict (l : list (string * doc)).

(** Python: [u in s] *)
Fixpoint contains (u s : list ascii) : bool :=
  starts_with u s || match s with [] => false | _ :: r => contains u r end.
(** Python: s.replace(u, v) for a u that is not empty; [k] characters are still to be left out *)
Fixpoint replace (u v : list ascii) (k : nat) (s : list ascii) : list ascii :=
  match s with
  | [] => []
  | c :: r =>
      match k with
      | S k' => replace u v k' r
      | O => if starts_with u s then v ++ replace u v (List.length u - 1) r else c :: replace u v 0 r
      end
  end.
Fixpoint map_r {A B} (f : A -> result B) (l : list A) : result (list B) :=
  match l with [] => Ok [] | x :: r => y <- f x ;; ys <- map_r f r ;; Ok (y :: ys) end.

(** posixpath.expanduser of "~" followed by [rest] (nothing or a slash and more); [home]: $HOME or the
    password database, if there is an entry *)
Fixpoint strip_slashes (l : list ascii) : list ascii :=
  match l with c :: r => if Ascii.eqb c "/" then strip_slashes r else l | [] => [] end.
Definition rstrip_slash (s : string) : string := of_chars (rev (strip_slashes (rev (chars s)))).
Definition expanduser (home : option string) (rest : string) : string :=
  match home with
  | None => "~" ++ rest
  | Some h => let p := (rstrip_slash h ++ rest)%string in if String.eqb p "" then "/" else p
  end.

Section Tidy.
  (** generate_config_rst.py:18-19 *)
  Variables HOME USER : string.
  (** generate_config_rst.py:22-40 [tidy]; out of fuel: RecursionError *)
  Fixpoint tidy (fuel : nat) (x : doc) : result doc :=
    match fuel with
    | O => OutOfFuel
    | S f =>
        match x with
        | DList l => l' <- map_r (tidy f) l ;; Ok (DList l')
        | DTup l => l' <- map_r (tidy f) l ;; Ok (DList l')
        | DDict d => d' <- map_r (fun p => y <- tidy f (snd p) ;; Ok (fst p, y)) d ;; Ok (DDict d')
        | DStr s =>
            if starts_with (chars HOME) (chars s)
            then tidy f (DStr ("~/" ++ of_chars (skipn (String.length HOME) (chars s))))
            else if contains (chars ("-" ++ USER)) (chars s)
            then tidy f (DStr (of_chars (replace (chars ("-" ++ USER)) (chars "-${USER}") 0 (chars s))))
            else Ok x
        | _ => Ok x
        end
    end.
End Tidy.

(** sorted(...) by name *)
Fixpoint insert_row {A} (x : string * A) (l : list (string * A)) : list (string * A) :=
  match l with [] => [x] | y :: r => if String.ltb (fst x) (fst y) then x :: l else y :: insert_row x r end.
Definition sorted_rows {A} (l : list (string * A)) : list (string * A) := fold_left (fun acc x => insert_row x acc) l [].

Section Pages.
  (** re.match(arg, k) succeeds.  Simplified: no argument is an invalid pattern. *)
  Variable matches : string -> string -> bool.
  (** generate_config_rst.py:54-55, generate_config_env_rst.py:29-30 *)
  Definition chosen (args : list string) (k : string) : bool :=
    match args with [] => true | _ => existsb (fun a => matches a k) args end.

  Definition doc_of (v : Config.value Empty_set) : doc :=
    match v with Config.VNone => DNone | Config.VBool b => DBool b | Config.VInt z => DInt z | Config.VStr s => DStr s | Config.VObj o => match o with end end.
  (** config.py:147-220 with docs_default (config.py:113): the default of each option *)
  Definition docs_defaults (home : option string) : list (string * doc) :=
    map (fun p => (fst p,
        if String.eqb (fst p) "user-cache-directory" then DStr (join_path (join_path (expanduser home "") ".cache") "earthkit-regrid")
        else doc_of (Config.o_default _ (snd p))))
      (Config.options Empty_set "").
  (** generate_config_rst.py:43-60 [execute] *)
  Definition config_page (fuel : nat) (home : option string) (user : string) (args : list string) : result (list (string * doc)) :=
    map_r (fun p => y <- tidy (expanduser home "/") user fuel (snd p) ;; Ok (fst p, y))
      (filter (fun p => chosen args (fst p)) (sorted_rows (docs_defaults home))).
  (** generate_config_env_rst.py:18-34 [execute] *)
  Definition env_page (args : list string) : list (string * string) :=
    map (fun p => (fst p, Config.env_var_name (fst p)))
      (filter (fun p => chosen args (fst p)) (sorted_rows (Config.options Empty_set ""))).
End Pages.
