(** Model of what the package shows to people: the printed form, the HTML table and the
    listing of the configuration (utils/config.py:459-498, 584-601; utils/html.py), the HTML
    listing of the disk cache (utils/caching.py:513-534) and the role [:xref:] of the
    documentation (sphinxext/xref.py).

    Not modelled: logging; the HTML rendering by a browser; docutils nodes (a link is a
    title and an address). *)
From Verif Require Import PyBase PyStr Config Startup.

Local Open Scope string_scope.
Local Open Scope list_scope.
Local Open Scope Z_scope.

(** Python: [c in s] for one character. *)
Fixpoint has (c : ascii) (s : string) : bool :=
  match s with EmptyString => false | String d r => Ascii.eqb d c || has c r end.

Definition SQ : ascii := ascii_of_nat 39.
Definition DQ : ascii := ascii_of_nat 34.
Definition BS : ascii := ascii_of_nat 92.
Definition NL : ascii := ascii_of_nat 10.

(** Python's repr of a str (Objects/unicodeobject.c, unicode_repr): one character inside the
    quotes [q].  Simplified: characters from 128 on are shown as they are. *)
Definition hex (n : Z) : ascii := ascii_of_N (Z.to_N (if n <? 10 then 48 + n else 87 + n)).
Definition shown_char (q c : ascii) : string :=
  if Ascii.eqb c q || Ascii.eqb c BS then String BS (String c "")
  else if code c =? 10 then String BS "n" else if code c =? 13 then String BS "r" else if code c =? 9 then String BS "t"
  else if (code c <? 32) || (code c =? 127) then String BS (String "x" (String (hex (code c / 16)) (String (hex (code c mod 16)) "")))
  else String c "".
Fixpoint shown_chars (q : ascii) (s : string) : string :=
  match s with EmptyString => "" | String c r => (shown_char q c ++ shown_chars q r)%string end.
(** The quotes: double only when the text has single quotes and no double ones. *)
Definition quote_of (s : string) : ascii := if has SQ s && negb (has DQ s) then DQ else SQ.
Definition repr_str (s : string) : string :=
  String (quote_of s) (shown_chars (quote_of s) s ++ String (quote_of s) "")%string.

(** sep.join(l) *)
Fixpoint joined (sep : string) (l : list string) : string :=
  match l with [] => "" | [x] => x | x :: r => (x ++ sep ++ joined sep r)%string end.

Section Show.
  Variable Obj : Type.
  Variables obj_str obj_repr : Obj -> string.
  Variable home : string.
  (** html.py:13-16: the content of conf/css/table.css *)
  Variable sheet : string.
  Notation value := (value Obj).
  Notation vals_t := (list (string * value)).
  Notation str_of := (str_of Obj obj_str).

  (** Python's repr *)
  Definition repr_of (v : value) : string :=
    match v with
    | VNone => "None" | VBool true => "True" | VBool false => "False" | VInt z => show_Z z
    | VStr s => repr_str s | VObj o => obj_repr o
    end.

  (** config.py:464-465, 482-483: the default shown for an entry ("" for what is no option) *)
  Definition default_of (k : string) : value :=
    match alookup k (options Obj home) with Some o => o_default Obj o | None => VStr "" end.

  (** config.py:584-590 [env] and 596-601 [_env]: the entries set in the environment, with
      the name of the variable and its text *)
  Definition env_items (vals : vals_t) (env : list (string * string)) : list (string * (string * string)) :=
    flat_map (fun p => match alookup (env_var_name (fst p)) env with
                       | Some t => [(fst p, (env_var_name (fst p), t))] | None => [] end) (sorted_items Obj vals).

  (** config.py:459-470 [__repr__] *)
  Definition text_line (e : list (string * (string * string))) (p : string * value) : string :=
    let (k, v) := p in
    match alookup k e with
    | Some (n, t) => (k ++ ": (" ++ n ++ "=" ++ t ++ ", " ++ str_of v ++ ", " ++ str_of (default_of k) ++ ")")%string
    | None => (k ++ ": (" ++ str_of v ++ ", " ++ str_of (default_of k) ++ ")")%string
    end.
  Definition text (vals : vals_t) (env : list (string * string)) : string :=
    joined (String NL "") (map (text_line (env_items vals env)) (sorted_items Obj vals)).

  (** html.py:13-16 [css] *)
  Definition css : string := ("<style type=" ++ String DQ "text/css" ++ String DQ ">" ++ sheet ++ "</style>")%string.

  (** config.py:472-493 [_repr_html_] *)
  Definition html_row (e : list (string * (string * string))) (p : string * value) : string :=
    let (k, v) := p in
    match alookup k e with
    | Some (n, t) =>
        ("<tr><td>" ++ k ++ "</td><td>" ++ n ++ "=" ++ repr_str t ++ "<br>(" ++ repr_of v ++ ")</td><td>" ++
         repr_of (default_of k) ++ "</td></tr>")%string
    | None => ("<tr><td>" ++ k ++ "</td><td>" ++ repr_of v ++ "</td><td>" ++ repr_of (default_of k) ++ "</td></tr>")%string
    end.
  Definition html (vals : vals_t) (env : list (string * string)) : string :=
    (css ++ "<table class='ek'>" ++
     ("<tr><th>" ++ joined "</th><th>" ["Name"; "Value"; "Default"] ++ "</th></tr>") ++
     joined "" (map (html_row (env_items vals env)) (sorted_items Obj vals)) ++ "</table>")%string.

  (** config.py:495-498 [dump] *)
  Definition dump (vals : vals_t) : list (string * value * option (opt Obj)) :=
    map (fun p => (fst p, snd p, alookup (fst p) (options Obj home))) (sorted_items Obj vals).

  (** caching.py:513-534 [Cache._repr_html_].  An entry: its path, and the other columns
      (without owner_data) as texts, the size already in words. *)
  Definition cache_row (p : string * string) : string :=
    ("<td><td>" ++ fst p ++ "</td><td>" ++ snd p ++ "</td></tr>")%string.
  Definition cache_entry (e : string * list (string * string)) : string :=
    ("<table class='ek'>" ++ ("<td><td colspan='2'>" ++ fst e ++ "</td></tr>") ++
     joined "" (map cache_row (snd e)) ++ "</table>" ++ "<br>")%string.
  Definition cache_html (entries : list (string * list (string * string))) : string :=
    (css ++ joined "" (map cache_entry entries))%string.
End Show.

(** sphinxext/xref.py.  Sphinx: caption_ref_re is explicit_title_re,
    [^(.+?)\s*(?<!\x00)<([^<]*?)>$] with DOTALL. *)
Fixpoint find_char (c : ascii) (l : list ascii) : option (list ascii * list ascii) :=
  match l with
  | [] => None
  | d :: r => if Ascii.eqb d c then Some ([], r)
              else match find_char c r with Some (a, b) => Some (d :: a, b) | None => None end
  end.
Definition LT : ascii := ascii_of_nat 60.
Definition GT : ascii := ascii_of_nat 62.
Definition NUL : ascii := ascii_of_nat 0.
(** the text before and after the last [c] *)
Definition rfind_char (c : ascii) (l : list ascii) : option (list ascii * list ascii) :=
  match find_char c (rev l) with Some (a, b) => Some (rev b, rev a) | None => None end.
(** [(.+?)\s*] up to the end: at least one character, no more than needed *)
Definition before_space (l : list ascii) : list ascii :=
  match l with
  | [] => []
  | c :: r => c :: rev (snd (span is_space (rev r)))
  end.
(** [>$]: the end, or just before a newline at the end *)
Definition closed (l : list ascii) : option (list ascii) :=
  match rev l with
  | c :: r => if Ascii.eqb c GT then Some (rev r)
              else if Ascii.eqb c NL then match r with d :: r' => if Ascii.eqb d GT then Some (rev r') else None | [] => None end
              else None
  | [] => None
  end.
Definition explicit_title (l : list ascii) : option (list ascii * list ascii) :=
  match rfind_char LT l with
  | None => None
  | Some (a, b) =>
      match a, rev a with
      | _ :: _, z :: _ =>
          if Ascii.eqb z NUL then None
          else match closed b with Some t => Some (before_space a, t) | None => None end
      | _, _ => None
      end
  end.
(** xref.py:16-37 [xref]: the title and the address of the link.  [links] is the table
    xref_links of docs/conf.py. *)
Definition xref (links : list (string * (string * string))) (text : string) : result (string * string) :=
  let l := chars text in
  let '(title, target, braces) :=
    match find_char LT l with
    | None => (text, text, false)
    | Some (a, b) =>
        match explicit_title l with
        | Some (ti, ta) => (of_chars ti, of_chars ta, true)
        | None => (of_chars a, of_chars b, true)
        end
    end in
  match alookup target links with
  | None => Raise KeyError
  | Some (name, uri) => Ok (if braces then title else name, uri)
  end.
