(** Model of the names of cache files: caching.py:977-1001 (policies user and temporary) and
    1041-1055 (policy off), hash.py:make_sha, and json.dumps as far as they use it.

    SHA-256 is not modelled: it is an argument (hexdigest of the text), and statements say
    "or these two texts collide".  Text is one byte per character below 256 (code points). *)
From Verif Require Import PyBase PyStr.
Local Open Scope string_scope.
Local Open Scope list_scope.

(** JSON values; a number is kept as the text repr gives (so 1 and 1.0 differ, as in Python's output). *)
Inductive json :=
| JNull | JBool (b : bool) | JNum (text : string) | JStr (s : string)
| JList (l : list json) | JDict (l : list (string * json)).

(** json.encoder.py_encode_basestring_ascii: quotes and backslashes, the short escapes, and
    \uXXXX for what is not printable ASCII. *)
Definition hex_digit (n : N) : ascii := ascii_of_N (if (n <? 10)%N then 48 + n else 87 + n).
Definition escape (c : ascii) : string :=
  if Ascii.eqb c """" then "\""" else if Ascii.eqb c "\" then "\\"
  else if Ascii.eqb c "010" then "\n" else if Ascii.eqb c "013" then "\r" else if Ascii.eqb c "009" then "\t"
  else if Ascii.eqb c "012" then "\f" else if Ascii.eqb c "008" then "\b"
  else if (32 <=? code c)%Z && (code c <=? 126)%Z then String c ""
  else ("\u00" ++ String (hex_digit (N_of_ascii c / 16)) (String (hex_digit (N_of_ascii c mod 16)) ""))%string.
Fixpoint escapes (s : string) : string := match s with EmptyString => "" | String c r => (escape c ++ escapes r)%string end.
Definition quote (s : string) : string := ("""" ++ escapes s ++ """")%string.

(** sorted(items): by key, code point by code point. *)
Fixpoint str_leb (a b : string) : bool :=
  match a, b with
  | EmptyString, _ => true
  | String _ _, EmptyString => false
  | String x a', String y b' => if Ascii.eqb x y then str_leb a' b' else (code x <? code y)%Z
  end.
Fixpoint insert_key {A} (p : string * A) (l : list (string * A)) : list (string * A) :=
  match l with [] => [p] | q :: r => if str_leb (fst p) (fst q) then p :: l else q :: insert_key p r end.
Definition sort_keys {A} (l : list (string * A)) : list (string * A) := fold_right insert_key [] l.

Fixpoint join_with (sep : string) (l : list string) : string :=
  match l with [] => "" | [a] => a | a :: r => (a ++ sep ++ join_with sep r)%string end.
(** json.dumps(value, sort_keys=True) *)
Fixpoint dumps (j : json) : string :=
  match j with
  | JNull => "null" | JBool true => "true" | JBool false => "false"
  | JNum t => t | JStr s => quote s
  | JList l => ("[" ++ join_with ", " (map dumps l) ++ "]")%string
  | JDict l => ("{" ++ join_with ", " (map (fun p => (quote (fst p) ++ ": " ++ snd p)%string) (sort_keys (map (fun p => (fst p, dumps (snd p))) l))) ++ "}")%string
  end.

Section Key.
  (** hashlib.sha256(text).hexdigest() *)
  Variable sha : string -> string.

  (** caching.py:980-985 *)
  Record request := mkRequest { q_owner : string; q_args : json; q_extra : json; q_ext : string }.
  Definition key_text (q : request) : string := (q_owner q ++ dumps (q_args q) ++ dumps (q_extra q) ++ dumps (JStr (q_ext q)))%string.
  (** caching.py:992-1000, the name in the cache directory *)
  Definition key_name (q : request) : string := (lower (q_owner q) ++ "-" ++ sha (key_text q) ++ q_ext q)%string.

  (** hash.py:14-20 [make_sha] *)
  Definition make_sha (data : json) : string := match data with JStr s => sha s | _ => sha (dumps data) end.

  (** datetime.isoformat(): the microseconds are left out when zero.  Fields in their ranges. *)
  Record moment := mkMoment { year : Z; month : Z; day : Z; hour : Z; minute : Z; second : Z; micro : Z }.
  Fixpoint pad (n : nat) (z : Z) : string := match n with O => "" | S m => (pad m (z / 10) ++ String (digit_char (z mod 10)) "")%string end.
  Definition isoformat (t : moment) : string :=
    (pad 4 (year t) ++ "-" ++ pad 2 (month t) ++ "-" ++ pad 2 (day t) ++ "T" ++ pad 2 (hour t) ++ ":" ++ pad 2 (minute t) ++ ":" ++ pad 2 (second t)
      ++ (if (micro t =? 0)%Z then "" else "." ++ pad 6 (micro t)))%string.
  (** caching.py:1042-1053: the time and a random number below ten million *)
  Definition fresh_name (owner ext : string) (t : moment) (random : Z) : string :=
    (lower owner ++ "-" ++ sha (isoformat t ++ show_Z random) ++ ext)%string.
End Key.
