(** What a stream of values looks like on the wire, said without the code:
    a tag byte, then the value, big-endian (the double excepted, whose two words
    come low word first). *)
From Verif Require Import PyBase Stream.
Local Open Scope list_scope.
Local Open Scope Z_scope.

Definition word (n : Z) : bytes := [n / 2 ^ 24; n / 2 ^ 16 mod 256; n / 2 ^ 8 mod 256; n mod 256].

Definition wire (v : value) : bytes :=
  match v with
  | VChar c => 3 :: c
  | VUChar c => 4 :: c
  | VInt n => 5 :: word n
  | VUInt n => 6 :: word n
  | VLong n => 9 :: word n
  | VULong n => 10 :: word n
  | VLongLong n => 11 :: word n
  | VULongLong n => 12 :: word (n / 2 ^ 32) ++ word (n mod 2 ^ 32)
  | VDouble b => 14 :: word (b mod 2 ^ 32) ++ word (b / 2 ^ 32)
  | VString s => 15 :: word (Z.of_nat (List.length s)) ++ s
  end.
Definition wires (l : list (nat * value)) : bytes :=
  flat_map (fun nv => repeat 2 (fst nv) ++ wire (snd nv)) l.

(** the values for which both methods exist and that they can carry *)
Definition carried (v : value) : Prop :=
  match v with
  | VChar c | VUChar c => List.length c = 1%nat
  | VInt n | VUInt n | VLong n | VULong n | VULongLong n => 0 <= n < 2 ^ 32
  | VString s => Z.of_nat (List.length s) < 2 ^ 32
  | VLongLong _ | VDouble _ => False
  end.

(** the values a type of the stream has *)
Definition of_type (v : value) : Prop :=
  match v with
  | VChar c | VUChar c => List.length c = 1%nat
  | VInt n | VLong n => - 2 ^ 31 <= n < 2 ^ 31
  | VUInt n | VULong n => 0 <= n < 2 ^ 32
  | VLongLong n => - 2 ^ 63 <= n < 2 ^ 63
  | VULongLong n | VDouble n => 0 <= n < 2 ^ 64
  | VString s => Z.of_nat (List.length s) < 2 ^ 32
  end.

Definition number (v : value) : Prop :=
  match v with
  | VInt _ | VUInt _ | VLong _ | VULong _ | VULongLong _ => True
  | _ => False
  end.

Definition strict_prefix (p w : bytes) : Prop := exists q, q <> [] /\ w = p ++ q.

(** a string or character cut short *)
Definition cut (v v' : value) : Prop :=
  match v, v' with
  | VChar c, VChar c' | VUChar c, VUChar c' | VString c, VString c' => strict_prefix c' c
  | _, _ => False
  end.
