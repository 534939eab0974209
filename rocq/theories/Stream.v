(** Model of utils/stream.py: the tagged byte streams that MIR reads and writes.

    A byte is an integer, a file that is read is the list of the bytes not read
    yet, a file that is written is the list of the bytes written so far.  A Python
    [bytes] object is a list of bytes. *)
From Verif Require Import PyBase.
Local Open Scope list_scope.
Local Open Scope Z_scope.

Definition bytes := list Z.

(** ** Reading and writing the file *)

(** stream.py:66-67 [_read]: [file.read(n)] gives the next [n] bytes, or those that
    are left when there are fewer.  CPython refuses a count above [sys.maxsize]
    (OverflowError).  Simplified: running out of memory is not modelled. *)
Fixpoint ztake (n : Z) (s : bytes) : bytes :=
  match s with
  | [] => []
  | b :: r => if n <=? 0 then [] else b :: ztake (n - 1) r
  end.
Fixpoint zdrop (n : Z) (s : bytes) : bytes :=
  match s with
  | [] => []
  | b :: r => if n <=? 0 then s else zdrop (n - 1) r
  end.
Definition read_ (n : Z) (s : bytes) : result (bytes * bytes) :=
  if n <? 2 ^ 63 then Ok (ztake n s, zdrop n s) else Raise OverflowError.

Definition zlen (s : bytes) : Z := Z.of_nat (List.length s).

(** What a writing call leaves: its outcome, and all that is in the file. *)
Definition writer := bytes -> result unit * bytes.
Definition wseq (w1 w2 : writer) : writer := fun out =>
  match w1 out with
  | (Ok _, out1) => w2 out1
  | other => other
  end.
Notation "w1 ;;; w2" := (wseq w1 w2) (at level 62, right associativity).
Definition wfail (e : exn) : writer := fun out => (Raise e, out).

(** stream.py:69-71 [_write]; [None] is the missing [nbytes]. *)
Definition write_ (n : bytes) (nbytes : option Z) : writer := fun out =>
  match nbytes with
  | Some k => if (k =? 0) || (k =? zlen n) then (Ok tt, out ++ n) else (Raise AssertionError, out)
  | None => (Ok tt, out ++ n)
  end.

(** ** struct.pack and struct.unpack (stream.py:11-12) *)

(** The [k] bytes of [n], most significant first. *)
Fixpoint be (k : nat) (n : Z) : bytes :=
  match k with
  | O => []
  | S k' => be k' (n / 256) ++ [n mod 256]
  end.
Definition unbe (s : bytes) : Z := fold_left (fun acc b => 256 * acc + b) s 0.

(** [pack("!L", n)] *)
Definition pack_L (n : Z) : result bytes :=
  if (0 <=? n) && (n <? 2 ^ 32) then Ok (be 4 n) else Raise StructError.
(** [unpack("!L", s)[0]] and [unpack("!Q", s)[0]]: struct.error unless the length is right. *)
Definition unpack_L (s : bytes) : result Z :=
  if zlen s =? 4 then Ok (unbe s) else Raise StructError.
Definition unpack_Q (s : bytes) : result Z :=
  if zlen s =? 8 then Ok (unbe s) else Raise StructError.

(** [self._write(pack("!L", n), 4)] *)
Definition write_L (n : Z) : writer := fun out =>
  match pack_L n with
  | Ok b => write_ b (Some 4) out
  | Raise e => (Raise e, out)
  | OutOfFuel => (OutOfFuel, out)
  end.

(** ** Tags: stream.py:14-59 *)
Definition TAG_START_OBJ := 1.
Definition TAG_END_OBJ := 2.
Definition TAG_CHAR := 3.
Definition TAG_UNSIGNED_CHAR := 4.
Definition TAG_INT := 5.
Definition TAG_UNSIGNED_INT := 6.
Definition TAG_LONG := 9.
Definition TAG_UNSIGNED_LONG := 10.
Definition TAG_LONG_LONG := 11.
Definition TAG_UNSIGNED_LONG_LONG := 12.
Definition TAG_DOUBLE := 14.
Definition TAG_STRING := 15.
Definition TAG_LARGE_BLOB := 21.
(** len(TAG_NAME): the table stops at "end of record" = 19 *)
Definition N_TAG_NAME := 20.

(** stream.py:77-80, the loop: skip "end of object" tags.  [None] is the empty
    [bytes] that [tag] is left with when the file ends inside the loop. *)
Fixpoint skip_end_obj (s : bytes) : option Z * bytes :=
  match s with
  | [] => (None, [])
  | t :: r => if t =? TAG_END_OBJ then skip_end_obj r else (Some t, r)
  end.

(** stream.py:73-90 [read_tag].
    - line 75: [ord(b"")] is a TypeError;
    - line 85: when the file ended inside the loop, [b"" < 20] is a TypeError;
    - line 86: building the message indexes TAG_NAME with both tags: IndexError
      when the wanted one is not in the table. *)
Definition read_tag (expected_tag : Z) (s : bytes) : result bytes :=
  match s with
  | [] => Raise TypeError
  | _ =>
      match skip_end_obj s with
      | (None, _) => Raise TypeError
      | (Some tag, r) =>
          if negb (tag =? expected_tag) then
            if tag <? N_TAG_NAME then
              if expected_tag <? N_TAG_NAME then Raise RuntimeError else Raise IndexError
            else Raise RuntimeError
          else Ok r
      end
  end.

(** stream.py:92-93 [write_tag]; every tag of the table fits "b" *)
Definition write_tag (tag : Z) : writer := write_ [tag] (Some 1).

(** ** Writing: stream.py:113-163, 219-223, 231-237 *)
Definition write_char (c : bytes) : writer := write_tag TAG_CHAR ;;; write_ c (Some 1).
Definition write_unsigned_char (c : bytes) : writer := write_tag TAG_UNSIGNED_CHAR ;;; write_ c (Some 1).
Definition write_int (n : Z) : writer := write_tag TAG_INT ;;; write_L n.
Definition write_unsigned_int (n : Z) : writer := write_tag TAG_UNSIGNED_INT ;;; write_L n.
Definition write_long (n : Z) : writer := write_tag TAG_LONG ;;; write_L n.
Definition write_unsigned_long (n : Z) : writer := write_tag TAG_UNSIGNED_LONG ;;; write_L n.
Definition write_long_long (n : Z) : writer := write_tag TAG_LONG_LONG ;;; write_L n.
Definition write_unsigned_long_long (n : Z) : writer :=
  write_tag TAG_UNSIGNED_LONG_LONG ;;; write_L 0 ;;; write_L n.

(** stream.py:133-137 [write_double].  A number is the 64-bit pattern of its
    double; [None] is an object that [pack("!d", n)] refuses (struct.error). *)
Definition write_double (n : option Z) : writer :=
  write_tag TAG_DOUBLE ;;;
  match n with
  | None => wfail StructError
  | Some bits =>
      let p := be 8 bits in
      let x := unbe (ztake 4 p) in
      let y := unbe (zdrop 4 p) in
      fun out => match pack_L y with
                 | Ok b => (write_ b None ;;;
                            fun out => match pack_L x with
                                       | Ok b => write_ b None out
                                       | Raise e => (Raise e, out)
                                       | OutOfFuel => (OutOfFuel, out)
                                       end) out
                 | Raise e => (Raise e, out)
                 | OutOfFuel => (OutOfFuel, out)
                 end
  end.

(** stream.py:159-163 [write_string] *)
Definition write_string (s : bytes) : writer :=
  write_tag TAG_STRING ;;; write_L (zlen s) ;;; write_ s (Some (zlen s)).

(** stream.py:219-223 and 231-237 *)
Definition start_object : writer := write_tag TAG_START_OBJ.
Definition end_object : writer := write_tag TAG_END_OBJ.
Definition write_object (name ref : bytes) : writer :=
  start_object ;;; write_string name ;;; write_string ref ;;; end_object.

(** ** Reading: stream.py:165-217 *)
Definition read_bytes1 (tag : Z) (s : bytes) : result (bytes * bytes) :=
  r <- read_tag tag s ;; read_ 1 r.
Definition read_char := read_bytes1 TAG_CHAR.
Definition read_unsigned_char := read_bytes1 TAG_UNSIGNED_CHAR.

Definition read_L (tag : Z) (s : bytes) : result (Z * bytes) :=
  r <- read_tag tag s ;;
  br <- read_ 4 r ;;
  n <- unpack_L (fst br) ;;
  Ok (n, snd br).
Definition read_int := read_L TAG_INT.
Definition read_unsigned_int := read_L TAG_UNSIGNED_INT.
Definition read_long := read_L TAG_LONG.
Definition read_unsigned_long := read_L TAG_UNSIGNED_LONG.

Definition read_double (s : bytes) : result (Z * bytes) :=
  _ <- read_tag TAG_DOUBLE s ;; Raise RuntimeError.
Definition read_long_long (s : bytes) : result (Z * bytes) :=
  _ <- read_tag TAG_LONG_LONG s ;; Raise RuntimeError.

Definition read_unsigned_long_long (s : bytes) : result (Z * bytes) :=
  r <- read_tag TAG_UNSIGNED_LONG_LONG s ;;
  br <- read_ 8 r ;;
  n <- unpack_Q (fst br) ;;
  Ok (n, snd br).

(** stream.py:209-212 *)
Definition read_string (s : bytes) : result (bytes * bytes) :=
  r <- read_tag TAG_STRING s ;;
  br <- read_ 4 r ;;
  n <- unpack_L (fst br) ;;
  read_ n (snd br).

(** stream.py:214-217 *)
Definition read_large_blob (s : bytes) : result (bytes * bytes) :=
  r <- read_tag TAG_LARGE_BLOB s ;;
  br <- read_ 8 r ;;
  n <- unpack_Q (fst br) ;;
  read_ n (snd br).

(** stream.py:95-111 [next_object].  It reads with [recv], a method of sockets that the files
    given to Stream (and BytesIO) do not have; [recv] says whether the stream has one.  At the
    end of the data [recv(1)] is [b""], which is not equal to [""], and unpacking it is a
    struct.error.  "b" is a signed byte; a negative tag indexes TAG_NAME from its end. *)
Definition next_object (recv : bool) (s : bytes) : result bytes :=
  if negb recv then Raise AttributeError
  else match s with
       | [] => Raise StructError
       | t :: r =>
           let tag := if t <? 128 then t else t - 256 in
           if tag =? TAG_START_OBJ then Ok r
           else if tag <? N_TAG_NAME then
                  if - N_TAG_NAME <=? tag then Raise RuntimeError else Raise IndexError
                else Raise RuntimeError
       end.
(** stream.py:225-229 [read_object]; [next_object] never returns 0 *)
Definition read_object (recv : bool) (s : bytes) : result (bytes * bytes) :=
  r <- next_object recv s ;; read_string r.

(** ** A program that writes values, and the one that reads them back *)
Inductive value :=
| VChar (c : bytes) | VUChar (c : bytes)
| VInt (n : Z) | VUInt (n : Z) | VLong (n : Z) | VULong (n : Z)
| VLongLong (n : Z) | VULongLong (n : Z)
| VDouble (bits : Z) | VString (s : bytes).
Inductive kind := KChar | KUChar | KInt | KUInt | KLong | KULong | KLongLong | KULongLong | KDouble | KString.
Definition kind_of (v : value) : kind :=
  match v with
  | VChar _ => KChar | VUChar _ => KUChar | VInt _ => KInt | VUInt _ => KUInt
  | VLong _ => KLong | VULong _ => KULong | VLongLong _ => KLongLong
  | VULongLong _ => KULongLong | VDouble _ => KDouble | VString _ => KString
  end.

(** the method of [Stream] that writes, and the one that reads, a value of each kind *)
Definition write_value (v : value) : writer :=
  match v with
  | VChar c => write_char c
  | VUChar c => write_unsigned_char c
  | VInt n => write_int n
  | VUInt n => write_unsigned_int n
  | VLong n => write_long n
  | VULong n => write_unsigned_long n
  | VLongLong n => write_long_long n
  | VULongLong n => write_unsigned_long_long n
  | VDouble b => write_double (Some b)
  | VString s => write_string s
  end.
Definition vmap {A} (f : A -> value) (r : result (A * bytes)) : result (value * bytes) :=
  ab <- r ;; Ok (f (fst ab), snd ab).
Definition read_value (k : kind) (s : bytes) : result (value * bytes) :=
  match k with
  | KChar => vmap VChar (read_char s)
  | KUChar => vmap VUChar (read_unsigned_char s)
  | KInt => vmap VInt (read_int s)
  | KUInt => vmap VUInt (read_unsigned_int s)
  | KLong => vmap VLong (read_long s)
  | KULong => vmap VULong (read_unsigned_long s)
  | KLongLong => vmap VLongLong (read_long_long s)
  | KULongLong => vmap VULongLong (read_unsigned_long_long s)
  | KDouble => vmap VDouble (read_double s)
  | KString => vmap VString (read_string s)
  end.

(** Each value may follow any number of ends of objects. *)
Fixpoint end_objects (n : nat) : writer :=
  match n with
  | O => fun out => (Ok tt, out)
  | S n' => end_object ;;; end_objects n'
  end.
Fixpoint write_values (l : list (nat * value)) : writer :=
  match l with
  | [] => fun out => (Ok tt, out)
  | (n, v) :: r => end_objects n ;;; write_value v ;;; write_values r
  end.
Fixpoint read_values (l : list kind) (s : bytes) : result (list value * bytes) :=
  match l with
  | [] => Ok ([], s)
  | k :: r => vs <- read_value k s ;;
              more <- read_values r (snd vs) ;;
              Ok (fst vs :: fst more, snd more)
  end.
