(** Model of the small helpers of the package: utils/temporary.py, sphinxext/module_output.py and the
    functions of utils/testing.py that tests rely on. *)
From Coq Require Import QArith Qabs.
From Verif Require Import PyBase PyStr Index.
Local Open Scope string_scope.
Local Open Scope list_scope.
Local Open Scope nat_scope.

(** ** Temporary files: utils/temporary.py *)

(** Files there are; the [path] of a TmpFile object (None once it is cleaned up). *)
Definition files := list string.
Definition unlink (p : string) (f : files) : result files :=
  if existsb (String.eqb p) f then Ok (filter (fun q => negb (String.eqb p q)) f) else Raise FileNotFoundError.
(** temporary.py:38-41 [cleanup]: the object, the files, and what it raises *)
Definition cleanup (t : option string) (f : files) : result unit * option string * files :=
  match t with
  | None => (Ok tt, None, f)
  | Some p => match unlink p f with Ok f' => (Ok tt, None, f') | Raise e => (Raise e, t, f) | OutOfFuel => (OutOfFuel, t, f) end
  end.
(** temporary.py:29-36: what may happen to an object: the end of its with-block, cleanup called, the
    object going away (Python ignores exceptions then), and others making and deleting files. *)
Inductive tmp_op := OExit | OCleanup | ODel | OMake (p : string) | ORemove (p : string).
Definition tmp_step (o : tmp_op) (t : option string) (f : files) : option string * files :=
  match o with
  | OExit | OCleanup | ODel => let '(_, t', f') := cleanup t f in (t', f')
  | OMake p => (t, if existsb (String.eqb p) f then f else f ++ [p])
  | ORemove p => (t, filter (fun q => negb (String.eqb p q)) f)
  end.
Fixpoint tmp_run (l : list tmp_op) (t : option string) (f : files) : option string * files :=
  match l with [] => (t, f) | o :: r => let '(t', f') := tmp_step o t f in tmp_run r t' f' end.
(** [with temp_file() as path: body]: mkstemp made [p], which was not there (temporary.py:44-58); an
    exception of __exit__ replaces the outcome of the body *)
Definition with_temp_file {A} (p : string) (body : files -> result A * files) (f : files) : result A * option string * files :=
  let '(r, f1) := body (f ++ [p]) in
  match cleanup (Some p) f1 with
  | (Ok _, t, f2) => (r, t, f2)
  | (Raise e, t, f2) => (Raise e, t, f2)
  | (OutOfFuel, t, f2) => (OutOfFuel, t, f2)
  end.

(** ** Output of modules in the documentation: sphinxext/module_output.py *)

(** A step ends well, raises an Exception, or raises what is none (SystemExit, KeyboardInterrupt). *)
Inductive outcome (A : Type) := Good (a : A) | Bad (e : exn) | Quit.
Arguments Good {A}. Arguments Bad {A}. Arguments Quit {A}.
(** sys.stdout (None: that of the process; Some: a StringIO with its text), what was printed by the
    process, the texts inserted in the document, the local variables [name] and [current_rst_file] *)
Record dst := mkDst { d_stdout : option string; d_printed : string; d_inserted : list string; d_name : option string; d_file : option string }.
Definition step_of (A : Type) := dst -> outcome A * dst.
Definition then_ {A B} (m : step_of A) (k : A -> step_of B) : step_of B :=
  fun s => match m s with (Good a, s1) => k a s1 | (Bad e, s1) => (Bad e, s1) | (Quit, s1) => (Quit, s1) end.
Definition give {A} (o : outcome A) : step_of A := fun s => (o, s).
(** try: m except Exception: h *)
Definition except_ (m : step_of unit) (h : exn -> step_of unit) : step_of unit :=
  fun s => match m s with (Bad e, s1) => h e s1 | r => r end.
(** try: m finally: f; f does not raise *)
Definition finally_ (m : step_of unit) (f : dst -> dst) : step_of unit := fun s => let '(o, s1) := m s in (o, f s1).
Definition set_stdout (o : option string) (s : dst) : dst := mkDst o (d_printed s) (d_inserted s) (d_name s) (d_file s).
Definition put (f : dst -> dst) : step_of unit := fun s => (Good tt, f s).
(** print(...) *)
Definition print (t : string) (s : dst) : dst :=
  match d_stdout s with
  | Some b => mkDst (Some (b ++ t)%string) (d_printed s) (d_inserted s) (d_name s) (d_file s)
  | None => mkDst None (d_printed s ++ t)%string (d_inserted s) (d_name s) (d_file s)
  end.
(** Python: s.split(" ") *)
Fixpoint split_on (l cur : list ascii) : list string :=
  match l with [] => [of_chars (rev cur)] | c :: r => if Ascii.eqb c " " then of_chars (rev cur) :: split_on r [] else split_on r (c :: cur) end.
Section ModuleOutput.
  (** input_lines.source(...); import of a module; its execute(...): what it printed and how it ended;
      insert_input; traceback.format_exc() *)
  Variable source : outcome string.
  Variable import : string -> outcome unit.
  Variable execute : string -> list string -> string * outcome unit.
  Variable insert : string -> outcome unit.
  Variable trace : exn -> string.
  Definition insert_input (t : string) : step_of unit :=
    then_ (give (insert t)) (fun _ => put (fun s => mkDst (d_stdout s) (d_printed s) (d_inserted s ++ [t]) (d_name s) (d_file s))).
  (** module_output.py:27-44 *)
  Definition try_block (content : list string) : step_of unit :=
    then_ (give source) (fun f =>
    then_ (put (fun s => mkDst (d_stdout s) (d_printed s) (d_inserted s) (d_name s) (Some f))) (fun _ =>
    then_ (give (match filter (fun x => negb (String.eqb x "")) content with [] => Bad IndexError | line :: _ => Good (split_on (chars line) []) end)) (fun args =>
    then_ (give (match args with [] => Bad IndexError | n :: r => Good (n, r) end)) (fun na =>
    then_ (put (fun s => mkDst (d_stdout s) (d_printed s) (d_inserted s) (Some (fst na)) (d_file s))) (fun _ =>
    then_ (give (import (replace1 "-" "_" (fst na)))) (fun _ =>
    then_ (put (set_stdout (Some ""))) (fun _ =>
    then_ (put (print (fst (execute (replace1 "-" "_" (fst na)) (snd na))))) (fun _ =>
    then_ (give (snd (execute (replace1 "-" "_" (fst na)) (snd na)))) (fun _ =>
    then_ (fun s => (match d_stdout s with Some b => Good b | None => Bad AttributeError end, s)) insert_input))))))))).
  (** module_output.py:46-49: a variable that has no value yet raises UnboundLocalError (here
      RuntimeError) *)
  Definition handler (e : exn) : step_of unit :=
    then_ (fun s => (match d_name s with Some n => Good n | None => Bad RuntimeError end, s)) (fun n =>
    then_ (fun s => (match d_file s with Some _ => Good tt | None => Bad RuntimeError end, s)) (fun _ =>
    insert_input (n ++ String "010"%char "" ++ trace e)%string)).
  (** module_output.py:23-52 [run]; assert_has_content raises if there is no content *)
  Definition run_directive (content : list string) : step_of unit :=
    fun s =>
      match content with
      | [] => (Bad ValueError, s)
      | _ => finally_ (except_ (try_block content) handler) (set_stdout (d_stdout s)) s
      end.
End ModuleOutput.

(** ** Data of the tests: utils/testing.py *)
Section TestData.
  (** requests.get(url) with raise_for_status; the root of the tests' files *)
  Variable serve : string -> result string.
  Variable root : string.
  Definition URL_ROOT : string := "https://sites.ecmwf.int/repository/earthkit-regrid/test-data".
  (** The files with their contents and the URLs that were asked for *)
  Record dstate := mkDs { s_files : list (string * string); s_urls : list string }.
  (** testing.py:33-38 [simple_download] *)
  Definition simple_download (url target : string) (s : dstate) : result unit * dstate :=
    let s := mkDs (s_files s) (s_urls s ++ [url]) in
    match serve url with
    | Ok c => (Ok tt, mkDs (aset target c (s_files s)) (s_urls s))
    | Raise e => (Raise e, s)
    | OutOfFuel => (OutOfFuel, s)
    end.
  (** testing.py:29-30, 49-52: the path of a file *)
  Definition data_path (subfolder fn : string) : string := join_path (join_path (join_path (join_path root "tests") "data") subfolder) fn.
  (** testing.py:48-54: the loop *)
  Fixpoint fetch_all (subfolder : string) (l : list string) (s : dstate) : result (list string) * dstate :=
    match l with
    | [] => (Ok [], s)
    | fn :: r =>
        let p := data_path subfolder fn in
        let '(o, s1) := if amem p (s_files s) then (Ok tt, s) else simple_download (URL_ROOT ++ "/" ++ subfolder ++ "/" ++ fn) p s in
        match o with
        | Ok _ => let '(o2, s2) := fetch_all subfolder r s1 in (ps <- o2 ;; Ok (p :: ps), s2)
        | Raise e => (Raise e, s1)
        | OutOfFuel => (OutOfFuel, s1)
        end
    end.
  (** testing.py:44-60 [get_test_data]: one name or a list; one path or a list *)
  Inductive one_or_many := One (s : string) | Many (l : list string).
  Definition get_test_data (filename : one_or_many) (subfolder : string) (s : dstate) : result one_or_many * dstate :=
    let l := match filename with One fn => [fn] | Many l => l end in
    let '(o, s1) := fetch_all subfolder l s in
    (ps <- o ;; Ok (match ps with [p] => One p | _ => Many ps end), s1).
End TestData.

(** ** Comparisons of the tests: utils/testing.py *)
Section Compare.
  Context {num : Type}.
  (** |a - b| <= atol + rtol * |b| as np.allclose has it (NaN is not close to itself) *)
  Variable close : num -> num -> bool.
  (** Values of a coordinate: strings, times or numbers, flattened, with their shape *)
  Inductive cvals := CStr (l : list string) | CTime (l : list Z) | CNum (l : list num).
  Record cdata := mkCd { cd_shape : list nat; cd_vals : cvals }.
  (** The reference: a list of strings or of others (flattened) *)
  Inductive refs := RStr (l : list string) | RTime (l : list Z) | RNum (l : list num).
  Record cds := mkCds { x_coords : list (string * cdata); x_sizes : list (string * nat); x_vars : list (string * list string) }.
  Definition len_ref (r : refs) : nat := match r with RStr l => List.length l | RTime l => List.length l | RNum l => List.length l end.
  Definition len_vals (v : cvals) : nat := match v with CStr l => List.length l | CTime l => List.length l | CNum l => List.length l end.
  Definition list_eqb {A} (eqb : A -> A -> bool) (a b : list A) : bool := (List.length a =? List.length b) && forallb (fun p => eqb (fst p) (snd p)) (combine a b).
  (** np.allclose(a, b) where [b] is [a] flattened: one dimension against itself; [r, c] against [r * c]
      numbers is refused by numpy unless r or c is one.  Simplified: at most two dimensions. *)
  Definition allclose_flat (sh : list nat) (l : list num) : result bool :=
    match sh with
    | [_] => Ok (forallb (fun x => close x x) l)
    | [r; c] =>
        if r =? 1 then Ok (forallb (fun x => close x x) l)
        else if c =? 1 then Ok (forallb (fun x => forallb (fun y => close x y) l) l)
        else Raise ValueError
    | _ => Raise NotImplementedError
    end.
  Definition assert_ (b : bool) : result unit := if b then Ok tt else Raise AssertionError.
  (** testing.py:114-136 [compare_coord]; values and reference of different types: numbers with times are
      not modelled *)
  Definition compare_coord (ds : cds) (name : string) (ref : refs) (dim : bool) : result unit :=
    match alookup name (x_coords ds) with
    | None => Raise AssertionError
    | Some c =>
        _ <- (if dim then match alookup name (x_sizes ds) with Some n => assert_ (n =? len_ref ref) | None => Raise AssertionError end else Ok tt) ;;
        if len_ref ref =? 0 then Raise IndexError
        else match ref, cd_vals c with
             | RStr l, CStr v => assert_ (list_eqb String.eqb v l)
             | RStr _, _ => Raise AssertionError
             | _, v =>
                 _ <- assert_ (len_vals v =? len_ref ref) ;;
                 match v, ref with
                 | CTime t, RTime l => assert_ (list_eqb Z.eqb t l)
                 | CNum x, RNum _ => b <- allclose_flat (cd_shape c) x ;; assert_ b
                 | _, _ => Raise NotImplementedError
                 end
             end
    end.
  (** testing.py:139-156 [compare_dim_order]; dims: a list, or a dictionary with its keys in order *)
  Definition compare_dim_order (ds : cds) (dims : list string) (var : option string) : result unit :=
    match var with
    | None => Ok tt
    | Some v =>
        match alookup v (x_vars ds) with
        | None => Raise KeyError
        | Some vd =>
            let order := filter (fun d => existsb (String.eqb d) dims) vd in
            _ <- assert_ (forallb (fun d => amem d (x_coords ds)) order) ;;
            assert_ (list_eqb String.eqb order dims)
        end
    end.
  (** testing.py:158-161 [compare_dim_size] *)
  Fixpoint compare_dim_size (ds : cds) (dims : list (string * nat)) : result unit :=
    match dims with
    | [] => Ok tt
    | (k, n) :: r => _ <- assert_ (match alookup k (x_sizes ds) with Some m => m =? n | None => false end) ;; compare_dim_size ds r
    end.
End Compare.

(** testing.py:84-97 [compare_global_ll_results] for the method nn, on rows of rational numbers of one
    length: np.testing.assert_allclose (atol 0) of the first and the last row with the first row of the
    reference, with rtol 10, of the others with the tolerance given *)
Definition close_to (rtol a b : Q) : bool := Qle_bool (Qabs (a - b)) (rtol * Qabs b).
Definition rows_close (rtol : Q) (a b : list Q) : bool := (List.length a =? List.length b) && forallb (fun p => close_to rtol (fst p) (snd p)) (combine a b).
Definition last_row (l : list (list Q)) : list Q := last l [].
Definition inner (l : list (list Q)) : list (list Q) := removelast (tl l).
Definition compare_nn (rtol : Q) (res ref : list (list Q)) : bool :=
  match res, ref with
  | a :: _, b :: _ => rows_close 10 a b && rows_close 10 (last_row res) b && rows_close rtol (List.concat (inner res)) (List.concat (inner ref))
  | _, _ => false
  end.
