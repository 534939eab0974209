(** Python strings, restricted to ASCII: character classes, [re]-style spans,
    decimal numbers.  Vocabulary, not a model of a particular file. *)
From Verif Require Import PyBase.

Local Open Scope list_scope.

Definition chars (s : string) : list ascii := list_ascii_of_string s.
Definition of_chars (l : list ascii) : string := string_of_list_ascii l.

Definition code (c : ascii) : Z := Z.of_N (N_of_ascii c).

(** [\s] of a Python str pattern: str.isspace on ASCII. *)
Definition is_space (c : ascii) : bool :=
  ((9 <=? code c) && (code c <=? 13)) || ((28 <=? code c) && (code c <=? 32)).
(** [\d] on ASCII. *)
Definition is_digit (c : ascii) : bool := (48 <=? code c) && (code c <=? 57).
Definition is_upper (c : ascii) : bool := (65 <=? code c) && (code c <=? 90).
Definition is_lower (c : ascii) : bool := (97 <=? code c) && (code c <=? 122).
Definition is_alpha (c : ascii) : bool := is_upper c || is_lower c.
(** [\w] on ASCII. *)
Definition is_word (c : ascii) : bool := is_alpha c || is_digit c || Ascii.eqb c "_".

(** str.upper / str.lower on one ASCII character. *)
Definition to_upper (c : ascii) : ascii :=
  if is_lower c then ascii_of_N (Z.to_N (code c - 32)) else c.
Definition to_lower (c : ascii) : ascii :=
  if is_upper c then ascii_of_N (Z.to_N (code c + 32)) else c.
Definition upper (s : string) : string := of_chars (map to_upper (chars s)).
Definition lower (s : string) : string := of_chars (map to_lower (chars s)).
(** s.replace(a, b) for one-character a and b. *)
Definition replace1 (a b : ascii) (s : string) : string :=
  of_chars (map (fun c => if Ascii.eqb c a then b else c) (chars s)).

(** Longest prefix of characters satisfying [p], and the rest. *)
Fixpoint span (p : ascii -> bool) (l : list ascii) : list ascii * list ascii :=
  match l with
  | [] => ([], [])
  | c :: r => if p c then let '(a, b) := span p r in (c :: a, b) else ([], l)
  end.

(** Value of a list of decimal digits, most significant first: int(...). *)
Definition digit_val (c : ascii) : Z := code c - 48.
Definition digits_val (l : list ascii) : Z := fold_left (fun a c => 10 * a + digit_val c) l 0.

(** str(n) for a non-negative and for any integer. *)
Definition digit_char (d : Z) : ascii := ascii_of_N (Z.to_N (48 + d)).
Fixpoint show_pos (fuel : nat) (n : Z) : list ascii :=
  match fuel with
  | O => []
  | S f => if n <? 10 then [digit_char n] else show_pos f (n / 10) ++ [digit_char (n mod 10)]
  end.
Definition show_nonneg (n : Z) : list ascii := show_pos (S (Z.to_nat (Z.log2 n))) n.
Definition show_Z (n : Z) : string :=
  if n <? 0 then String "-" (of_chars (show_nonneg (- n))) else of_chars (show_nonneg n).

(** s.startswith(p) *)
Fixpoint starts_with (p s : list ascii) : bool :=
  match p, s with
  | [], _ => true
  | a :: p', b :: s' => Ascii.eqb a b && starts_with p' s'
  | _, [] => false
  end.

(** ** Facts *)
Lemma chars_of_chars l : chars (of_chars l) = l.
Proof. apply list_ascii_of_string_of_list_ascii. Qed.
Lemma of_chars_chars s : of_chars (chars s) = s.
Proof. apply string_of_list_ascii_of_string. Qed.
Lemma chars_inj a b : chars a = chars b -> a = b.
Proof. intros H. rewrite <- (of_chars_chars a), <- (of_chars_chars b), H. reflexivity. Qed.
Lemma chars_app a b : chars (a ++ b)%string = chars a ++ chars b.
Proof. induction a as [|c a IH]; cbn; [reflexivity|]. unfold chars in IH. rewrite IH. reflexivity. Qed.

Lemma code_range c : 0 <= code c < 256.
Proof. unfold code. pose proof (N_ascii_bounded c). lia. Qed.
Lemma code_inj a b : code a = code b -> a = b.
Proof.
  unfold code. intros H. rewrite <- (ascii_N_embedding a), <- (ascii_N_embedding b). f_equal. lia.
Qed.
Lemma code_of_N n : (n < 256)%N -> code (ascii_of_N n) = Z.of_N n.
Proof. intros H. unfold code. rewrite N_ascii_embedding by exact H. reflexivity. Qed.
Lemma ascii_eqb_code a b : Ascii.eqb a b = (code a =? code b).
Proof.
  destruct (Ascii.eqb_spec a b) as [->|N]; [symmetry; apply Z.eqb_refl|].
  destruct (Z.eqb_spec (code a) (code b)) as [E|E]; [|reflexivity]. apply code_inj in E. contradiction.
Qed.

Lemma span_spec p l a b : span p l = (a, b) ->
  l = a ++ b /\ Forall (fun c => p c = true) a /\ match b with [] => True | c :: _ => p c = false end.
Proof.
  revert a b. induction l as [|c l IH]; intros a b; cbn; [intros H; inversion H; auto|].
  destruct (p c) eqn:E.
  - destruct (span p l) as [x y]. intros H. inversion H; subst.
    destruct (IH x b eq_refl) as (A & B & C). subst. split; [reflexivity|]. split; [constructor; assumption|exact C].
  - intros H. inversion H; subst. auto.
Qed.

Lemma span_app p a b : Forall (fun c => p c = true) a ->
  match b with [] => True | c :: _ => p c = false end -> span p (a ++ b) = (a, b).
Proof.
  induction 1 as [|c a H HF IH]; cbn; intros HB.
  - destruct b as [|c b]; [reflexivity|]. cbn. rewrite HB. reflexivity.
  - rewrite H, (IH HB). reflexivity.
Qed.

Lemma digit_char_code d : 0 <= d < 10 -> code (digit_char d) = 48 + d.
Proof. intros H. unfold digit_char. rewrite code_of_N by lia. lia. Qed.
Lemma digit_char_digit d : 0 <= d < 10 -> is_digit (digit_char d) = true.
Proof. intros H. unfold is_digit. rewrite digit_char_code by lia. lia. Qed.

Lemma digits_val_snoc l c : digits_val (l ++ [c]) = 10 * digits_val l + digit_val c.
Proof. unfold digits_val. rewrite fold_left_app. reflexivity. Qed.

Lemma show_pos_ok fuel n : 0 <= n < 2 ^ Z.of_nat fuel -> (0 < fuel)%nat ->
  Forall (fun c => is_digit c = true) (show_pos fuel n) /\ show_pos fuel n <> [] /\
  digits_val (show_pos fuel n) = n.
Proof.
  revert n. induction fuel as [|f IH]; intros n Hn Hf; [lia|]. cbn [show_pos].
  destruct (Z.ltb_spec n 10) as [H|H].
  - split; [constructor; [apply digit_char_digit; lia|constructor]|]. split; [discriminate|].
    unfold digits_val. cbn. unfold digit_val. rewrite digit_char_code by lia. lia.
  - rewrite Nat2Z.inj_succ, Z.pow_succ_r in Hn by lia.
    assert (0 <= n / 10 < 2 ^ Z.of_nat f) as HD.
    { split; [apply Z.div_pos; lia|]. apply Z.div_lt_upper_bound; lia. }
    assert (0 < f)%nat as Hf'.
    { destruct f; [|lia]. cbn in HD. assert (1 <= n / 10) by (apply Z.div_le_lower_bound; lia). lia. }
    destruct (IH _ HD Hf') as (A & B & C).
    pose proof (Z.mod_pos_bound n 10 ltac:(lia)) as HM.
    split; [apply Forall_app; split; [exact A|constructor; [apply digit_char_digit; lia|constructor]]|].
    split; [destruct (show_pos f (n / 10)); discriminate|].
    rewrite digits_val_snoc, C. unfold digit_val. rewrite digit_char_code by lia.
    pose proof (Z.div_mod n 10 ltac:(lia)). lia.
Qed.

Lemma show_nonneg_ok n : 0 <= n ->
  Forall (fun c => is_digit c = true) (show_nonneg n) /\ show_nonneg n <> [] /\
  digits_val (show_nonneg n) = n.
Proof.
  intros H. unfold show_nonneg. apply show_pos_ok; [|lia].
  split; [exact H|]. rewrite Nat2Z.inj_succ, Z2Nat.id by apply Z.log2_nonneg.
  destruct (Z.eq_dec n 0) as [->|N]; [cbn; lia|]. apply Z.log2_spec. lia.
Qed.

Lemma show_nonneg_inj a b : 0 <= a -> 0 <= b -> show_nonneg a = show_nonneg b -> a = b.
Proof.
  intros Ha Hb H. destruct (show_nonneg_ok a Ha) as (_ & _ & A), (show_nonneg_ok b Hb) as (_ & _ & B).
  congruence.
Qed.

Lemma show_Z_inj a b : show_Z a = show_Z b -> a = b.
Proof.
  assert (cc : forall l, list_ascii_of_string (of_chars l) = l) by (intros; apply chars_of_chars).
  unfold show_Z. destruct (Z.ltb_spec a 0), (Z.ltb_spec b 0); intros E.
  - inversion E as [E1]. apply (f_equal chars) in E1. rewrite !chars_of_chars in E1.
    apply show_nonneg_inj in E1; lia.
  - apply (f_equal list_ascii_of_string) in E. cbn [chars list_ascii_of_string] in E. rewrite !cc in E.
    destruct (show_nonneg_ok b ltac:(lia)) as (A & B & C). rewrite <- E in A. inversion A as [|? ? X]. discriminate X.
  - apply (f_equal list_ascii_of_string) in E. cbn [chars list_ascii_of_string] in E. rewrite !cc in E.
    destruct (show_nonneg_ok a ltac:(lia)) as (A & B & C). rewrite E in A. inversion A as [|? ? X]. discriminate X.
  - apply (f_equal chars) in E. rewrite !chars_of_chars in E. apply show_nonneg_inj in E; lia.
Qed.
