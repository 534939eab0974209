(** Properties C21 and C61: utils/humanize.py.  Vocabulary: HumanizeSpec.v. *)
From Verif Require Import PyBase PyStr Humanize HumanizeSpec HumanizeProofs.

Local Open Scope string_scope.
Local Open Scope list_scope.
Local Open Scope Z_scope.

(** C21: as_bytes / as_seconds / as_percent return [z] exactly when the text is a
    decimal number meaning [z], or a decimal number with a unit word whose first
    letter is a unit of that table. *)
Theorem C21_bytes : forall s z none_ok,
  as_bytes (Some s) none_ok = Ok (Some z) <->
  (written s z [] \/ exists n u us f, written s n (u :: us) /\ byte_factor u f /\ z = n * f).
Proof. exact (as_number_ok byte_units byte_factor byte_table). Qed.
Theorem C21_seconds : forall s z none_ok,
  as_seconds (Some s) none_ok = Ok (Some z) <->
  (written s z [] \/ exists n u us f, written s n (u :: us) /\ second_factor u f /\ z = n * f).
Proof. exact (as_number_ok second_units second_factor second_table). Qed.
Theorem C21_percent : forall s z none_ok,
  as_percent (Some s) none_ok = Ok (Some z) <->
  (written s z [] \/ exists n u us f, written s n (u :: us) /\ percent_factor u f /\ z = n * f).
Proof. exact (as_number_ok percent_units percent_factor percent_table). Qed.

(** ... and everything else raises ValueError; None is accepted where allowed. *)
Theorem C21_otherwise : forall s none_ok,
  ((exists z, as_bytes (Some s) none_ok = Ok (Some z)) \/ as_bytes (Some s) none_ok = Raise ValueError) /\
  ((exists z, as_seconds (Some s) none_ok = Ok (Some z)) \/ as_seconds (Some s) none_ok = Raise ValueError) /\
  ((exists z, as_percent (Some s) none_ok = Ok (Some z)) \/ as_percent (Some s) none_ok = Raise ValueError).
Proof. intros s b. split; [|split]; apply as_number_total. Qed.
Theorem C21_none :
  as_bytes None true = Ok None /\ as_seconds None true = Ok None /\ as_percent None true = Ok None /\
  as_bytes None false = Raise ValueError /\ as_seconds None false = Raise ValueError /\
  as_percent None false = Raise ValueError.
Proof. repeat split. Qed.

(** The characters that are meant by white space, digits and word characters, and the value of digits. *)
Definition whites : list ascii := ["009"; "010"; "011"; "012"; "013"; "028"; "029"; "030"; "031"; " "]%char.
Definition digits : list ascii := ["0"; "1"; "2"; "3"; "4"; "5"; "6"; "7"; "8"; "9"]%char.
Definition words : list ascii := chars "0123456789ABCDEFGHIJKLMNOPQRSTUVWXYZ_abcdefghijklmnopqrstuvwxyz".
Theorem C21_characters : forall c,
  (is_space c = true <-> In c whites) /\ (is_digit c = true <-> In c digits) /\ (is_word c = true <-> In c words).
Proof.
  intros c. assert (E : forall l b, existsb (Ascii.eqb c) l = b -> b = true <-> In c l).
  { intros l b <-. rewrite existsb_exists. split; [intros (x & I & Q); apply Ascii.eqb_eq in Q; subst; exact I|]. intros I. exists c. split; [exact I|apply Ascii.eqb_refl]. }
  split; [|split]; apply E; destruct c as [[] [] [] [] [] [] [] []]; reflexivity.
Qed.
Theorem C21_value : (forall k c, nth_error digits k = Some c -> digits_val [c] = Z.of_nat k) /\
  forall ds c, digits_val (ds ++ [c]) = 10 * digits_val ds + digits_val [c].
Proof.
  split; [|intros ds c; unfold digits_val; rewrite fold_left_app; reflexivity].
  intros k c H. do 10 (destruct k as [|k]; [injection H as <-; reflexivity|]). destruct k; discriminate H.
Qed.

(** The meaning of a text is unique. *)
Theorem C21_unambiguous : forall s n u n' u', written s n u -> written s n' u' -> n = n' /\ u = u'.
Proof. exact written_fun. Qed.

(** Every non-negative integer printed in decimal, with any unit letter of the
    table, reads back as number times factor. *)
Theorem C21_printed : forall n u f none_ok, 0 <= n -> byte_factor u f ->
  as_bytes (Some (show_Z n)) none_ok = Ok (Some n) /\
  as_bytes (Some (show_Z n ++ String u "B")%string) none_ok = Ok (Some (n * f)).
Proof.
  intros n u f b Hn Hf. destruct (show_nonneg_ok n Hn) as (A & B & C).
  assert (chars (show_Z n) = show_nonneg n) as E.
  { unfold show_Z. destruct (Z.ltb_spec n 0); [lia|]. apply chars_of_chars. }
  split; apply C21_bytes.
  - left. eapply (written_intro _ _ _ [] (show_nonneg n) [] []); auto; try constructor.
    + rewrite E. cbn. rewrite app_nil_r. reflexivity.
  - right. exists n, u, ["B"%char], f. split; [|split; [exact Hf|reflexivity]].
    assert (HU : (is_word u = true \/ u = "%"%char) /\ is_digit u = false).
    { destruct Hf as (k & Hk & _ & H). destruct k as [|[|[|[|[|k]]]]]; [..|lia]; cbn in H;
        destruct H as [H|H]; inversion H; vm_compute; auto. }
    apply (written_intro _ _ _ [] (show_nonneg n) [] []).
    + rewrite chars_app, E. cbn. reflexivity.
    + constructor.
    + constructor.
    + constructor.
    + exact B.
    + exact A.
    + exact C.
    + constructor; [apply HU|]. constructor; [left; reflexivity|constructor].
    + right. apply HU.
    + discriminate.
Qed.

(** REFUTED reading of C21 "an unknown unit raises ValueError": only the first letter
    of the unit counts, so milliseconds are read as minutes. *)
Theorem C21_unknown_unit_refuted : exists s n, written s n (chars "ms") /\
  as_seconds (Some s) false = Ok (Some (n * 60)).
Proof.
  exists "5ms", 5. split; [exact (parse_sound "5ms" _ _ eq_refl)|reflexivity].
Qed.

(** C61: string_distance is the least number of one-character insertions, deletions
    and replacements turning one word into the other; it is a metric; did_you_mean
    returns a nearest vocabulary word. *)
Theorem C61_levenshtein : forall s t,
  edits (string_distance s t) (chars s) (chars t) /\
  forall n, edits n (chars s) (chars t) -> string_distance s t <= n.
Proof. exact distance_least. Qed.
Theorem C61_metric : forall s t u,
  0 <= string_distance s t /\
  (string_distance s t = 0 <-> s = t) /\
  string_distance s t = string_distance t s /\
  string_distance s u <= string_distance s t + string_distance t u.
Proof. exact distance_metric. Qed.
Theorem C61_nearest : forall word vocab best, did_you_mean word vocab = Ok best ->
  In best vocab /\ forall w, In w vocab -> string_distance word best <= string_distance word w.
Proof. exact did_you_mean_least. Qed.
Theorem C61_always_answers : forall word vocab, vocab <> [] -> exists best, did_you_mean word vocab = Ok best.
Proof. intros word [|v vocab] H; [contradiction|]. cbn. eauto. Qed.

(** C69: lists in messages: "??" when empty, otherwise every element in order, commas
    between all but the last two, the conjunction before the last. *)
Fixpoint commas (l : list string) : string :=
  match l with [] => "" | [a] => a | a :: r => a ++ ", " ++ commas r end%string.
Theorem C69_list_to_human : forall c,
  list_to_human [] c = "??"%string /\
  (forall a, list_to_human [a] c = a) /\
  (forall l z, l <> [] -> list_to_human (l ++ [z]) c = commas l ++ " " ++ c ++ " " ++ z)%string.
Proof.
  assert (J : forall l, join ", " l = commas l).
  { induction l as [|a [|b l] IH]; [reflexivity..|]. cbn in *. rewrite IH. reflexivity. }
  assert (A : forall x y w, ((x ++ y) ++ w = x ++ y ++ w)%string).
  { induction x as [|h x IH]; intros y w; cbn; [reflexivity|]. rewrite IH. reflexivity. }
  intros c. split; [reflexivity|]. split; [reflexivity|]. intros l z Hl. unfold list_to_human.
  destruct l as [|a l]; [contradiction|]. cbn [app].
  destruct (Z.ltb_spec 2 (Z.of_nat (List.length (a :: l ++ [z])))) as [H|H].
  - change (a :: l ++ [z]) with ((a :: l) ++ [z]). rewrite removelast_last, last_last, J.
    cbn [join String.concat]. rewrite !A. reflexivity.
  - destruct l as [|b l]; [|cbn in H; rewrite app_length in H; cbn in H; lia].
    cbn [app join String.concat commas]. rewrite !A. reflexivity.
Qed.

Print Assumptions C69_list_to_human.
Print Assumptions C21_characters.
Print Assumptions C21_value.
Print Assumptions C21_bytes.
Print Assumptions C21_otherwise.
Print Assumptions C21_printed.
Print Assumptions C61_levenshtein.
Print Assumptions C61_metric.
Print Assumptions C61_nearest.

Example C21_example_size : as_bytes (Some "  5 GB ") false = Ok (Some (5 * 1024 ^ 3)).
Proof. reflexivity. Qed.
Example C21_example_written : written "  5 GB " 5 (chars "GB").
Proof. exact (parse_sound "  5 GB " _ _ eq_refl). Qed.
Example C21_example_bad : as_bytes (Some "5.5GB") false = Raise ValueError /\ as_bytes (Some "-5") false = Raise ValueError.
Proof. split; reflexivity. Qed.
Example C61_example : string_distance "kitten" "sitting" = 3 /\
  did_you_mean "linaer" ["nearest"; "linear"; "nn"] = Ok "linear".
Proof. split; reflexivity. Qed.
