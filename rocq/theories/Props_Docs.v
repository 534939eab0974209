(** C113: the pages of options in the documentation. *)
From Verif Require Import PyBase ListLemmas PyStr Index Docs.
From Verif Require Config ConfigProofs2.
Local Open Scope string_scope.
Local Open Scope list_scope.
Local Open Scope nat_scope.

(** ** What tidying a text means *)
(** [u] is in [s] *)
Definition has (u s : list ascii) : Prop := exists a b, s = a ++ u ++ b.
(** All occurrences of [u], from the left, replaced by [v] *)
Inductive subst (u v : list ascii) : list ascii -> list ascii -> Prop :=
| sub_none s : ~ has u s -> subst u v s s
| sub_one a b y : (forall a' b', a ++ u ++ b = a' ++ u ++ b' -> List.length a <= List.length a') -> subst u v b y -> subst u v (a ++ u ++ b) (a ++ v ++ y).
(** The home directory written as a tilde *)
Inductive shortened (home : list ascii) : list ascii -> list ascii -> Prop :=
| sh_home r : shortened home (home ++ r) ("~"%char :: "/"%char :: r)
| sh_other s : (forall r, s <> home ++ r) -> shortened home s s.
Inductive tidied (home user : string) : doc -> doc -> Prop :=
| td_str s m t : shortened (chars home) (chars s) m -> subst ("-"%char :: chars user) (chars "-${USER}") m (chars t) -> tidied home user (DStr s) (DStr t)
| td_list l l' : Forall2 (tidied home user) l l' -> tidied home user (DList l) (DList l')
| td_tup l l' : Forall2 (tidied home user) l l' -> tidied home user (DTup l) (DList l')
| td_dict l l' : Forall2 (fun p q => fst p = fst q /\ tidied home user (snd p) (snd q)) l l' -> tidied home user (DDict l) (DDict l')
| td_none : tidied home user DNone DNone
| td_bool b : tidied home user (DBool b) (DBool b)
| td_int z : tidied home user (DInt z) (DInt z).

(** ** Facts about texts *)
Lemma starts_iff p s : starts_with p s = true <-> exists r, s = p ++ r.
Proof.
  revert s. induction p as [|a p IH]; intros s; cbn; [split; eauto|]. destruct s as [|b s]; [split; [discriminate|intros (r & Q); discriminate Q]|].
  rewrite andb_true_iff, IH. split; [intros (E & r & ->); apply Ascii.eqb_eq in E; subst; eauto|]. intros (r & Q). injection Q as -> ->. rewrite Ascii.eqb_refl. eauto.
Qed.
Lemma contains_iff u s : contains u s = true <-> has u s.
Proof.
  induction s as [|c s IH]; cbn [contains].
  - rewrite orb_false_r, starts_iff. split; [intros (r & ->); exists [], r; reflexivity|]. intros (a & b & Q). symmetry in Q. destruct (app_eq_nil _ _ Q) as [-> Q1]. exists b. symmetry. exact Q1.
  - rewrite orb_true_iff, starts_iff, IH. split.
    + intros [(r & Q)|(a & b & ->)]; [exists [], r; exact Q|exists (c :: a), b; reflexivity].
    + intros ([|d a] & b & Q); [left; exists b; exact Q|]. injection Q as -> ->. right. exists a, b. reflexivity.
Qed.
Lemma replace_skip u v k s : replace u v k s = replace u v 0 (skipn k s).
Proof. revert k. induction s as [|c s IH]; intros [|k]; try reflexivity. cbn [replace skipn]. apply IH. Qed.
Lemma replace_none u v s : contains u s = false -> replace u v 0 s = s.
Proof. induction s as [|c s IH]; cbn [contains replace]; [reflexivity|]. intros C. apply orb_false_iff in C. destruct C as [C1 C2]. rewrite C1, (IH C2). reflexivity. Qed.
Lemma replace_one u v s : u <> [] -> contains u s = true ->
  exists a b, s = a ++ u ++ b /\ (forall a' b', a ++ u ++ b = a' ++ u ++ b' -> List.length a <= List.length a') /\ replace u v 0 s = a ++ v ++ replace u v 0 b.
Proof.
  intros NU. induction s as [|c s IH]; intros C.
  - cbn in C. rewrite orb_false_r in C. destruct u; [congruence|discriminate C].
  - cbn [contains] in C. destruct (starts_with u (c :: s)) eqn:S.
    + apply starts_iff in S. destruct S as (b & Q). exists [], b. split; [exact Q|]. split; [cbn; lia|].
      cbn [replace]. assert (S : starts_with u (c :: s) = true) by (apply starts_iff; eauto). rewrite S, replace_skip. cbn [app]. do 2 f_equal.
      destruct u as [|d u]; [congruence|]. injection Q as -> ->. cbn [List.length Nat.sub]. rewrite Nat.sub_0_r, skipn_app, skipn_all, Nat.sub_diag. reflexivity.
    + cbn in C. destruct (IH C) as (a & b & -> & L & R). exists (c :: a), b. split; [reflexivity|]. split; [|cbn [replace]; rewrite S, R; reflexivity].
      intros a' b' Q. destruct a' as [|d a']; [exfalso|cbn in Q; injection Q as _ Q; cbn; apply le_n_S, (L _ _ Q)].
      assert (S' : starts_with u (c :: a ++ u ++ b) = true) by (apply starts_iff; exists b'; exact Q). congruence.
Qed.
Lemma replaced u v s : u <> [] -> subst u v s (replace u v 0 s).
Proof.
  intros NU. remember (List.length s) as n eqn:N. assert (N' : List.length s <= n) by lia. clear N. revert s N'. induction n as [|n IH]; intros s N.
  - destruct s; [|cbn in N; lia]. cbn. apply sub_none. intros (a & b & Q). symmetry in Q. apply app_eq_nil in Q. destruct Q as [_ Q]. apply app_eq_nil in Q. destruct Q as [Q _]. contradiction.
  - destruct (contains u s) eqn:C.
    + destruct (replace_one u v s NU C) as (a & b & -> & L & R). rewrite R. apply sub_one; [exact L|]. apply IH. rewrite !app_length in N. destruct u; [congruence|cbn in N; lia].
    + rewrite replace_none by exact C. apply sub_none. rewrite <- contains_iff, C. discriminate.
Qed.
(** A text without the character c lies before or behind it *)
Lemma beside {X} (p u q w r : list X) c : ~ In c u -> u <> [] -> p ++ u ++ q = w ++ c :: r -> (exists t, w = p ++ u ++ t) \/ (exists t, p = w ++ c :: t).
Proof.
  intros N NE. revert w. induction p as [|x p IH]; intros w Q; cbn in Q.
  - left. revert w Q. clear NE. induction u as [|y u IU]; intros w Q; [exists w; reflexivity|]. destruct w as [|z w]; cbn in Q; injection Q as -> Q; [exfalso; apply N; left; reflexivity|].
    destruct (IU (fun I => N (or_intror I)) w Q) as (t & ->). exists t. reflexivity.
  - destruct w as [|z w]; cbn in Q; injection Q as -> Q; [right; exists p; reflexivity|]. destruct (IH w Q) as [(t & ->)|(t & ->)]; [left|right]; exists t; reflexivity.
Qed.

Section Good.
  Variables home user : string.
  Hypothesis home_slash : exists h, chars home = h ++ ["/"%char].
  Hypothesis home_tilde : forall r, chars home <> "~"%char :: r.
  Hypothesis home_plain : ~ In "$"%char (chars home).
  Hypothesis user_plain : ~ In "$"%char (chars user).
  Hypothesis user_some : user <> "".
  Notation u := ("-"%char :: chars user).
  Notation v := (chars "-${USER}").

  Lemma user_chars : chars user <> [].
  Proof. intros Q. apply user_some, chars_inj. exact Q. Qed.
  Lemma u_plain : ~ In "$"%char u.
  Proof. intros [Q|I]; [discriminate Q|contradiction]. Qed.
  Lemma subst_free z y : subst u v z y -> ~ has u y.
  Proof.
    intros S. induction S as [s N|a b y L S IH]; [exact N|]. intros (p & q & Q).
    change (chars "-${USER}") with ("-"%char :: "$"%char :: chars "{USER}") in Q. rewrite <- app_comm_cons in Q.
    change (a ++ "-"%char :: ("$"%char :: chars "{USER}") ++ y) with (a ++ "-"%char :: ("$"%char :: (chars "{USER}" ++ y))) in Q.
    assert (Q' : p ++ u ++ q = (a ++ ["-"%char]) ++ "$"%char :: (chars "{USER}" ++ y)) by (rewrite <- app_assoc; symmetry; exact Q).
    destruct (beside p u q _ _ "$"%char u_plain ltac:(discriminate) Q') as [(t & T)|(t & T)].
    - assert (E : a ++ u ++ b = p ++ u ++ (t ++ chars user ++ b)).
      { change (a ++ u ++ b) with (a ++ ["-"%char] ++ (chars user ++ b)). rewrite app_assoc, T, <- !app_assoc. reflexivity. }
      specialize (L _ _ E). apply (f_equal (@List.length ascii)) in T. rewrite !app_length in T. cbn in T. pose proof user_chars. destruct (chars user) eqn:CU; [congruence|]. cbn in T. lia.
    - rewrite T, <- app_assoc in Q'. apply app_inv_head in Q'. cbn in Q'. injection Q' as Q'.
      apply IH. assert (D : exists t', t = chars "{USER}" ++ t').
      { clear - Q'. cbn in Q'. destruct t as [|c0 t]; [discriminate Q'|]. cbn in Q'. injection Q' as -> Q'. do 5 (destruct t as [|? t]; [discriminate Q'|cbn in Q'; injection Q' as -> Q']). exists t. reflexivity. }
      destruct D as (t' & ->). cbn in Q'. injection Q' as Q'. exists t', q. symmetry. exact Q'.
  Qed.
  Lemma subst_home z y : subst u v z y -> (forall r, z <> chars home ++ r) -> forall r, y <> chars home ++ r.
  Proof.
    intros S N. destruct S as [s N0|a b y L S]; [exact N|]. intros r Q.
    change (chars "-${USER}") with ("-"%char :: "$"%char :: chars "{USER}") in Q.
    assert (NE : chars home <> []) by (destruct home_slash as (h & ->); destruct h; discriminate).
    assert (Q' : [] ++ chars home ++ r = (a ++ ["-"%char]) ++ "$"%char :: (chars "{USER}" ++ y)) by (rewrite <- app_assoc; cbn; symmetry; exact Q).
    destruct (beside [] (chars home) r _ _ "$"%char home_plain NE Q') as [(t & T)|(t & T)].
    - apply (N (t ++ chars user ++ b)). change (a ++ u ++ b) with (a ++ ["-"%char] ++ (chars user ++ b)). rewrite app_assoc, T, <- !app_assoc. reflexivity.
    - destruct a; discriminate T.
  Qed.
  Lemma tilde_home s : forall r, "~"%char :: "/"%char :: s <> chars home ++ r.
  Proof.
    intros r Q. destruct (chars home) as [|c h] eqn:E; [destruct home_slash as (h & Q'); destruct h; discriminate Q'|].
    cbn in Q. injection Q as <- _. exact (home_tilde h eq_refl).
  Qed.

  Notation tidy := (tidy home user).
  Lemma tidy_plain n s : (forall r, chars s <> chars home ++ r) -> ~ has u (chars s) -> tidy (S n) (DStr s) = Ok (DStr s).
  Proof.
    intros H C. cbn [Docs.tidy]. destruct (starts_with (chars home) (chars s)) eqn:A; [apply starts_iff in A; destruct A as (r & A); elim (H r A)|].
    change (chars ("-" ++ user)) with u. destruct (contains u (chars s)) eqn:B; [apply contains_iff in B; contradiction|reflexivity].
  Qed.
  Lemma tidy_user n s : (forall r, chars s <> chars home ++ r) -> exists t, subst u v (chars s) (chars t) /\ tidy (S (S n)) (DStr s) = Ok (DStr t).
  Proof.
    intros H. destruct (contains u (chars s)) eqn:B.
    - exists (of_chars (replace u v 0 (chars s))). rewrite chars_of_chars. assert (SB : subst u v (chars s) (replace u v 0 (chars s))) by (apply replaced; discriminate). split; [exact SB|].
      change (tidy (S (S n)) (DStr s)) with (if starts_with (chars home) (chars s) then tidy (S n) (DStr ("~/" ++ of_chars (skipn (String.length home) (chars s))))
        else if contains u (chars s) then tidy (S n) (DStr (of_chars (replace u v 0 (chars s)))) else Ok (DStr s)).
      destruct (starts_with (chars home) (chars s)) eqn:A; [apply starts_iff in A; destruct A as (r & A); elim (H r A)|]. rewrite B.
      apply tidy_plain; rewrite chars_of_chars; [exact (subst_home _ _ SB H)|exact (subst_free _ _ SB)].
    - exists s. assert (N : ~ has u (chars s)) by (rewrite <- contains_iff, B; discriminate). split; [apply sub_none, N|]. apply tidy_plain; assumption.
  Qed.
  Lemma tidy_text n s : exists t, tidied home user (DStr s) (DStr t) /\ tidy (S (S (S n))) (DStr s) = Ok (DStr t).
  Proof.
    destruct (starts_with (chars home) (chars s)) eqn:A.
    - assert (A' := A). apply starts_iff in A'. destruct A' as (r & A').
      assert (K : skipn (String.length home) (chars s) = r).
      { rewrite A'. assert (L : String.length home = List.length (chars home)) by (clear; unfold chars; induction home; cbn; congruence). rewrite L, skipn_app, skipn_all, Nat.sub_diag. reflexivity. }
      destruct (tidy_user n ("~/" ++ of_chars r)) as (t & SB & T).
      { change (chars ("~/" ++ of_chars r)) with ("~"%char :: "/"%char :: chars (of_chars r)). apply tilde_home. }
      exists t. split.
      + eapply td_str; [rewrite A'; apply sh_home|]. change (chars ("~/" ++ of_chars r)) with ("~"%char :: "/"%char :: chars (of_chars r)) in SB. rewrite chars_of_chars in SB. exact SB.
      + change (tidy (S (S (S n))) (DStr s)) with (if starts_with (chars home) (chars s) then tidy (S (S n)) (DStr ("~/" ++ of_chars (skipn (String.length home) (chars s))))
          else if contains u (chars s) then tidy (S (S n)) (DStr (of_chars (replace u v 0 (chars s)))) else Ok (DStr s)). rewrite A, K. exact T.
    - assert (N : forall r, chars s <> chars home ++ r) by (intros r Q; assert (X : starts_with (chars home) (chars s) = true) by (apply starts_iff; eauto); congruence).
      destruct (tidy_user (S n) s N) as (t & SB & T). exists t. split; [|exact T]. eapply td_str; [apply sh_other, N|exact SB].
  Qed.

  Fixpoint deep (x : doc) : nat :=
    match x with
    | DList l | DTup l => S (fold_right (fun y m => Nat.max (deep y) m) 0 l)
    | DDict l => S (fold_right (fun p m => Nat.max (deep (snd p)) m) 0 l)
    | _ => 3
    end.
  (** Tidying ends, and gives what it should. *)
  Theorem C113_tidy : forall n x, deep x <= n -> exists y, tidied home user x y /\ tidy n x = Ok y.
  Proof using All.
    induction n as [|n IH]; intros x D; [destruct x; cbn in D; lia|].
    assert (LL : forall l, fold_right (fun y m => Nat.max (deep y) m) 0 l <= n -> exists l', Forall2 (tidied home user) l l' /\ map_r (tidy n) l = Ok l').
    { induction l as [|y l IL]; intros DL; cbn in DL; [exists []; split; [constructor|reflexivity]|]. destruct (IH y) as (y' & T & E); [lia|]. destruct IL as (l' & F & E'); [lia|].
      exists (y' :: l'). split; [constructor; assumption|]. cbn [map_r]. rewrite E. cbn. rewrite E'. reflexivity. }
    destruct x as [|b|z|s|l|l|l]; cbn in D.
    - exists DNone. split; [constructor|reflexivity].
    - exists (DBool b). split; [constructor|reflexivity].
    - exists (DInt z). split; [constructor|reflexivity].
    - destruct n as [|[|n]]; [lia..|]. destruct (tidy_text n s) as (t & T & E). exists (DStr t). split; assumption.
    - destruct (LL l) as (l' & F & E); [lia|]. exists (DList l'). split; [constructor; exact F|]. cbn [Docs.tidy]. rewrite E. reflexivity.
    - destruct (LL l) as (l' & F & E); [lia|]. exists (DList l'). split; [constructor; exact F|]. cbn [Docs.tidy]. rewrite E. reflexivity.
    - assert (LD : exists l', Forall2 (fun p q => fst p = fst q /\ tidied home user (snd p) (snd q)) l l' /\ map_r (fun p => y <- tidy n (snd p) ;; Ok (fst p, y)) l = Ok l').
      { induction l as [|[k y] l IL]; cbn in D; [exists []; split; [constructor|reflexivity]|]. destruct (IH y) as (y' & T & E); [lia|]. destruct IL as (l' & F & E'); [lia|].
        exists ((k, y') :: l'). split; [constructor; [split; [reflexivity|exact T]|exact F]|]. cbn [map_r snd fst]. rewrite E. cbn. rewrite E'. reflexivity. }
      destruct LD as (l' & F & E). exists (DDict l'). split; [constructor; exact F|]. cbn [Docs.tidy]. rewrite E. reflexivity.
  Qed.
  (** What is left has neither the home directory in front nor the user's name behind a hyphen. *)
  Theorem C113_private s t : tidied home user (DStr s) (DStr t) -> (forall r, chars t <> chars home ++ r) /\ ~ has u (chars t).
  Proof using All.
    intros T. inversion T as [s' m t' SH SB| | | | | |]; subst. split; [|exact (subst_free _ _ SB)]. apply (subst_home _ _ SB). destruct SH as [r|s' N]; [apply tilde_home|exact N].
  Qed.
End Good.

Lemma tidied_inv home user s t : tidied home user (DStr s) (DStr t) -> exists m, shortened (chars home) (chars s) m /\ subst ("-"%char :: chars user) (chars "-${USER}") m (chars t).
Proof. intros T. inversion T. eauto. Qed.
(** ** The pages *)
(** The rows, whoever makes the page *)
Definition public_rows : list (string * doc) :=
  [("cache-policy", DStr "user"); ("check-out-of-date-urls", DBool false); ("download-out-of-date-urls", DBool false);
   ("maximum-cache-disk-usage", DNone); ("maximum-cache-size", DStr "5GB"); ("maximum-weights-memory-cache-size", DStr "500MB");
   ("temporary-cache-directory-root", DNone); ("temporary-directory-root", DNone); ("url-download-timeout", DStr "30s");
   ("user-cache-directory", DStr "~/.cache/earthkit-regrid"); ("weights-memory-cache-policy", DStr "largest"); ("weights-memory-cache-strict-mode", DBool false)].
Definition env_rows : list (string * string) :=
  [("cache-policy", "EARTHKIT_REGRID_CACHE_POLICY"); ("check-out-of-date-urls", "EARTHKIT_REGRID_CHECK_OUT_OF_DATE_URLS"); ("download-out-of-date-urls", "EARTHKIT_REGRID_DOWNLOAD_OUT_OF_DATE_URLS");
   ("maximum-cache-disk-usage", "EARTHKIT_REGRID_MAXIMUM_CACHE_DISK_USAGE"); ("maximum-cache-size", "EARTHKIT_REGRID_MAXIMUM_CACHE_SIZE"); ("maximum-weights-memory-cache-size", "EARTHKIT_REGRID_MAXIMUM_WEIGHTS_MEMORY_CACHE_SIZE");
   ("temporary-cache-directory-root", "EARTHKIT_REGRID_TEMPORARY_CACHE_DIRECTORY_ROOT"); ("temporary-directory-root", "EARTHKIT_REGRID_TEMPORARY_DIRECTORY_ROOT"); ("url-download-timeout", "EARTHKIT_REGRID_URL_DOWNLOAD_TIMEOUT");
   ("user-cache-directory", "EARTHKIT_REGRID_USER_CACHE_DIRECTORY"); ("weights-memory-cache-policy", "EARTHKIT_REGRID_WEIGHTS_MEMORY_CACHE_POLICY"); ("weights-memory-cache-strict-mode", "EARTHKIT_REGRID_WEIGHTS_MEMORY_CACHE_STRICT_MODE")].
(** The rows asked for *)
Definition shown_row (matches : string -> string -> bool) (args : list string) (k : string) : Prop := args = [] \/ exists a, In a args /\ matches a k = true.
Lemma chosen_iff matches args k : chosen matches args k = true <-> shown_row matches args k.
Proof.
  unfold chosen, shown_row. destruct args as [|a args]; [split; auto|]. rewrite existsb_exists. split; [intros (x & X); right; eauto|intros [Q|X]; [discriminate Q|exact X]].
Qed.

Lemma stripped s : (forall r, chars (rstrip_slash s) <> r ++ ["/"%char]) /\ (exists r, chars s = chars (rstrip_slash s) ++ r).
Proof.
  unfold rstrip_slash. rewrite chars_of_chars.
  assert (G : forall l, (forall r, strip_slashes l <> "/"%char :: r) /\ exists r, l = r ++ strip_slashes l).
  { induction l as [|c l (A & r & B)]; cbn; [split; [discriminate|exists []; reflexivity]|]. destruct (Ascii.eqb_spec c "/") as [->|N]; [split; [exact A|exists ("/"%char :: r); cbn; congruence]|].
    split; [intros r' Q; injection Q as Q _; contradiction|exists []; reflexivity]. }
  destruct (G (rev (chars s))) as (A & r & B). split.
  - intros r' Q. apply (f_equal (@rev ascii)) in Q. rewrite rev_involutive, rev_app_distr in Q. exact (A _ Q).
  - exists (rev r). rewrite <- rev_app_distr, <- B, rev_involutive. reflexivity.
Qed.
Lemma cache_default h : exists r, chars (expanduser (Some h) "/") = r ++ ["/"%char] /\ (forall c, In c r -> In c (chars h)) /\ (forall q, r = "~"%char :: q -> exists q', chars h = "~"%char :: q') /\
  chars (join_path (join_path (expanduser (Some h) "") ".cache") "earthkit-regrid") = chars (expanduser (Some h) "/") ++ chars ".cache/earthkit-regrid".
Proof.
  destruct (stripped h) as (A & q & B). exists (chars (rstrip_slash h)).
  assert (E : expanduser (Some h) "/" = (rstrip_slash h ++ "/")%string).
  { cbn [expanduser]. destruct (String.eqb_spec (rstrip_slash h ++ "/") "") as [Q|N]; [|reflexivity]. destruct (rstrip_slash h); discriminate Q. }
  split; [rewrite E, chars_app; reflexivity|]. split; [intros c I; rewrite B; apply in_or_app; left; exact I|].
  split; [intros q' Q; rewrite Q in B; cbn in B; eauto|]. rewrite E, !chars_app.
  unfold expanduser. destruct (String.eqb_spec (rstrip_slash h ++ "") "") as [Q|N].
  - destruct (rstrip_slash h) eqn:RS; [reflexivity|discriminate Q].
  - assert (EH : (rstrip_slash h ++ "")%string = rstrip_slash h) by (apply chars_inj; rewrite chars_app, app_nil_r; reflexivity). rewrite EH in *. clear EH.
    assert (ES : ends_with_slash (rstrip_slash h) = false).
    { unfold ends_with_slash. destruct (rev (chars (rstrip_slash h))) as [|c l] eqn:RV; [reflexivity|]. destruct (Ascii.eqb_spec c "/") as [->|NC]; [|reflexivity]. exfalso.
      apply (f_equal (@rev ascii)) in RV. rewrite rev_involutive in RV. cbn in RV. exact (A _ RV). }
    assert (J1 : join_path (rstrip_slash h) ".cache" = (rstrip_slash h ++ "/.cache")%string).
    { unfold join_path. change (starts_with_slash ".cache") with false. cbn match. rewrite ES. destruct (String.eqb_spec (rstrip_slash h) "") as [Q|N']; [contradiction|reflexivity]. }
    rewrite J1. unfold join_path. change (starts_with_slash "earthkit-regrid") with false. cbn match.
    assert (ES2 : ends_with_slash (rstrip_slash h ++ "/.cache") = false) by (unfold ends_with_slash; rewrite chars_app, rev_app_distr; reflexivity). rewrite ES2.
    destruct (String.eqb_spec (rstrip_slash h ++ "/.cache") "") as [Q|N']; [destruct (rstrip_slash h); discriminate Q|]. cbn [orb]. rewrite !chars_app, <- !app_assoc. reflexivity.
Qed.

Section Page.
  Variable matches : string -> string -> bool.
  Lemma filter_map {A B} (f : string * A -> string * B) p (l : list (string * A)) : (forall x, fst (f x) = fst x) -> filter (fun y => p (fst y)) (map f l) = map f (filter (fun x => p (fst x)) l).
  Proof using. clear matches. intros E. induction l as [|x l IH]; [reflexivity|]. cbn. rewrite E. destruct (p (fst x)); cbn; rewrite IH; reflexivity. Qed.
  Lemma map_r_ok {A B} (f : A -> result B) (g : A -> B) l : (forall x, In x l -> f x = Ok (g x)) -> map_r f l = Ok (map g l).
  Proof using. clear matches. induction l as [|x l IH]; intros E; [reflexivity|]. cbn [map_r map]. rewrite (E x (or_introl eq_refl)). cbn. rewrite IH by (intros y Y; apply E; right; exact Y). reflexivity. Qed.
  Lemma default_rows home : sorted_rows (docs_defaults home) =
    map (fun p => (fst p, if String.eqb (fst p) "user-cache-directory" then DStr (join_path (join_path (expanduser home "") ".cache") "earthkit-regrid") else snd p)) public_rows.
  Proof using. clear matches. unfold docs_defaults. generalize (join_path (join_path (expanduser home "") ".cache") "earthkit-regrid"). intros s. vm_compute. reflexivity. Qed.

  (** The page of options is the same whoever makes it: with a home directory that is known, whose name
      has no dollar and no tilde in front, and a user of whose name regrid is no continuation. *)
  Theorem C113_page_partial h user args n : ~ In "$"%char (chars h) -> (forall q, chars h <> "~"%char :: q) -> ~ In "$"%char (chars user) -> user <> "" -> (forall r, "regrid" <> (user ++ r)%string) -> 3 <= n ->
    config_page matches n (Some h) user args = Ok (filter (fun p => chosen matches args (fst p)) public_rows).
  Proof using.
    intros HP HT UP US UR N. destruct (cache_default h) as (r & R1 & R2 & R3 & R4). set (home := expanduser (Some h) "/") in *.
    assert (S1 : exists h0, chars home = h0 ++ ["/"%char]) by eauto.
    assert (S2 : forall q, chars home <> "~"%char :: q).
    { intros q Q. rewrite R1 in Q. destruct r as [|c r]; [discriminate Q|]. cbn in Q. injection Q as -> _. destruct (R3 _ eq_refl) as (q' & Q'). exact (HT _ Q'). }
    assert (S3 : ~ In "$"%char (chars home)). { rewrite R1. intros I. apply in_app_or in I. destruct I as [I|[Q|[]]]; [exact (HP (R2 _ I))|discriminate Q]. }
    unfold config_page. fold home. rewrite default_rows, filter_map by reflexivity.
    set (F := fun p : string * doc => (fst p, if String.eqb (fst p) "user-cache-directory" then DStr (join_path (join_path (expanduser (Some h) "") ".cache") "earthkit-regrid") else snd p)).
    assert (E : forall p, In p public_rows -> tidy home user n (snd (F p)) = Ok (snd p)).
    { destruct n as [|[|[|n]]]; [lia..|]. 
      assert (PL : forall s, (forall c, In c (chars s) -> c <> "/"%char /\ c <> "-"%char) -> tidy home user (S (S (S n))) (DStr s) = Ok (DStr s)).
      { intros s I. apply tidy_plain.
        - intros r' Q. rewrite R1, <- app_assoc in Q. apply (proj1 (I "/"%char ltac:(rewrite Q; apply in_or_app; right; left; reflexivity))). reflexivity.
        - intros (a & b & Q). apply (proj2 (I "-"%char ltac:(rewrite Q; apply in_or_app; right; left; reflexivity))). reflexivity. }
      intros p I. cbn [public_rows In] in I.
      repeat match type of I with _ \/ _ => destruct I as [<-|I] | False => destruct I end; unfold F; cbn [fst snd String.eqb Ascii.eqb Bool.eqb]; try reflexivity; try (apply PL; intros c C; vm_compute in C; intuition (subst; discriminate)).
      cbn match. destruct (tidy_text home user S1 S2 S3 UP US n (join_path (join_path (expanduser (Some h) "") ".cache") "earthkit-regrid")) as (t & T & Q). rewrite Q.
      destruct (tidied_inv _ _ _ _ T) as (m & SH & SB). rewrite R4 in SH.
      assert (M : m = chars "~/.cache/earthkit-regrid").
      { inversion SH as [r0 E0 E1|s0 NO E0 E1]; [apply app_inv_head in E0; subst r0; reflexivity|]. elim (NO (chars ".cache/earthkit-regrid")). reflexivity. }
      assert (FR : ~ has ("-"%char :: chars user) m).
      { rewrite M. intros (a & b & Q0). 
        assert (C : exists b', chars "regrid" = chars user ++ b').
        { assert (LA : a = chars "~/.cache/earthkit").
          { assert (G : forall (x y z w : list ascii), ~ In "-"%char x -> ~ In "-"%char w -> x ++ "-"%char :: w = y ++ "-"%char :: z -> x = y).
            { clear. induction x as [|c x IX]; intros [|d y] z w NX NW Q; cbn in Q.
              - reflexivity.
              - injection Q as <- Q. exfalso. apply NW. rewrite Q. apply in_or_app. right. left. reflexivity.
              - injection Q as -> Q. exfalso. apply NX. left. reflexivity.
              - injection Q as -> Q. f_equal. apply (IX y z w); [intros I; apply NX; right; exact I|exact NW|exact Q]. }
            symmetry. apply (G _ _ (chars user ++ b) (chars "regrid")); [intros I; vm_compute in I; intuition discriminate|intros I; vm_compute in I; intuition discriminate|exact Q0]. }
          subst a. change (chars "~/.cache/earthkit-regrid") with (chars "~/.cache/earthkit" ++ "-"%char :: chars "regrid") in Q0. apply app_inv_head in Q0. cbn [app] in Q0. injection Q0 as Q0. exists b. exact Q0. }
        destruct C as (b' & C). apply (UR (of_chars b')). apply chars_inj. rewrite chars_app, chars_of_chars. exact C. }
      rewrite M in SB, FR. inversion SB as [s0 N0 E0 E1|a b y L S0 E0 E1].
      - do 2 f_equal. apply chars_inj. symmetry. assumption.
      - exfalso. apply FR. exists a, b. symmetry. assumption. }
    rewrite (map_r_ok _ (fun p => (fst p, match tidy home user n (snd p) with Ok y => y | _ => DNone end))).
    - f_equal. rewrite map_map. rewrite <- (map_id (filter (fun p => chosen matches args (fst p)) public_rows)) at 2. apply map_ext_in. intros p I. apply filter_In in I. destruct I as [I _]. rewrite (E p I). destruct p; reflexivity.
    - intros x I. apply in_map_iff in I. destruct I as (p & <- & I). apply filter_In in I. destruct I as [I _]. rewrite (E p I). reflexivity.
  Qed.
  (** The page of variables; each is the one that decides, and no other does. *)
  Theorem C113_env args : env_page matches args = filter (fun p => chosen matches args (fst p)) env_rows /\
    forall Obj obj_str home k w, In (k, w) env_rows -> (forall vals vals' env t, alookup w env = Some t -> Config.get_in Obj obj_str home vals env k = Config.get_in Obj obj_str home vals' env k) /\
      (forall vals env x t, x <> w -> Config.get_in Obj obj_str home vals ((x, t) :: env) k = Config.get_in Obj obj_str home vals env k).
  Proof using.
    split.
    - unfold env_page. 
      assert (E : map (fun p : string * Config.opt Empty_set => (fst p, Config.env_var_name (fst p))) (sorted_rows (Config.options Empty_set "")) = env_rows) by (vm_compute; reflexivity).
      rewrite <- E. rewrite filter_map by reflexivity. reflexivity.
    - intros Obj obj_str home k w I.
      assert (W : Config.env_var_name k = w) by (cbn [env_rows In] in I; repeat match type of I with _ \/ _ => destruct I as [I|I] | False => destruct I end; injection I as <- <-; vm_compute; reflexivity).
      split.
      + intros vals vals' env t A. unfold Config.get_in. destruct (alookup k _) as [o|]; [|reflexivity]. rewrite W, A. reflexivity.
      + intros vals env x t N. unfold Config.get_in. destruct (alookup k _) as [o|]; [|reflexivity]. rewrite W. cbn [alookup]. destruct (String.eqb_spec w x) as [Q|_]; [congruence|reflexivity].
  Qed.

  (** Made by the user regrid the page tells another directory; where the home directory is not known it
      is not made at all. *)
  Theorem C113_user_refuted : config_page matches 3 (Some "/home/regrid") "regrid" [] <> Ok public_rows /\
    exists l, config_page matches 3 (Some "/home/regrid") "regrid" [] = Ok l /\ In ("user-cache-directory", DStr "~/.cache/earthkit-${USER}") l.
  Proof using. split; [vm_compute; discriminate|]. eexists. split; [vm_compute; reflexivity|]. do 9 right. left. reflexivity. Qed.
  Theorem C113_home_refuted user n : config_page matches n None user [] = OutOfFuel.
  Proof using.
    assert (E : forall m, tidy "~/" user m (DStr "~/.cache/earthkit-regrid") = OutOfFuel).
    { induction m as [|m IH]; [reflexivity|]. cbn [tidy]. change (starts_with (chars "~/") (chars "~/.cache/earthkit-regrid")) with true. cbn match. exact IH. }
    unfold config_page. change (expanduser None "/") with "~/". rewrite default_rows. cbn [chosen]. 
    assert (FI : forall l : list (string * doc), filter (fun _ => true) l = l) by (induction l as [|? ? IL]; cbn; congruence). rewrite FI. clear FI.
    change (join_path (join_path (expanduser None "") ".cache") "earthkit-regrid") with "~/.cache/earthkit-regrid".
    assert (G : forall (f : string * doc -> result (string * doc)) l1 x l2, f x = OutOfFuel -> (forall y, In y l1 -> f y = OutOfFuel \/ exists z, f y = Ok z) -> map_r f (l1 ++ x :: l2) = OutOfFuel).
    { intros f l1 x l2 FX. induction l1 as [|y l1 IL]; intros FY; cbn [map_r app]; [rewrite FX; reflexivity|]. destruct (FY y (or_introl eq_refl)) as [->|(z & ->)]; [reflexivity|]. cbn. rewrite IL by (intros y' Y'; apply FY; right; exact Y'). reflexivity. }
    set (F := fun p : string * doc => (fst p, if String.eqb (fst p) "user-cache-directory" then DStr "~/.cache/earthkit-regrid" else snd p)).
    change (map F public_rows) with (map F (firstn 9 public_rows) ++ F ("user-cache-directory", DStr "~/.cache/earthkit-regrid") :: map F (skipn 10 public_rows)).
    apply G; [cbn [F fst snd String.eqb Ascii.eqb Bool.eqb]; unfold F; cbn [fst snd]; change (String.eqb "user-cache-directory" "user-cache-directory") with true; cbn match; rewrite E; reflexivity|].
    intros y I. destruct n as [|n]; [left; reflexivity|right]. 
    assert (PL : forall s, (forall c, In c (chars s) -> c <> "~"%char /\ c <> "-"%char) -> s <> "" -> tidy "~/" user (S n) (DStr s) = Ok (DStr s)).
    { intros s C NE. apply tidy_plain; [intros r Q|intros (a & b & Q)]; [apply (proj1 (C "~"%char ltac:(rewrite Q; left; reflexivity))); reflexivity|apply (proj2 (C "-"%char ltac:(rewrite Q; apply in_or_app; right; left; reflexivity))); reflexivity]. }
    cbn [map firstn public_rows In] in I. unfold F in I. cbn [fst snd] in I.
    repeat match type of I with _ \/ _ => destruct I as [<-|I] | False => destruct I end; cbn [fst snd];
      match goal with |- context [String.eqb ?a ?b] => change (String.eqb a b) with false; cbn match | _ => idtac end;
      first [rewrite PL; [eexists; reflexivity| |discriminate]; intros c C; vm_compute in C; intuition (subst; discriminate)|eexists; reflexivity].
  Qed.
End Page.

(** ** The hypotheses are met *)
Example C113_met : config_page (fun a k => starts_with (chars a) (chars k)) 3 (Some "/home/ann/") "ann" ["cache"; "user"] = Ok [("cache-policy", DStr "user"); ("user-cache-directory", DStr "~/.cache/earthkit-regrid")] /\
  tidied "/home/ann/" "ann" (DStr "/home/ann/tmp-ann-1") (DStr "~/tmp-${USER}-1").
Proof.
  split; [vm_compute; reflexivity|].
  destruct (tidy_text "/home/ann/" "ann" (ex_intro _ (chars "/home/ann") eq_refl) ltac:(discriminate) ltac:(intros I; vm_compute in I; intuition discriminate) ltac:(intros I; vm_compute in I; intuition discriminate) ltac:(discriminate) 0 "/home/ann/tmp-ann-1") as (t & T & E).
  vm_compute in E. injection E as <-. exact T.
Qed.

Print Assumptions C113_tidy.
Print Assumptions C113_private.
Print Assumptions C113_page_partial.
Print Assumptions C113_env.
Print Assumptions C113_user_refuted.
Print Assumptions C113_home_refuted.
