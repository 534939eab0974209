(** C114-C117: temporary files, output of modules in the documentation, helpers of the tests. *)
From Coq Require Import QArith Qabs.
From Verif Require Import PyBase ListLemmas PyStr Index Helpers.
Set Default Proof Using "Type".
Local Open Scope string_scope.
Local Open Scope list_scope.
Local Open Scope nat_scope.

(** ** C114: temporary files *)
(** What others do to the files while an object lives; what the object does does not count *)
Inductive world : list tmp_op -> files -> files -> Prop :=
| w_nil f f' : (forall q, In q f <-> In q f') -> world [] f f'
| w_make p l f f1 f' : (forall q, In q f1 <-> q = p \/ In q f) -> world l f1 f' -> world (OMake p :: l) f f'
| w_remove p l f f1 f' : (forall q, In q f1 <-> q <> p /\ In q f) -> world l f1 f' -> world (ORemove p :: l) f f'
| w_exit l f f' : world l f f' -> world (OExit :: l) f f'
| w_cleanup l f f' : world l f f' -> world (OCleanup :: l) f f'
| w_del l f f' : world l f f' -> world (ODel :: l) f f'.

Lemma in_there p f : existsb (String.eqb p) f = true <-> In p f.
Proof. rewrite existsb_exists. split; [intros (q & I & E); apply String.eqb_eq in E; subst; exact I|intros I; exists p; split; [exact I|apply String.eqb_refl]]. Qed.
Lemma in_without p f q : In q (filter (fun q => negb (String.eqb p q)) f) <-> q <> p /\ In q f.
Proof. rewrite filter_In. destruct (String.eqb_spec p q) as [->|N]; cbn; intuition congruence. Qed.

(** The file is gone after the block and the outcome is that of the body; if the body deleted it, the
    outcome is lost. *)
Theorem C114_with {A} p (body : files -> result A * files) f r f1 : body (f ++ [p]) = (r, f1) ->
  (In p f1 -> exists f2, with_temp_file p body f = (r, None, f2) /\ forall q, In q f2 <-> q <> p /\ In q f1) /\
  (~ In p f1 -> with_temp_file p body f = (Raise FileNotFoundError, Some p, f1)).
Proof.
  intros B. unfold with_temp_file. rewrite B. unfold cleanup, unlink. split; intros I.
  - apply in_there in I. rewrite I. eexists. split; [reflexivity|]. apply in_without.
  - destruct (existsb (String.eqb p) f1) eqn:E; [apply in_there in E; contradiction|reflexivity].
Qed.
(** An object that has cleaned up does nothing more to any file. *)
Theorem C114_once l f : fst (tmp_run l None f) = None /\ world l f (snd (tmp_run l None f)).
Proof.
  revert f. induction l as [|o l IH]; intros f; cbn [tmp_run]; [split; [reflexivity|constructor; reflexivity]|].
  destruct o as [| | |p|p]; cbn [tmp_step cleanup]; try (split; [apply IH|constructor; apply IH]).
  - split; [apply IH|]. eapply w_make; [|apply IH]. intros q. destruct (existsb (String.eqb p) f) eqn:E.
    + apply in_there in E. split; [auto|intros [->|I]; assumption].
    + rewrite in_app_iff. cbn. intuition.
  - split; [apply IH|]. eapply w_remove; [|apply IH]. apply in_without.
Qed.
(** Before that it deletes no file but its own. *)
Theorem C114_own_partial l p f : exists f', world l f f' /\ forall q, q <> p -> (In q (snd (tmp_run l (Some p) f)) <-> In q f').
Proof.
  assert (G : forall l t f g, (t = None \/ t = Some p) -> (forall q, q <> p -> (In q f <-> In q g)) -> exists g', world l g g' /\ forall q, q <> p -> (In q (snd (tmp_run l t f)) <-> In q g')).
  { clear l f. induction l as [|o l IH]; intros t f g T E; cbn [tmp_run]; [exists g; split; [constructor; reflexivity|exact E]|].
    assert (CL : exists t' f', (let '(_, t', f') := cleanup t f in (t', f')) = (t', f') /\ (t' = None \/ t' = Some p) /\ forall q, q <> p -> (In q f' <-> In q g)).
    { destruct T as [->| ->]; cbn [cleanup]; [exists None, f; auto|]. unfold unlink. destruct (existsb (String.eqb p) f); [|exists (Some p), f; auto].
      eexists None, _. split; [reflexivity|]. split; [auto|]. intros q N. rewrite in_without, (E q N). intuition. }
    destruct CL as (t' & f' & CE & CT & CF).
    destruct o as [| | |a|a]; cbn [tmp_step].
    - rewrite CE. destruct (IH t' f' g CT CF) as (g' & W & R). exists g'. split; [constructor; exact W|exact R].
    - rewrite CE. destruct (IH t' f' g CT CF) as (g' & W & R). exists g'. split; [constructor; exact W|exact R].
    - rewrite CE. destruct (IH t' f' g CT CF) as (g' & W & R). exists g'. split; [constructor; exact W|exact R].
    - edestruct (IH t (if existsb (String.eqb a) f then f else f ++ [a]) (a :: g) T) as (g' & W & R).
      + intros q N. cbn. rewrite <- (E q N). destruct (existsb (String.eqb a) f) eqn:X; [apply in_there in X; intuition (subst; auto)|]. rewrite in_app_iff. cbn. intuition.
      + exists g'. split; [eapply w_make; [|exact W]; intros q; cbn; intuition|exact R].
    - edestruct (IH t (filter (fun q => negb (String.eqb a q)) f) (filter (fun q => negb (String.eqb a q)) g) T) as (g' & W & R).
      + intros q N. rewrite !in_without, (E q N). reflexivity.
      + exists g'. split; [eapply w_remove; [|exact W]; apply in_without|exact R]. }
  apply (G l (Some p) f f); [auto|reflexivity].
Qed.
(** If its file was deleted before the block ended, the object deletes the file that another makes of the
    same name afterwards (the name is free). *)
Theorem C114_foreign_refuted p f : ~ In p (snd (tmp_run [ORemove p; OExit; OMake p; ODel] (Some p) f)).
Proof.
  assert (X : existsb (String.eqb p) (filter (fun q => negb (String.eqb p q)) f) = false).
  { destruct (existsb _ _) eqn:X; [|reflexivity]. apply in_there, in_without in X. destruct X as [N _]. contradiction. }
  cbn [tmp_run tmp_step]. unfold cleanup at 1, unlink at 1. rewrite X. cbn [tmp_run tmp_step]. rewrite X. unfold cleanup, unlink.
  assert (Y : existsb (String.eqb p) (filter (fun q => negb (String.eqb p q)) f ++ [p]) = true) by (apply in_there, in_or_app; right; left; reflexivity).
  rewrite Y. cbn [snd]. rewrite in_without. intros [N _]. contradiction.
Qed.

(** ** C115: output of modules *)
Section Directive.
  Variable source : outcome string.
  Variable import : string -> outcome unit.
  Variable execute : string -> list string -> string * outcome unit.
  Variable insert : string -> outcome unit.
  Variable trace : exn -> string.
  Notation run := (run_directive source import execute insert trace).

  Lemma insert_keeps t s o s' : insert_input insert t s = (o, s') -> d_printed s' = d_printed s.
  Proof. unfold insert_input, then_, give, put. destruct (insert t); intros Q; injection Q as _ <-; reflexivity. Qed.
  Lemma handler_keeps e s o s' : handler insert trace e s = (o, s') -> d_printed s' = d_printed s.
  Proof.
    unfold handler, then_ at 1. destruct (d_name s); [|intros Q; injection Q as _ <-; reflexivity]. unfold then_ at 1. destruct (d_file s); [|intros Q; injection Q as _ <-; reflexivity]. apply insert_keeps.
  Qed.
  Lemma try_keeps content s o s' : try_block source import execute insert content s = (o, s') -> d_printed s' = d_printed s.
  Proof.
    unfold try_block. unfold then_ at 1, give at 1. destruct source as [f|e|]; try (intros Q; injection Q as _ <-; reflexivity).
    unfold then_ at 1, put at 1. unfold then_ at 1, give at 1. destruct (filter _ content) as [|line l]; try (intros Q; injection Q as _ <-; reflexivity).
    unfold then_ at 1, give at 1. destruct (split_on (chars line) []) as [|n r]; try (intros Q; injection Q as _ <-; reflexivity).
    unfold then_ at 1, put at 1. cbn [fst snd]. unfold then_ at 1, give at 1. destruct (import _); try (intros Q; injection Q as _ <-; reflexivity).
    unfold then_ at 1, put at 1. unfold then_ at 1, put at 1. unfold then_ at 1, give at 1.
    destruct (snd (execute (replace1 "-" "_" n) r)); try (intros Q; injection Q as _ <-; reflexivity).
    unfold then_ at 1. cbn [print set_stdout d_stdout d_printed d_inserted d_name d_file]. intros Q. apply insert_keeps in Q. exact Q.
  Qed.
  (** Whatever happens, standard output is as before, and nothing was printed to it. *)
  Theorem C115_restored content s o s' : run content s = (o, s') -> d_stdout s' = d_stdout s /\ d_printed s' = d_printed s.
  Proof.
    unfold run_directive. destruct content as [|c l]; [intros Q; injection Q as _ <-; auto|]. unfold finally_, except_.
    destruct (try_block source import execute insert (c :: l) s) as [[u|e|] s1] eqn:T; intros Q.
    - injection Q as _ <-. split; [reflexivity|exact (try_keeps _ _ _ _ T)].
    - destruct (handler insert trace e s1) as [o1 s2] eqn:H. injection Q as _ <-. split; [reflexivity|]. cbn. rewrite (handler_keeps _ _ _ _ H). exact (try_keeps _ _ _ _ T).
    - injection Q as _ <-. split; [reflexivity|exact (try_keeps _ _ _ _ T)].
  Qed.

  (** The words of a line: separated by single spaces, without spaces inside *)
  Definition words (line : string) (l : list string) : Prop := l <> [] /\ String.concat " " l = line /\ Forall (fun w => ~ In " "%char (chars w)) l.
  Lemma split_words line : words line (split_on (chars line) []).
  Proof.
    assert (G : forall l cur, ~ In " "%char cur -> split_on l cur <> [] /\ String.concat " " (split_on l cur) = of_chars (rev cur ++ l) /\ Forall (fun w => ~ In " "%char (chars w)) (split_on l cur)).
    { clear. induction l as [|c l IH]; intros cur NC; cbn [split_on].
      - split; [discriminate|]. rewrite app_nil_r. split; [reflexivity|]. repeat constructor. rewrite chars_of_chars, <- in_rev. exact NC.
      - destruct (Ascii.eqb_spec c " ") as [->|N].
        + destruct (IH [] (fun I => I)) as (A & B & C). split; [discriminate|]. split; [|constructor; [rewrite chars_of_chars, <- in_rev; exact NC|exact C]].
          destruct (split_on l []) as [|w ws] eqn:W; [congruence|]. cbn [String.concat].
          change (match ws with [] => w | _ :: _ => (w ++ " " ++ String.concat " " ws)%string end) with (String.concat " " (w :: ws)). rewrite B. cbn [rev app].
          apply chars_inj. rewrite !chars_app, !chars_of_chars. reflexivity.
        + destruct (IH (c :: cur)) as (A & B & C); [intros [Q|I]; [congruence|contradiction]|]. split; [exact A|]. split; [|exact C]. rewrite B. cbn [rev]. rewrite <- app_assoc. reflexivity. }
    destruct (G (chars line) [] (fun I => I)) as (A & B & C). split; [exact A|]. split; [|exact C]. rewrite B. cbn. apply of_chars_chars.
  Qed.
  (** The first line that is not empty *)
  Definition first_line (content : list string) (line : string) : Prop := line <> "" /\ exists a b, content = a ++ line :: b /\ Forall (fun x => x = "") a.
  Lemma first_filter content line : first_line content line -> exists l, filter (fun x => negb (String.eqb x "")) content = line :: l.
  Proof.
    intros (N & a & b & -> & F). induction F as [|x a -> F IH]; cbn; [|exact IH]. destruct (String.eqb_spec line "") as [Q|_]; [contradiction|]. eexists. reflexivity.
  Qed.
  Lemma words_unique line l l' : words line l -> words line l' -> l = l'.
  Proof.
    clear. assert (JC : forall w ws, chars (String.concat " " (w :: ws)) = chars w ++ match ws with [] => [] | _ => " "%char :: chars (String.concat " " ws) end).
    { intros w ws. destruct ws; [cbn; rewrite app_nil_r; reflexivity|]. cbn [String.concat]. rewrite !chars_app. reflexivity. }
    assert (S1 : forall (a b x y : list ascii), ~ In " "%char a -> ~ In " "%char b -> (x = [] \/ exists x', x = " "%char :: x') -> (y = [] \/ exists y', y = " "%char :: y') -> a ++ x = b ++ y -> a = b /\ x = y).
    { induction a as [|c a IA]; intros [|d b] x y NA NB X Y Q; cbn in Q; [auto| | |].
      - exfalso. destruct X as [->|(x' & ->)]; [discriminate Q|]. injection Q as <- _. apply NB. left. reflexivity.
      - exfalso. destruct Y as [->|(y' & ->)]; [discriminate Q|]. injection Q as -> _. apply NA. left. reflexivity.
      - injection Q as -> Q. destruct (IA b x y) as [-> ->]; auto; [intros I; apply NA; right; exact I|intros I; apply NB; right; exact I]. }
    revert line l'. induction l as [|w ws IH]; intros line l' (N1 & C1 & F1) (N2 & C2 & F2); [congruence|]. destruct l' as [|w2 ws2]; [congruence|].
    assert (Q : chars (String.concat " " (w :: ws)) = chars (String.concat " " (w2 :: ws2))) by congruence. rewrite !JC in Q.
    inversion F1 as [|? ? A1 B1]; subst. inversion F2 as [|? ? A2 B2]; subst.
    apply S1 in Q; [|exact A1|exact A2|destruct ws; eauto|destruct ws2; eauto]. destruct Q as [QW QX]. apply chars_inj in QW. subst w2. f_equal.
    destruct ws as [|x ws], ws2 as [|y ws2]; try discriminate QX; [reflexivity|].
    apply (f_equal (@tl ascii)) in QX. cbn [tl] in QX. apply chars_inj in QX.
    apply (IH (String.concat " " (x :: ws))); (split; [discriminate|split; [auto|assumption]]).
  Qed.
  (** What was printed is inserted, nothing else; of a module that fails, its name and the trace. *)
  Theorem C115_inserted content line name args f s : first_line content line -> source = Good f -> words line (name :: args) ->
    let m := replace1 "-" "_" name in
    (forall t, import m = Good tt -> execute m args = (t, Good tt) -> insert t = Good tt ->
       fst (run content s) = Good tt /\ d_inserted (snd (run content s)) = d_inserted s ++ [t]) /\
    (forall e, (import m = Bad e \/ (import m = Good tt /\ snd (execute m args) = Bad e)) -> insert (name ++ String "010"%char "" ++ trace e)%string = Good tt ->
       fst (run content s) = Good tt /\ d_inserted (snd (run content s)) = d_inserted s ++ [(name ++ String "010"%char "" ++ trace e)%string]).
  Proof.
    intros FL SO W m. assert (SP := words_unique _ _ _ (split_words line) W). destruct (first_filter _ _ FL) as (l & FI).
    assert (NC : content <> []) by (destruct FL as (_ & a & b & -> & _); destruct a; discriminate).
    assert (R : forall t o, import m = Good tt -> execute m args = (t, o) -> try_block source import execute insert content s =
      match o with Good _ => insert_input insert t (mkDst (Some t) (d_printed s) (d_inserted s) (Some name) (Some f)) | Bad e => (Bad e, mkDst (Some t) (d_printed s) (d_inserted s) (Some name) (Some f)) | Quit => (Quit, mkDst (Some t) (d_printed s) (d_inserted s) (Some name) (Some f)) end).
    { intros t o IM EX. unfold try_block, then_, give, put. rewrite SO, FI, SP. cbn [fst snd]. fold m. rewrite IM, EX. cbn [fst snd print set_stdout d_stdout d_printed d_inserted d_name d_file].
      destruct o; [cbn [d_stdout]; reflexivity|reflexivity..]. }
    split.
    - intros t IM EX IN. unfold run_directive, finally_, except_. destruct content as [|c0 content]; [congruence|]. rewrite (R _ _ IM EX).
      unfold insert_input, then_, give, put. rewrite IN. cbn. auto.
    - intros e C IN.
      assert (T : exists out, try_block source import execute insert content s = (Bad e, mkDst out (d_printed s) (d_inserted s) (Some name) (Some f))).
      { destruct C as [IM|[IM EX]].
        - unfold try_block, then_, give, put. rewrite SO, FI, SP. cbn [fst snd]. fold m. rewrite IM. eexists. reflexivity.
        - destruct (execute m args) as [t o] eqn:E. cbn in EX. subst o. rewrite (R _ _ IM eq_refl). eexists. reflexivity. }
      destruct T as (out & T). unfold run_directive, finally_, except_. destruct content as [|c0 content]; [congruence|]. rewrite T.
      unfold handler, insert_input, then_, give, put. cbn [d_name d_file]. rewrite IN. cbn. auto.
  Qed.
  (** If the place of the directive cannot be told, the directive raises: the handler uses a variable that
      has no value.  An exception such as SystemExit passes. *)
  Theorem C115_refuted content s e : d_name s = None -> content <> [] -> source = Bad e -> run content s = (Bad RuntimeError, s).
  Proof.
    intros N NC SO. unfold run_directive, finally_, except_, try_block, handler, then_, give. destruct content; [congruence|]. rewrite SO, N. destruct s; reflexivity.
  Qed.
End Directive.

(** ** C116: data of the tests *)
Section TestData.
  Variable serve : string -> result string.
  Variable root : string.
  Definition url_of (sub fn : string) : string := ("https://sites.ecmwf.int/repository/earthkit-regrid/test-data/" ++ sub ++ "/" ++ fn)%string.
  Notation path_of := (data_path root).
  (** One file after the other: it is there and stays, or it is asked for once and what is served is kept *)
  Inductive fetched (sub : string) : list string -> dstate -> dstate -> Prop :=
  | ft_nil s : fetched sub [] s s
  | ft_there fn l s s' c : alookup (path_of sub fn) (s_files s) = Some c -> fetched sub l s s' -> fetched sub (fn :: l) s s'
  | ft_asked fn l s s1 s' c : alookup (path_of sub fn) (s_files s) = None -> serve (url_of sub fn) = Ok c ->
      s_urls s1 = s_urls s ++ [url_of sub fn] -> (forall q, alookup q (s_files s1) = if String.eqb q (path_of sub fn) then Some c else alookup q (s_files s)) ->
      fetched sub l s1 s' -> fetched sub (fn :: l) s s'.
  Lemma url_same sub fn : (URL_ROOT ++ "/" ++ sub ++ "/" ++ fn)%string = url_of sub fn.
  Proof. reflexivity. Qed.
  Lemma fetch_ok sub l s ps s' : fetch_all serve root sub l s = (Ok ps, s') -> ps = map (path_of sub) l /\ fetched sub l s s'.
  Proof.
    revert s ps s'. induction l as [|fn l IH]; intros s ps s' H; cbn [fetch_all] in H; [injection H as <- <-; split; [reflexivity|constructor]|].
    unfold amem in H. destruct (alookup (path_of sub fn) (s_files s)) as [c|] eqn:A.
    - destruct (fetch_all serve root sub l s) as [[ps'| |] s2] eqn:E; cbn in H; try discriminate H. injection H as <- <-. destruct (IH _ _ _ E) as [-> F]. split; [reflexivity|]. eapply ft_there; eauto.
    - unfold simple_download in H. rewrite url_same in H. destruct (serve (url_of sub fn)) as [c| |] eqn:S; try discriminate H. cbn [s_files s_urls] in H.
      destruct (fetch_all serve root sub l _) as [[ps'| |] s2] eqn:E; cbn in H; try discriminate H. injection H as <- <-. destruct (IH _ _ _ E) as [-> F]. split; [reflexivity|].
      eapply ft_asked; [exact A|exact S| | |exact F]; [reflexivity|]. intros q. cbn [s_files]. destruct (String.eqb_spec q (path_of sub fn)) as [->|N]; [apply alookup_aset_eq|apply alookup_aset_neq; congruence].
  Qed.
  (** The files asked for are there afterwards, as they were or as served; one path for one name. *)
  Theorem C116_delivered names sub s o s' : get_test_data serve root names sub s = (Ok o, s') ->
    let l := match names with One fn => [fn] | Many l => l end in
    fetched sub l s s' /\ (forall fn, l = [fn] -> o = One (path_of sub fn)) /\ (List.length l <> 1 -> o = Many (map (path_of sub) l)) /\
    (forall fn, In fn l -> exists c, alookup (path_of sub fn) (s_files s') = Some c /\ (alookup (path_of sub fn) (s_files s) = Some c \/ (alookup (path_of sub fn) (s_files s) = None /\ exists fn', In fn' l /\ path_of sub fn' = path_of sub fn /\ serve (url_of sub fn') = Ok c))) /\
    (forall q c, alookup q (s_files s) = Some c -> alookup q (s_files s') = Some c).
  Proof.
    intros H l. unfold get_test_data in H. fold l in H. destruct (fetch_all serve root sub l s) as [[ps| |] s1] eqn:E; cbn in H; try discriminate H. injection H as <- <-.
    destruct (fetch_ok _ _ _ _ _ E) as [-> F].
    assert (K : forall q c, alookup q (s_files s) = Some c -> alookup q (s_files s1) = Some c).
    { clear - F. induction F as [|fn l s s' c A F IH|fn l s s1 s' c A S U L F IH]; intros q c' Q; auto. apply IH. rewrite L. destruct (String.eqb_spec q (path_of sub fn)) as [->|N]; [congruence|exact Q]. }
    split; [exact F|]. split; [intros fn ->; reflexivity|]. split; [|split; [|exact K]].
    - intros N. destruct l as [|a [|b l0]]; cbn in *; [reflexivity|lia|reflexivity].
    - clear - F. assert (G : forall fn, In fn l -> exists c, alookup (path_of sub fn) (s_files s1) = Some c /\ (alookup (path_of sub fn) (s_files s) = Some c \/ (alookup (path_of sub fn) (s_files s) = None /\ exists fn', In fn' l /\ path_of sub fn' = path_of sub fn /\ serve (url_of sub fn') = Ok c))).
      { assert (KK : forall l s s', fetched sub l s s' -> forall q c, alookup q (s_files s) = Some c -> alookup q (s_files s') = Some c).
        { clear. intros l s s' F. induction F as [|fn l s s' c A F IH|fn l s s1 s' c A S U L F IH]; intros q c' Q; auto. apply IH. rewrite L. destruct (String.eqb_spec q (path_of sub fn)) as [->|N]; [congruence|exact Q]. }
        induction F as [|fn l s s' c A F IH|fn l s s1 s' c A S U L F IH]; intros fn' I; [destruct I| |].
        - destruct I as [<-|I].
          + exists c. split; [exact (KK _ _ _ F _ _ A)|left; exact A].
          + destruct (IH fn' I) as (c' & B & D). exists c'. split; [exact B|]. destruct D as [D|(D & f2 & I2 & P2 & S2)]; [left; exact D|right; split; [exact D|exists f2; cbn; auto]].
        - destruct I as [<-|I].
          + exists c. assert (B : alookup (path_of sub fn) (s_files s1) = Some c) by (rewrite L, String.eqb_refl; reflexivity). split; [exact (KK _ _ _ F _ _ B)|]. right. split; [exact A|]. exists fn. cbn. auto.
          + destruct (IH fn' I) as (c' & B & D). exists c'. split; [exact B|]. rewrite L in D. destruct (String.eqb_spec (path_of sub fn') (path_of sub fn)) as [Q|N].
            * right. split; [rewrite Q; exact A|]. destruct D as [D|(D & _)]; [|discriminate D]. injection D as <-. exists fn. cbn. auto.
            * destruct D as [D|(D & f2 & I2 & P2 & S2)]; [left; exact D|right; split; [exact D|exists f2; cbn; auto]]. }
      exact G.
  Qed.
  (** A file that is there is never asked for again, whatever is in it: also one that a killed run left
      incomplete. *)
  Theorem C116_stale_refuted fn sub s c : alookup (path_of sub fn) (s_files s) = Some c -> get_test_data serve root (One fn) sub s = (Ok (One (path_of sub fn)), s).
  Proof. intros A. unfold get_test_data, fetch_all, amem. rewrite A. reflexivity. Qed.
End TestData.

(** ** C117: comparisons of the tests *)
Section Compare.
  Context {num : Type}.
  Variable close : num -> num -> bool.
  Lemma list_eqb_iff {X} (eqb : X -> X -> bool) : (forall a b, eqb a b = true <-> a = b) -> forall l l', list_eqb eqb l l' = true <-> l = l'.
  Proof.
    clear. intros E. induction l as [|x l IH]; intros [|y l']; [cbn; tauto|cbn; split; discriminate..|].
    specialize (IH l'). unfold list_eqb in *. cbn [List.length combine forallb fst snd Nat.eqb]. rewrite andb_true_iff in *. rewrite andb_true_iff. split.
    - intros (A & B & C). apply E in B. subst y. f_equal. apply IH. auto.
    - intros Q. injection Q as -> ->. destruct (proj2 IH eq_refl) as [A B]. split; [exact A|]. split; [apply E; reflexivity|exact B].
  Qed.
  Lemma assert_iff b : assert_ b = Ok tt <-> b = true.
  Proof. destruct b; cbn; split; auto; discriminate. Qed.
  (** Strings and times: the coordinate is accepted just if it is the reference. *)
  Theorem C117_coord_partial (ds : cds (num := num)) name sh :
    (forall l v, v <> [] -> alookup name (x_coords ds) = Some (mkCd sh (CStr l)) -> (compare_coord close ds name (RStr v) false = Ok tt <-> l = v)) /\
    (forall l v, v <> [] -> alookup name (x_coords ds) = Some (mkCd sh (CTime l)) -> (compare_coord close ds name (RTime v) false = Ok tt <-> l = v)).
  Proof.
    split; intros l v N A; unfold compare_coord; rewrite A; cbn [bind cd_vals len_ref len_vals]; (destruct v as [|x v]; [congruence|]); change (List.length (x :: v) =? 0) with false; cbn match.
    - rewrite assert_iff. apply list_eqb_iff, String.eqb_eq.
    - destruct (assert_ (List.length l =? List.length (x :: v))) as [u|e|] eqn:AL.
      + cbn [bind]. rewrite assert_iff. apply list_eqb_iff, Z.eqb_eq.
      + split; [discriminate|]. intros ->. rewrite Nat.eqb_refl in AL. discriminate AL.
      + split; [discriminate|]. intros ->. rewrite Nat.eqb_refl in AL. discriminate AL.
  Qed.
  (** Numbers: every reference of the same length is accepted, whatever numbers are in it; two dimensions
      are refused even if they agree. *)
  Theorem C117_numbers_refuted (ds : cds (num := num)) name n l ref : alookup name (x_coords ds) = Some (mkCd [n] (CNum l)) -> (forall x, In x l -> close x x = true) -> ref <> [] -> List.length ref = List.length l ->
    compare_coord close ds name (RNum ref) false = Ok tt.
  Proof.
    intros A C N L. unfold compare_coord. rewrite A. cbn [bind cd_vals cd_shape len_ref len_vals allclose_flat]. destruct ref as [|y ref]; [congruence|]. change (List.length (y :: ref) =? 0) with false. cbn match.
    rewrite L, Nat.eqb_refl. cbn [assert_ bind]. apply assert_iff, forallb_forall. exact C.
  Qed.
  Theorem C117_grid_refuted (ds : cds (num := num)) name r c l : alookup name (x_coords ds) = Some (mkCd [r; c] (CNum l)) -> r <> 1 -> c <> 1 -> l <> [] -> compare_coord close ds name (RNum l) false = Raise ValueError.
  Proof.
    intros A R C N. unfold compare_coord. rewrite A. cbn [bind cd_vals cd_shape len_ref len_vals allclose_flat]. destruct l as [|y l]; [congruence|]. change (List.length (y :: l) =? 0) with false. cbn match.
    rewrite Nat.eqb_refl. cbn [assert_ bind]. rewrite <- Nat.eqb_neq in R, C. rewrite R, C. reflexivity.
  Qed.
  (** A column is compared with itself lying down: it is accepted just if every two of its numbers are
      close, whatever the reference. *)
  Theorem C117_column_refuted (ds : cds (num := num)) name r l ref : alookup name (x_coords ds) = Some (mkCd [r; 1] (CNum l)) -> r <> 1 -> ref <> [] -> List.length ref = List.length l ->
    (compare_coord close ds name (RNum ref) false = Ok tt <-> forall x y, In x l -> In y l -> close x y = true).
  Proof.
    intros A R N L. unfold compare_coord. rewrite A. cbn [bind cd_vals cd_shape len_ref len_vals allclose_flat]. destruct ref as [|y ref]; [congruence|]. change (List.length (y :: ref) =? 0) with false. cbn match.
    rewrite L, Nat.eqb_refl. cbn [assert_ bind]. rewrite <- Nat.eqb_neq in R. rewrite R. cbn [Nat.eqb bind]. rewrite assert_iff, forallb_forall. split.
    - intros H a b I J. specialize (H a I). rewrite forallb_forall in H. exact (H b J).
    - intros H a I. apply forallb_forall. intros b J. exact (H a b I J).
  Qed.
  (** The order of dimensions: those of the variable among the ones named are the ones named, in order,
      and each has a coordinate.  Without a variable nothing is compared. *)
  Inductive among (dims : list string) : list string -> list string -> Prop :=
  | am_nil : among dims [] []
  | am_in d l r : In d dims -> among dims l r -> among dims (d :: l) (d :: r)
  | am_out d l r : ~ In d dims -> among dims l r -> among dims (d :: l) r.
  Theorem C117_order (ds : cds (num := num)) dims v vd : alookup v (x_vars ds) = Some vd ->
    (compare_dim_order ds dims (Some v) = Ok tt <-> among dims vd dims /\ forall d, In d dims -> exists c, alookup d (x_coords ds) = Some c).
  Proof.
    intros A. unfold compare_dim_order. rewrite A. set (order := filter _ vd).
    assert (AM : forall r, among dims vd r <-> r = order).
    { subst order. clear A. intros r. split.
      - intros M. induction M as [|d l r I M IH|d l r I M IH]; cbn; [reflexivity| |].
        + apply in_there in I. rewrite I. congruence.
        + destruct (existsb (String.eqb d) dims) eqn:X; [apply in_there in X; contradiction|exact IH].
      - intros ->. induction vd as [|d l IH]; cbn; [constructor|]. destruct (existsb (String.eqb d) dims) eqn:X; [apply in_there in X; constructor; assumption|]. apply am_out; [rewrite <- in_there, X; discriminate|exact IH]. }
    rewrite AM. destruct (assert_ (forallb _ order)) as [[]|e|] eqn:F.
    - cbn [bind]. rewrite assert_iff, list_eqb_iff by apply String.eqb_eq. apply assert_iff in F. rewrite forallb_forall in F. split; [|intros [Q _]; auto].
      intros Q. split; [auto|]. rewrite <- Q. intros d I. specialize (F d I). unfold amem in F. destruct (alookup d (x_coords ds)); [eauto|discriminate F].
    - split; [discriminate|]. intros [<- C]. assert (T : forallb (fun d => amem d (x_coords ds)) dims = true) by (apply forallb_forall; intros d I; destruct (C d I) as (c & E); unfold amem; rewrite E; reflexivity). rewrite T in F. discriminate F.
    - split; [discriminate|]. intros [<- C]. assert (T : forallb (fun d => amem d (x_coords ds)) dims = true) by (apply forallb_forall; intros d I; destruct (C d I) as (c & E); unfold amem; rewrite E; reflexivity). rewrite T in F. discriminate F.
  Qed.
  Theorem C117_sizes (ds : cds (num := num)) dims : compare_dim_size ds dims = Ok tt <-> forall k n, In (k, n) dims -> alookup k (x_sizes ds) = Some n.
  Proof.
    induction dims as [|[k n] r IH]; cbn [compare_dim_size]; [split; [intros _ ? ? []|auto]|].
    destruct (alookup k (x_sizes ds)) as [m|] eqn:A.
    - destruct (Nat.eqb_spec m n) as [->|N]; cbn [assert_ bind].
      + rewrite IH. split; [intros H k' n' [Q|I]; [injection Q as <- <-; exact A|exact (H _ _ I)]|intros H k' n' I; apply H; right; exact I].
      + split; [discriminate|]. intros H. specialize (H k n (or_introl eq_refl)). congruence.
    - cbn. split; [discriminate|]. intros H. specialize (H k n (or_introl eq_refl)). congruence.
  Qed.
End Compare.
(** The helper for nearest neighbours never looks at the last row of the reference, and refuses the
    reference itself if its first row is zero and its last one is not. *)
Theorem C117_nn_refuted rtol : (forall res ref r r', 2 <= List.length ref -> compare_nn rtol res (removelast ref ++ [r]) = compare_nn rtol res (removelast ref ++ [r'])) /\
  (forall mid x n, ~ (x == 0)%Q -> compare_nn rtol ([repeat 0%Q (S n)] ++ mid ++ [repeat x (S n)]) ([repeat 0%Q (S n)] ++ mid ++ [repeat x (S n)]) = false).
Proof.
  split.
  - intros res ref r r' L. destruct ref as [|a [|b ref]]; cbn in L; [lia..|]. cbn [removelast app]. unfold compare_nn. destruct res as [|a0 res]; [reflexivity|].
    set (m := match ref with [] => [] | _ :: _ => b :: removelast ref end).
    assert (I : forall z, inner (a :: m ++ [z]) = m) by (intros z; unfold inner; cbn [tl]; apply removelast_last). rewrite !I. reflexivity.
  - intros mid x n X. unfold compare_nn. cbn [app]. set (res := _ :: _). assert (LR : last_row res = repeat x (S n)) by (unfold last_row, res; rewrite app_comm_cons; apply last_last). rewrite LR.
    assert (F : rows_close 10 (repeat x (S n)) (repeat 0%Q (S n)) = false).
    { unfold rows_close. rewrite !repeat_length, Nat.eqb_refl. cbn [repeat combine forallb fst snd andb]. assert (CT : close_to 10 x 0 = false); [|rewrite CT; reflexivity].
      unfold close_to. destruct (Qle_bool _ _) eqn:Q; [|reflexivity]. apply Qle_bool_iff in Q. exfalso. apply X.
      assert (Z : (10 * Qabs 0 == 0)%Q) by reflexivity. rewrite Z in Q. pose proof (Qabs_nonneg (x - 0)) as P. assert (E : (Qabs (x - 0) == 0)%Q) by (apply Qle_antisym; assumption).
      assert (E2 : (x - 0 == 0)%Q). { revert E. apply Qabs_case; intros _ E; [exact E|]. rewrite <- (Qopp_involutive (x - 0)), E. reflexivity. }
      rewrite <- E2. ring. }
    rewrite F, andb_false_r. reflexivity.
Qed.

(** ** The hypotheses are met *)
Example C114_met : with_temp_file "t" (fun f => (Ok 5%Z, f ++ ["x"])) ["a"] = (Ok 5%Z, None, ["a"; "x"]) /\
  with_temp_file "t" (fun f => (Ok 5%Z, ["a"])) ["a"] = (Raise FileNotFoundError, Some "t", ["a"]).
Proof. split; reflexivity. Qed.
Definition demo_execute (n : string) (l : list string) : string * outcome unit := if String.eqb n "generate_x" then (String.concat "," l, Good tt) else ("half", Bad KeyError).
Example C115_met : let run c := run_directive (Good "a.rst") (fun _ => Good tt) demo_execute (fun _ => Good tt) (fun _ => "T") c (mkDst None "" ["before"] None None) in
  d_inserted (snd (run [""; "generate-x a b"])) = ["before"; "a,b"] /\ d_inserted (snd (run ["other"])) = ["before"; ("other" ++ String "010"%char "T")%string] /\
  first_line [""; "generate-x a b"] "generate-x a b" /\ words "generate-x a b" ["generate-x"; "a"; "b"].
Proof.
  split; [vm_compute; reflexivity|]. split; [vm_compute; reflexivity|]. split.
  - split; [discriminate|]. exists [""], []. split; [reflexivity|repeat constructor].
  - exact (split_words "generate-x a b").
Qed.
Example C116_met : exists s', get_test_data (fun u => Ok u) "/r" (Many ["a.npz"; "b.npz"]) "global_0_360" (mkDs [("/r/tests/data/global_0_360/a.npz", "old")] []) = (Ok (Many ["/r/tests/data/global_0_360/a.npz"; "/r/tests/data/global_0_360/b.npz"]), s') /\
  s_urls s' = ["https://sites.ecmwf.int/repository/earthkit-regrid/test-data/global_0_360/b.npz"].
Proof. eexists. split; vm_compute; reflexivity. Qed.
Example C117_met : let ds := mkCds [("level", mkCd [2] (CNum [500; 700]%Z)); ("name", mkCd [1] (CStr ["t"]))] [("level", 2)] [("t", ["name"; "level"])] in
  compare_coord Z.eqb ds "level" (RNum [1; 2]%Z) true = Ok tt /\ compare_coord Z.eqb ds "name" (RStr ["t"]) false = Ok tt /\ compare_dim_order ds ["name"; "level"] (Some "t") = Ok tt /\
  compare_dim_order ds ["level"; "name"] (Some "t") = Raise AssertionError.
Proof. repeat split. Qed.

Example C117_column_met : let ds := mkCds [("level", mkCd [2; 1] (CNum [500; 700]%Z))] [] [] in
  compare_coord Z.eqb ds "level" (RNum [500; 700]%Z) false = Raise AssertionError /\ compare_coord (fun _ _ => true) ds "level" (RNum [1; 2]%Z) false = Ok tt.
Proof. split; reflexivity. Qed.
Print Assumptions C114_with.
Print Assumptions C114_once.
Print Assumptions C114_own_partial.
Print Assumptions C114_foreign_refuted.
Print Assumptions C115_restored.
Print Assumptions C115_inserted.
Print Assumptions C115_refuted.
Print Assumptions C116_delivered.
Print Assumptions C116_stale_refuted.
Print Assumptions C117_coord_partial.
Print Assumptions C117_numbers_refuted.
Print Assumptions C117_grid_refuted.
Print Assumptions C117_column_refuted.
Print Assumptions C117_order.
Print Assumptions C117_sizes.
Print Assumptions C117_nn_refuted.
