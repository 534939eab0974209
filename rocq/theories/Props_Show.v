(** Properties C121 to C124: what the package shows (the configuration as text, as an HTML
    table and as a listing; the HTML listing of the disk cache) and the role [:xref:] of the
    documentation.  Vocabulary: ShowSpec.v.  Model: Show.v. *)
From Coq Require Import Permutation Sorted.
From Verif Require Import PyBase ListLemmas PyStr Config ConfigSpec ConfigProofs ConfigProofs2 ConfigProofs3 Startup StartupSpec StartupProofs Show ShowSpec ShowProofs.
Local Open Scope string_scope.
Local Open Scope list_scope.
Local Open Scope Z_scope.

(** None, a boolean, an integer or a text. *)
Definition simple {Obj} (v : value Obj) : Prop := exists t, prints v t.
Lemma simple_iff {Obj} (v : value Obj) : simple v <-> no_object v.
Proof.
  split; [intros (t & H); destruct H; exact I|]. intros H. exists (str_of Obj (fun _ => "") v). apply str_prints, H.
Qed.

Section Statements.
Context {Obj : Type} (obj_str obj_repr : Obj -> string) (obj_bool obj_yaml : Obj -> bool).
Context (home sheet : string) (writable : string -> bool) (version : string).
Context {ObsSt : Type} (obs : nat -> (string -> result (value Obj)) -> ObsSt -> ObsSt * result unit).
Notation exec := (exec Obj obj_str obj_bool home writable version ObsSt obs).
Notation get := (get Obj obj_str home ObsSt).
Notation start := (start Obj obj_yaml home writable version ObsSt).
Notation st := (st Obj ObsSt).
Notation html := (html Obj obj_repr home sheet).
Notation text := (text Obj obj_str home).

(** C121: two processes, whatever they did and whatever their configuration files and
    environments: if the HTML tables of their configurations are equal, then get gives the
    same in both for every name.  Values may be any texts, also ones that imitate the
    markup of the table. *)
Theorem C121_same_table : forall p files env o c (s : st) r p' files' env' o' c' (s' : st) r',
  exec c (start p files env o) = (s, r) -> exec c' (start p' files' env' o') = (s', r') ->
  (forall k v, In (k, v) (vals (top s)) -> simple v /\ without "<" k) ->
  (forall k v, In (k, v) (vals (top s')) -> simple v /\ without "<" k) ->
  html (vals (top s)) (environ s) = html (vals (top s')) (environ s') ->
  forall n, get s n = get s' n.
Proof.
  intros p files env o c s r p' files' env' o' c' s' r' R R' P P' E n.
  apply html_code in E; [|intros k v I; destruct (P k v I) as [A B]; split; [apply simple_iff, A|exact B]|intros k v I; destruct (P' k v I) as [A B]; split; [apply simple_iff, A|exact B]].
  destruct E as [S V]. apply reach_WF in R, R'. destruct R as [N A], R' as [N' A']. unfold Config.get, get_in.
  destruct (alookup n (options Obj home)) as [op|] eqn:O; [|reflexivity].
  assert (I : In n (akeys (options Obj home))) by (apply alookup_In in O; rewrite akeys_map; apply in_map_iff; exists (n, op); auto).
  apply A in I. rewrite akeys_map in I. apply in_map_iff in I. destruct I as ([k v] & K & I). cbn in K. subst k.
  rewrite <- (V n v I). pose proof I as I'. apply S in I'. apply lookup_in in I, I'; try assumption. rewrite I, I'. reflexivity.
Qed.
(** The same for any two configurations: the table tells the entries and the variables that
    override them. *)
Theorem C121_table : forall vals vals' env env',
  (forall k v, In (k, v) vals -> simple v /\ without "<" k) -> (forall k v, In (k, v) vals' -> simple v /\ without "<" k) ->
  html vals env = html vals' env' ->
  (forall k v, In (k, v) vals <-> In (k, v) vals') /\
  (forall k v, In (k, v) vals -> alookup (env_var_name k) env = alookup (env_var_name k) env').
Proof.
  intros vals vals' env env' P P'. apply html_code; intros k v I; [destruct (P k v I) as [A B]|destruct (P' k v I) as [A B]]; (split; [apply simple_iff, A|exact B]).
Qed.

(** C122: the printed form, under one environment, tells the names, and the values as
    Python's str writes them, if no name has a colon and nothing has a newline. *)
Theorem C122_text_partial : forall vals vals' env,
  (forall k v, In (k, v) (vals ++ vals') -> without ":" k /\ without NL k /\ simple v /\ (forall t, prints v t -> without NL t)) ->
  (forall k t, alookup k env = Some t -> without NL t) -> without NL home ->
  text vals env = text vals' env ->
  forall k v, In (k, v) vals -> exists v' t, In (k, v') vals' /\ prints v t /\ prints v' t.
Proof.
  intros vals vals' env P PE PH E. unfold Show.text in E.
  assert (P1 : forall p, In p (sorted_items Obj vals) -> In p vals) by (intros p I; eapply Permutation_in; [apply sorted_perm|exact I]).
  assert (P2 : forall p, In p (sorted_items Obj vals') -> In p vals') by (intros p I; eapply Permutation_in; [apply sorted_perm|exact I]).
  assert (LINE : forall l p, In p (vals ++ vals') -> without NL (text_line Obj obj_str home (env_items Obj l env) p) /\ text_line Obj obj_str home (env_items Obj l env) p <> "").
  { intros l [k v] I. destruct (P k v I) as (A & B & C & D).
    assert (DN : without NL (str_of Obj obj_str (default_of Obj home k))).
    { unfold default_of. destruct (alookup k (options Obj home)) as [op|] eqn:O; [|intros []]. apply alookup_In in O. cbn in O.
      repeat (destruct O as [O|O]; [injection O as _ <-; cbn; try (vm_compute; intuition discriminate)|]); [|contradiction].
      apply without_app. split; [exact PH|]. vm_compute; intuition discriminate. }
    assert (VN : without NL (str_of Obj obj_str v)) by (apply D, str_prints, simple_iff, C).
    unfold text_line. destruct (alookup k (env_items Obj l env)) as [[n t]|] eqn:Q.
    - pose proof (env_items_proper l env k n t Q) as EN. subst n.
      assert (ET : alookup (env_var_name k) env = Some t).
      { unfold env_items in Q. rewrite env_items_lookup in Q. destruct (existsb _ _); [|discriminate Q]. destruct (alookup (env_var_name k) env); [|discriminate Q]. cbn in Q. congruence. }
      split; [|destruct k; discriminate].
      assert (NN : without NL (env_var_name k)).
      { unfold env_var_name. apply without_app. split; [vm_compute; intuition discriminate|]. unfold without, replace1, upper. rewrite !chars_of_chars, map_map.
        intros X. apply in_map_iff in X. destruct X as (c & X & Y). apply B. revert X. destruct c as [[] [] [] [] [] [] [] []]; vm_compute; intros X; try discriminate X; exact Y. }
      pose proof (PE _ _ ET) as TN.
      repeat first [assumption|apply without_app; split]; vm_compute; intuition discriminate.
    - split; [|destruct k; discriminate]. repeat first [assumption|apply without_app; split]; vm_compute; intuition discriminate. }
  apply joined_lines in E.
  - intros k v I. assert (I2 : In (k, v) (sorted_items Obj vals)) by (eapply Permutation_in; [symmetry; apply sorted_perm|exact I]).
    assert (G : forall l l', map (text_line Obj obj_str home (env_items Obj vals env)) l = map (text_line Obj obj_str home (env_items Obj vals' env)) l' ->
      (forall p, In p l -> In p vals) -> (forall p, In p l' -> In p vals') -> In (k, v) l -> exists v', In (k, v') l' /\ str_of Obj obj_str v = str_of Obj obj_str v').
    { induction l as [|q l IH]; intros [|q' l'] M M1 M2 J; try contradiction; try discriminate M. cbn in M. injection M as M3 M4.
      destruct J as [->|J].
      - destruct q' as [k' v']. apply (line_code _ _ (fun k => option_map (fun t => (env_var_name k, t)) (alookup (env_var_name k) env))) in M3.
        + cbn in M3. destruct M3 as [<- M3]. exists v'. split; [left; reflexivity|exact M3].
        + cbn [fst]. eapply env_items_in, M1. left. reflexivity.
        + cbn [fst]. eapply env_items_in, M2. left. reflexivity.
        + cbn. apply (P k v). apply in_or_app. left. apply M1. left. reflexivity.
        + cbn. apply (P k' v'). apply in_or_app. right. apply M2. left. reflexivity.
      - destruct (IH l' M4) as (v' & J1 & J2); [intros p J0; apply M1; right; exact J0|intros p J0; apply M2; right; exact J0|exact J|].
        exists v'. split; [right; exact J1|exact J2]. }
    destruct (G _ _ E P1 P2 I2) as (v' & J1 & J2). apply P2 in J1. exists v', (str_of Obj obj_str v). split; [exact J1|].
    split; [apply str_prints, simple_iff, (P k v); apply in_or_app; left; exact I|]. rewrite J2. apply str_prints, simple_iff, (P k v'). apply in_or_app. right. exact J1.
  - intros x I. apply in_map_iff in I. destruct I as (p & <- & I). apply LINE. apply in_or_app. left. apply P1, I.
  - intros x I. apply in_map_iff in I. destruct I as (p & <- & I). apply LINE. apply in_or_app. right. apply P2, I.
Qed.

(** C122: dump lists every entry once, in the order of the names, with its stored value and
    its documented default. *)
Theorem C122_dump : forall p files env o c (s : st) r, exec c (start p files env o) = (s, r) ->
  increasing (map (fun x => fst (fst x)) (dump Obj home (vals (top s)))) /\
  (forall k v, (exists o, In (k, v, o) (dump Obj home (vals (top s)))) <-> In (k, v) (vals (top s))) /\
  (forall k v o, In (k, v, o) (dump Obj home (vals (top s))) ->
     forall d, In (k, d) (stated home) -> exists op, o = Some op /\ o_default Obj op = d).
Proof.
  intros p files env o c s r R. apply reach_WF in R. destruct R as [N _]. unfold dump. split; [|split].
  - rewrite map_map. cbn [fst]. pose proof (sorted_strict _ N) as S. induction S as [|x l S IH F]; [exact I|].
    cbn. split; [|exact IH]. intros m I. rewrite Forall_forall in F. apply in_map_iff in I. destruct I as (q & <- & I). apply F, I.
  - intros k v. split.
    + intros (op & I). apply in_map_iff in I. destruct I as ([k' v'] & E & I). cbn in E. injection E as <- <- _. eapply Permutation_in; [apply sorted_perm|exact I].
    + intros I. eexists. apply in_map_iff. exists (k, v). split; [reflexivity|]. eapply Permutation_in; [symmetry; apply sorted_perm|exact I].
  - intros k v op I d D. apply in_map_iff in I. destruct I as ([k' v'] & E & I). cbn [fst snd] in E. injection E as <- <- E.
    rewrite <- E. cbn in D. repeat (destruct D as [D|D]; [injection D as <- <-; eexists; split; reflexivity|]). contradiction.
Qed.

Lemma repr_ordinary t : ordinary t -> repr_str t = ("'" ++ t ++ "'")%string.
Proof.
  intros T. unfold repr_str. assert (Q : quote_of t = SQ).
  { unfold quote_of. destruct (has SQ t) eqn:H; [|reflexivity]. exfalso. apply hasP in H. destruct (T _ H) as (_ & X & _). apply X. reflexivity. }
  rewrite Q. change SQ with "'"%char. cbn [append]. f_equal. f_equal. clear Q. induction t as [|c t IH]; [reflexivity|]. cbn [shown_chars]. rewrite IH by (intros x X; apply T; right; exact X).
  destruct (T c (or_introl eq_refl)) as (C1 & C2 & C3). unfold shown_char. destruct (Ascii.eqb_spec c "'") as [->|D]; [exfalso; apply C2; reflexivity|].
  destruct (Ascii.eqb_spec c BS) as [->|D2]; [exfalso; apply C3; reflexivity|]. cbn [orb].
  destruct (Z.eqb_spec (code c) 10); [lia|]. destruct (Z.eqb_spec (code c) 13); [lia|]. destruct (Z.eqb_spec (code c) 9); [lia|].
  destruct (Z.ltb_spec (code c) 32); [lia|]. destruct (Z.eqb_spec (code c) 127); [lia|]. reflexivity.
Qed.
Lemma literal_repr v t : literal v t -> repr_of Obj obj_repr v = t.
Proof. destruct 1; try reflexivity. apply repr_ordinary, H. Qed.
Lemma default_stated k D : its_default home k D -> default_of Obj home k = D.
Proof.
  unfold its_default, default_of. intros [I|[N ->]].
  - cbn in I. repeat (destruct I as [I|I]; [injection I as <- <-; reflexivity|]). contradiction.
  - destruct (alookup k (options Obj home)) as [op|] eqn:O; [|reflexivity]. exfalso. apply alookup_In in O.
    apply (N (o_default Obj op)). rewrite <- (defaults_stated (Obj := Obj) home). unfold defaults. apply in_map_iff. exists (k, op). auto.
Qed.
Lemma in_order (s : st) (N : NoDup (akeys (vals (top s)))) :
  increasing (map fst (sorted_items Obj (vals (top s)))) /\ (forall p, In p (sorted_items Obj (vals (top s))) <-> In p (vals (top s))).
Proof.
  split.
  - pose proof (sorted_strict _ N) as S. induction S as [|x l S IH F]; [exact I|].
    cbn. split; [|exact IH]. intros m I. rewrite Forall_forall in F. apply in_map_iff in I. destruct I as (q & <- & I). apply F, I.
  - intros p. split; intros I; (eapply Permutation_in; [|exact I]); [apply sorted_perm|symmetry; apply sorted_perm].
Qed.

(** C121: the table has one row for each entry, in the order of the names: the name, the
    value, the default; with the variable that overrides it, if there is one. *)
Theorem C121_rows : forall p files env o c (s : st) r, exec c (start p files env o) = (s, r) ->
  exists entries rows, increasing (map fst entries) /\ (forall p, In p entries <-> In p (vals (top s))) /\
    Forall2 (tells home env_var_name (environ s)) entries rows /\
    html (vals (top s)) (environ s) =
      ("<style type=""text/css"">" ++ sheet ++ "</style><table class='ek'><tr><th>Name</th><th>Value</th><th>Default</th></tr>" ++
       together rows ++ "</table>")%string.
Proof.
  intros p files env o c s r R. apply reach_WF in R. destruct R as [N _]. destruct (in_order s N) as [A B].
  exists (sorted_items Obj (vals (top s))), (map (html_row Obj obj_repr home (env_items Obj (vals (top s)) (environ s))) (sorted_items Obj (vals (top s)))).
  split; [exact A|]. split; [exact B|]. split.
  - assert (G : forall l, (forall p, In p l -> In p (vals (top s))) -> Forall2 (tells home env_var_name (environ s)) l (map (html_row Obj obj_repr home (env_items Obj (vals (top s)) (environ s))) l)).
    { induction l as [|[k v] l IH]; intros H; cbn [map]; constructor; [|apply IH; intros q I; apply H; right; exact I].
      intros tv d D Lv LD Ld. cbn [fst snd] in *. unfold html_row. rewrite (env_items_in _ (environ s) k v (H _ (or_introl eq_refl))).
      rewrite (default_stated _ _ LD), (literal_repr _ _ Lv), (literal_repr _ _ Ld). split.
      - intros ->. reflexivity.
      - intros t -> T. cbn [option_map]. rewrite (repr_ordinary t T). f_equal. f_equal. f_equal. f_equal. rewrite !sapp_assoc. reflexivity. }
    apply G. intros q I. apply B, I.
  - unfold Show.html, css. rewrite !sapp_assoc. cbn [append joined]. do 24 f_equal. f_equal.
    generalize (map (html_row Obj obj_repr home (env_items Obj (vals (top s)) (environ s))) (sorted_items Obj (vals (top s)))). intros l.
    assert (G : joined "" l = together l) by (induction l as [|x l IH]; [reflexivity|]; rewrite joined_cons, IH; reflexivity).
    rewrite G. reflexivity.
Qed.

(** C122: the printed form has one line for each entry, in the order of the names. *)
Theorem C122_lines : forall p files env o c (s : st) r, exec c (start p files env o) = (s, r) ->
  exists entries lines, increasing (map fst entries) /\ (forall p, In p entries <-> In p (vals (top s))) /\
    Forall2 (says home env_var_name (environ s)) entries lines /\ text (vals (top s)) (environ s) = stacked lines.
Proof.
  intros p files env o c s r R. apply reach_WF in R. destruct R as [N _]. destruct (in_order s N) as [A B].
  exists (sorted_items Obj (vals (top s))), (map (text_line Obj obj_str home (env_items Obj (vals (top s)) (environ s))) (sorted_items Obj (vals (top s)))).
  split; [exact A|]. split; [exact B|]. split.
  2: { unfold Show.text. generalize (map (text_line Obj obj_str home (env_items Obj (vals (top s)) (environ s))) (sorted_items Obj (vals (top s)))). induction l as [|x [|y l] IH]; [reflexivity|reflexivity|].
       change (x ++ String NL "" ++ joined (String NL "") (y :: l) = x ++ String (ascii_of_nat 10) "" ++ stacked (y :: l))%string. rewrite IH. reflexivity. }
  assert (G : forall l, (forall p, In p l -> In p (vals (top s))) -> Forall2 (says home env_var_name (environ s)) l (map (text_line Obj obj_str home (env_items Obj (vals (top s)) (environ s))) l)).
  { induction l as [|[k v] l IH]; intros H; cbn [map]; constructor; [|apply IH; intros q I; apply H; right; exact I].
    intros tv d D Lv LD Ld. cbn [fst snd] in *. unfold text_line. rewrite (env_items_in _ (environ s) k v (H _ (or_introl eq_refl))).
    rewrite (default_stated _ _ LD), (prints_str obj_str _ _ Lv), (prints_str obj_str _ _ Ld). split.
    - intros ->. reflexivity.
    - intros t ->. reflexivity. }
  apply G. intros q I. apply B, I.
Qed.

(** C123: if neither names nor values nor variables have markup, every mark of the table is
    closed in order. *)
Theorem C123_table_partial : forall vals env, without "<" sheet -> without "<" home ->
  (forall k v, In (k, v) vals -> without "<" k /\ simple v /\ (forall t, prints v t -> without "<" t)) ->
  (forall n t, alookup n env = Some t -> without "<" t) -> well_formed (html vals env).
Proof.
  intros vals env KS KH P PE. apply html_nested; try assumption. apply Forall_forall. intros [k v] I. destruct (P k v I) as (A & B & C).
  split; [exact A|]. split; [apply simple_iff, B|]. split; [exact C|]. intros t. apply PE.
Qed.
(** C123 refuted: the listing of a cache that has entries is never well formed; whatever the
    other columns hold. *)
Theorem C123_cache_refuted : forall e es, without "<" sheet -> without "<" (fst e) -> ~ well_formed (cache_html sheet (e :: es)).
Proof. intros e es K. apply cache_not_nested, K. Qed.
Theorem C123_cache_empty_partial : without "<" sheet -> well_formed (cache_html sheet []).
Proof. intros K. apply cache_empty, K. Qed.
(** C123 refuted: a value stands in the table as it is. *)
Theorem C123_markup_refuted : forall vals k t env,
  (forall c, In c (chars t) -> 32 <= code c < 127 /\ ~ In c [SQ; BS]) -> In (k, VStr t) vals -> exists a b, html vals env = (a ++ t ++ b)%string.
Proof.
  intros vals k t env T I.
  assert (R : repr_of Obj obj_repr (VStr t) = String SQ (t ++ String SQ "")%string).
  { cbn. unfold repr_str. assert (Q : quote_of t = SQ).
    { unfold quote_of. destruct (has SQ t) eqn:H; [|reflexivity]. exfalso. apply hasP in H. destruct (T _ H) as [_ X]. apply X. left. reflexivity. }
    rewrite Q. f_equal. f_equal. clear I Q. induction t as [|c t IH]; [reflexivity|]. cbn [shown_chars]. rewrite IH by (intros x X; apply T; right; exact X).
    destruct (T c (or_introl eq_refl)) as [C1 C2]. unfold shown_char. destruct (Ascii.eqb_spec c SQ) as [->|D]; [exfalso; apply C2; left; reflexivity|].
    destruct (Ascii.eqb_spec c BS) as [->|D2]; [exfalso; apply C2; right; left; reflexivity|]. cbn [orb].
    destruct (Z.eqb_spec (code c) 10); [lia|]. destruct (Z.eqb_spec (code c) 13); [lia|]. destruct (Z.eqb_spec (code c) 9); [lia|].
    destruct (Z.ltb_spec (code c) 32); [lia|]. destruct (Z.eqb_spec (code c) 127); [lia|]. reflexivity. }
  assert (J : In (k, VStr t) (sorted_items Obj vals)) by (eapply Permutation_in; [symmetry; apply sorted_perm|exact I]).
  assert (G : forall e l, In (k, VStr t) l -> exists a b, joined "" (map (html_row Obj obj_repr home e) l) = (a ++ t ++ b)%string).
  { intros e. induction l as [|x l IH]; intros X; [contradiction|]. cbn [map]. rewrite joined_cons. destruct X as [->|X].
    - unfold html_row. rewrite R. destruct (alookup k e) as [[n u]|].
      + exists ("<tr><td>" ++ k ++ "</td><td>" ++ n ++ "=" ++ repr_str u ++ "<br>(" ++ String SQ "")%string. eexists. rewrite !sapp_assoc. cbn. do 4 f_equal.
        rewrite ?sapp_assoc. cbn. reflexivity.
      + exists ("<tr><td>" ++ k ++ "</td><td>" ++ String SQ "")%string. eexists. rewrite !sapp_assoc. cbn. rewrite ?sapp_assoc. reflexivity.
    - destruct (IH X) as (a & b & E). rewrite E. exists (html_row Obj obj_repr home e x ++ a)%string, b. rewrite !sapp_assoc. reflexivity. }
  destruct (G (env_items Obj vals env) _ J) as (a & b & E). unfold Show.html. rewrite E.
  exists (css sheet ++ "<table class='ek'>" ++ ("<tr><th>" ++ joined "</th><th>" ["Name"; "Value"; "Default"] ++ "</th></tr>") ++ a)%string, (b ++ "</table>")%string.
  rewrite !sapp_assoc. reflexivity.
Qed.
End Statements.

(** C122 refuted: the texts None and the value None print alike, whatever else is set; a
    value can imitate a variable of the environment. *)
Section Refuted.
Context {Obj : Type} (obj_str : Obj -> string) (home : string).
Notation start_vals := (defaults Obj home).
Theorem C122_text_refuted : forall env, alookup "EARTHKIT_REGRID_TEMPORARY_DIRECTORY_ROOT" env = None ->
  text Obj obj_str home (aset "temporary-directory-root" (VStr "None") start_vals) env = text Obj obj_str home start_vals env /\
  get_in Obj obj_str home (aset "temporary-directory-root" (VStr "None") start_vals) env "temporary-directory-root" = Ok (VStr "None") /\
  get_in Obj obj_str home start_vals env "temporary-directory-root" = Ok VNone.
Proof.
  intros env H. split; [|split].
  - assert (E : env_items Obj (aset "temporary-directory-root" (VStr "None") start_vals) env = env_items Obj start_vals env) by reflexivity.
    unfold text. rewrite E. generalize (env_items Obj start_vals env). reflexivity.
  - unfold get_in. change (env_var_name "temporary-directory-root") with "EARTHKIT_REGRID_TEMPORARY_DIRECTORY_ROOT". rewrite H. reflexivity.
  - unfold get_in. change (env_var_name "temporary-directory-root") with "EARTHKIT_REGRID_TEMPORARY_DIRECTORY_ROOT". rewrite H. reflexivity.
Qed.
Theorem C122_environment_refuted : exists env v,
  text Obj obj_str home (aset "cache-policy" (VStr "off") start_vals) env =
  text Obj obj_str home (aset "cache-policy" v start_vals) [] /\
  get_in Obj obj_str home (aset "cache-policy" (VStr "off") start_vals) env "cache-policy" <> get_in Obj obj_str home (aset "cache-policy" v start_vals) [] "cache-policy".
Proof.
  exists [("EARTHKIT_REGRID_CACHE_POLICY", "temporary")], (VStr "EARTHKIT_REGRID_CACHE_POLICY=temporary, off"). split; [reflexivity|].
  intros E. cbn in E. discriminate E.
Qed.
(** C122 refuted: dump gives what is stored, not what is in force. *)
Theorem C122_dump_refuted : forall t env, t <> "user" -> alookup "EARTHKIT_REGRID_CACHE_POLICY" env = Some t ->
  get_in Obj obj_str home start_vals env "cache-policy" = Ok (VStr t) /\
  forall v o, In ("cache-policy", v, o) (dump Obj home start_vals) -> v = VStr "user".
Proof.
  intros t env NE H. split.
  - unfold get_in. change (env_var_name "cache-policy") with "EARTHKIT_REGRID_CACHE_POLICY". rewrite H. reflexivity.
  - intros v o I. cbn in I. repeat (destruct I as [I|I]; [try discriminate I; injection I as <- _; reflexivity|]). contradiction.
Qed.
End Refuted.

(** C124: the role xref.  A text without [<] is the target, and the link has the name given
    in the table. *)
Theorem C124_plain : forall links t name uri, without "<" t -> alookup t links = Some (name, uri) -> xref links t = Ok (name, uri).
Proof. intros links t name uri W L. unfold xref. rewrite find_none by exact W. rewrite L. reflexivity. Qed.
(** [title <target>]: for every title, also one that has [<] itself, and any white space
    before the target. *)
Theorem C124_titled : forall links title w target name uri,
  title <> "" -> ~ ends_in_blank title -> blank w -> without "<" target -> (w = "" -> forall a, title <> (a ++ String NUL "")%string) ->
  alookup target links = Some (name, uri) -> xref links (title ++ w ++ "<" ++ target ++ ">")%string = Ok (title, uri).
Proof.
  intros links title w target name uri NE EB B W Z L. unfold xref.
  assert (C : chars (title ++ w ++ "<" ++ target ++ ">")%string = (chars title ++ chars w) ++ LT :: (chars target ++ [GT])).
  { rewrite !chars_app. rewrite <- app_assoc. reflexivity. }
  rewrite C.
  assert (FD : exists a b, find_char LT ((chars title ++ chars w) ++ LT :: (chars target ++ [GT])) = Some (a, b)).
  { generalize (chars title ++ chars w). intros l. induction l as [|c l IH]; cbn [find_char app]; [rewrite Ascii.eqb_refl; eauto|]. destruct (Ascii.eqb c LT); [eauto|]. destruct IH as (a & b & ->). eauto. }
  destruct FD as (a & b & ->).
  assert (EX : explicit_title ((chars title ++ chars w) ++ LT :: (chars target ++ [GT])) = Some (chars title, chars target)).
  { unfold explicit_title. rewrite rfind_some by (intros I; apply in_app_or in I; destruct I as [I|[I|[]]]; [exact (W I)|discriminate I]).
    assert (TN : chars title <> []) by (destruct title; [contradiction|discriminate]).
    assert (BS1 : before_space (chars title ++ chars w) = chars title).
    { apply before_space_app; [exact TN| |].
      - intros c I. specialize (B c I). cbn in B. repeat (destruct B as [<-|B]; [reflexivity|]). contradiction.
      - intros x c E. destruct (is_space c) eqn:S; [|reflexivity]. exfalso. apply EB. exists (of_chars x), (String c "").
        split; [|split; [discriminate|]].
        + apply chars_inj. rewrite chars_app, chars_of_chars. exact E.
        + cbn. intros d [<-|[]]. exact S. }
    destruct (chars title ++ chars w) as [|x l] eqn:EL; [destruct (chars title); [contradiction|discriminate EL]|].
    destruct (rev (x :: l)) as [|z r] eqn:R; [exfalso; apply (f_equal (@rev ascii)) in R; rewrite rev_involutive in R; discriminate R|].
    assert (ZN : Ascii.eqb z NUL = false).
    { apply Ascii.eqb_neq. intros ->. assert (EQ : chars title ++ chars w = rev r ++ [NUL]) by (rewrite EL, <- (rev_involutive (x :: l)), R; reflexivity).
      destruct (chars w) as [|c w'] eqn:CW using rev_ind.
      - rewrite app_nil_r in EQ. apply (Z ltac:(destruct w; [reflexivity|discriminate CW]) (of_chars (rev r))). apply chars_inj. rewrite chars_app, chars_of_chars. exact EQ.
      - rewrite app_assoc in EQ. apply app_inj_tail in EQ. destruct EQ as [_ ->].
        assert (I : In NUL (chars w)) by (rewrite CW; apply in_or_app; right; left; reflexivity). apply B in I. cbn in I. intuition discriminate. }
    rewrite ZN, closed_some, BS1. reflexivity. }
  rewrite EX, !of_chars_chars, L. reflexivity.
Qed.
(** Without the closing mark, what follows the first [<] is the target. *)
Theorem C124_open : forall links title target name uri,
  without "<" title -> without "<" target -> without ">" target -> alookup target links = Some (name, uri) ->
  xref links (title ++ "<" ++ target)%string = Ok (title, uri).
Proof.
  intros links title target name uri W W2 W3 L. unfold xref.
  assert (C : chars (title ++ "<" ++ target)%string = chars title ++ LT :: chars target) by (rewrite !chars_app; reflexivity).
  rewrite C, find_some by exact W.
  assert (EX : explicit_title (chars title ++ LT :: chars target) = None).
  { unfold explicit_title. rewrite rfind_some by exact W2. rewrite closed_none by exact W3. destruct (chars title); [reflexivity|]. destruct (rev _); [reflexivity|]. destruct (Ascii.eqb _ _); reflexivity. }
  rewrite EX, !of_chars_chars, L. reflexivity.
Qed.
(** C124 refuted: a target that is not in the table stops the documentation with KeyError;
    the only way for the role to fail. *)
Theorem C124_unknown_refuted : forall links t, without "<" t -> ~ In t (akeys links) -> xref links t = Raise KeyError.
Proof.
  intros links t W N. unfold xref. rewrite find_none by exact W. destruct (alookup t links) as [[a b]|] eqn:E; [|reflexivity].
  apply alookup_In in E. exfalso. apply N. rewrite akeys_map. apply in_map_iff. exists (t, (a, b)). auto.
Qed.
Theorem C124_fails_only_so : forall links t e, xref links t = Raise e -> e = KeyError.
Proof.
  intros links t e. unfold xref. destruct (match find_char LT (chars t) with None => _ | Some _ => _ end) as [[a b] c]. destruct (alookup b links) as [[n u]|]; congruence.
Qed.

(** ** The hypotheses are met *)
(** The defaults, in a home directory with markup in its name; two states. *)
Example C121_met : let vals := aset "cache-policy" (VStr "'</td><td>x</td></tr>'") (defaults unit "/h") in
  (forall k v, In (k, v) vals -> simple v /\ without "<" k) /\
  html unit (fun _ => "") "/h" "" vals [] <> html unit (fun _ => "") "/h" "" (defaults unit "/h") [].
Proof.
  intros vals. assert (S : forall k v, In (k, v) vals -> simple v /\ without "<" k).
  { intros k v I. cbn in I. repeat (destruct I as [I|I]; [injection I as <- <-; split; [eexists; constructor|vm_compute; intuition discriminate]|]). contradiction. }
  split; [exact S|]. vm_compute. discriminate.
Qed.
Example C121_seen : joined "" (map (html_row unit (fun _ => "") "/h" [("k", ("V", "a'b"))]) [("k", VStr "x"); ("url-download-timeout", VInt 60)]) =
  "<tr><td>k</td><td>V=""a'b""<br>('x')</td><td>''</td></tr><tr><td>url-download-timeout</td><td>60</td><td>'30s'</td></tr>".
Proof. reflexivity. Qed.
Example C122_seen : text unit (fun _ => "") "/h" [("cache-policy", VStr "off"); ("a", VNone)] [("EARTHKIT_REGRID_CACHE_POLICY", "user")] =
  ("a: (None, )" ++ String NL "cache-policy: (EARTHKIT_REGRID_CACHE_POLICY=user, off, user)")%string.
Proof. reflexivity. Qed.
Example C123_met : well_formed (html unit (fun _ => "") "/h" "table.ek td {}" (defaults unit "/h") [("EARTHKIT_REGRID_CACHE_POLICY", "off")]).
Proof. vm_compute. reflexivity. Qed.
Example C123_unbalanced : ~ well_formed (html unit (fun _ => "") "/h" "" (aset "user-cache-directory" (VStr "/a</table>") (defaults unit "/h")) []).
Proof. vm_compute. discriminate. Qed.
Definition its_links := [("earthkit", ("earthkit", "https://earthkit.readthedocs.io/en/latest/"))].
Example C124_met : xref its_links "earthkit" = Ok ("earthkit", "https://earthkit.readthedocs.io/en/latest/") /\
  xref its_links "a < b  <earthkit>" = Ok ("a < b", "https://earthkit.readthedocs.io/en/latest/") /\
  xref its_links "see <earthkit" = Ok ("see ", "https://earthkit.readthedocs.io/en/latest/") /\ xref its_links "nothing" = Raise KeyError.
Proof. repeat split. Qed.

Print Assumptions C121_same_table.
Print Assumptions C121_table.
Print Assumptions C121_rows.
Print Assumptions C122_lines.
Print Assumptions C122_text_partial.
Print Assumptions C122_text_refuted.
Print Assumptions C122_environment_refuted.
Print Assumptions C122_dump.
Print Assumptions C122_dump_refuted.
Print Assumptions C123_table_partial.
Print Assumptions C123_markup_refuted.
Print Assumptions C123_cache_refuted.
Print Assumptions C123_cache_empty_partial.
Print Assumptions C124_plain.
Print Assumptions C124_titled.
Print Assumptions C124_open.
Print Assumptions C124_unknown_refuted.
Print Assumptions C124_fails_only_so.
