(** Proofs about Show.v. *)
From Coq Require Import Permutation Sorted.
From Verif Require Import PyBase ListLemmas PyStr Config ConfigSpec ConfigProofs ConfigProofs2 ConfigProofs3 Startup StartupSpec StartupProofs Show ShowSpec.
Local Open Scope string_scope.
Local Open Scope list_scope.
Local Open Scope Z_scope.
Set Default Proof Using "Type".

(** ** Texts *)
Lemma sapp_assoc a b c : ((a ++ b) ++ c = a ++ (b ++ c))%string.
Proof. induction a as [|x a IH]; cbn; [reflexivity|]. rewrite IH. reflexivity. Qed.
Lemma sapp_nil a : (a ++ "")%string = a.
Proof. induction a as [|x a IH]; cbn; [reflexivity|]. rewrite IH. reflexivity. Qed.
Lemma sapp_head a b c : (a ++ b)%string = (a ++ c)%string -> b = c.
Proof. induction a as [|x a IH]; cbn; [auto|]. intros E. injection E as E. auto. Qed.
Lemma sapp_tail a b c : (a ++ c)%string = (b ++ c)%string -> a = b.
Proof.
  intros E. apply (f_equal chars) in E. rewrite !chars_app in E. apply app_inv_tail in E. apply chars_inj, E.
Qed.
Lemma without_app c a b : without c (a ++ b)%string <-> without c a /\ without c b.
Proof. unfold without. rewrite chars_app. rewrite in_app_iff. tauto. Qed.
Lemma without_cons c d s : without c (String d s) <-> d <> c /\ without c s.
Proof. unfold without. cbn. intuition congruence. Qed.
(** The text before the first [c]. *)
Lemma upto c : forall a a' r r', without c a -> without c a' -> (a ++ String c r)%string = (a' ++ String c r')%string -> a = a' /\ r = r'.
Proof.
  induction a as [|x a IH]; intros [|y a'] r r' A B E; cbn in E.
  - injection E as E. auto.
  - injection E as E _. apply without_cons in B. destruct B as [B _]. congruence.
  - injection E as E _. apply without_cons in A. destruct A as [A _]. congruence.
  - injection E as -> E. apply without_cons in A, B. destruct (IH a' r r' (proj2 A) (proj2 B) E) as [-> ->]. auto.
Qed.
Lemma hasP c s : has c s = true <-> In c (chars s).
Proof.
  induction s as [|d s IH]; cbn; [split; [discriminate|intros []]|]. rewrite Bool.orb_true_iff. unfold chars in IH. rewrite IH.
  destruct (Ascii.eqb_spec d c); intuition congruence.
Qed.

(** ** repr *)
Definition unhex (c : ascii) : Z := if code c <? 58 then code c - 48 else code c - 87.
Definition unshow (s : string) : option (ascii * string) :=
  match s with
  | EmptyString => None
  | String a r =>
      if Ascii.eqb a BS then
        match r with
        | EmptyString => None
        | String b r' =>
            if Ascii.eqb b "n" then Some (ascii_of_nat 10, r') else if Ascii.eqb b "r" then Some (ascii_of_nat 13, r')
            else if Ascii.eqb b "t" then Some (ascii_of_nat 9, r')
            else if Ascii.eqb b "x" then
              match r' with String h (String l r'') => Some (ascii_of_N (Z.to_N (16 * unhex h + unhex l)), r'') | _ => None end
            else Some (b, r')
        end
      else Some (a, r)
  end.
Lemma unshow_shown q c r : q = SQ \/ q = DQ -> unshow (shown_char q c ++ r)%string = Some (c, r).
Proof. intros [->| ->]; destruct c as [[] [] [] [] [] [] [] []]; reflexivity. Qed.
Lemma shown_head q c r r' : q = SQ \/ q = DQ -> (shown_char q c ++ r)%string <> String q r'.
Proof. intros [->| ->]; destruct c as [[] [] [] [] [] [] [] []]; intros E; vm_compute in E; discriminate E. Qed.
Lemma shown_code q : q = SQ \/ q = DQ -> forall s s' r r',
  (shown_chars q s ++ String q r)%string = (shown_chars q s' ++ String q r')%string -> s = s' /\ r = r'.
Proof.
  intros Q. induction s as [|c s IH]; intros [|c' s'] r r' E; cbn [shown_chars] in E; rewrite ?sapp_assoc in E.
  - cbn in E. injection E as E. auto.
  - exfalso. symmetry in E. cbn in E. exact (shown_head q c' _ _ Q E).
  - exfalso. cbn in E. exact (shown_head q c _ _ Q E).
  - apply (f_equal unshow) in E. rewrite !unshow_shown in E by exact Q. injection E as -> E. apply IH in E. destruct E as [-> ->]. auto.
Qed.
Lemma quote_ok s : quote_of s = SQ \/ quote_of s = DQ.
Proof. unfold quote_of. destruct (_ && _); auto. Qed.
Lemma repr_str_code s s' r r' : (repr_str s ++ r)%string = (repr_str s' ++ r')%string -> s = s' /\ r = r'.
Proof.
  unfold repr_str. cbn. intros E. injection E as Q E. rewrite Q in E. rewrite !sapp_assoc in E. cbn in E. apply (shown_code _ (quote_ok s')), E.
Qed.
Lemma show_Z_chars z c : In c (chars (show_Z z)) -> is_digit c = true \/ c = "-"%char.
Proof.
  unfold show_Z. destruct (Z.ltb_spec z 0) as [H|H].
  - intros I. change (In c ("-"%char :: chars (of_chars (show_nonneg (- z))))) in I. destruct I as [<-|I]; [auto|]. left. rewrite chars_of_chars in I.
    destruct (show_nonneg_ok (- z) ltac:(lia)) as (A & _). rewrite Forall_forall in A. auto.
  - intros I. left. rewrite chars_of_chars in I. destruct (show_nonneg_ok z H) as (A & _). rewrite Forall_forall in A. auto.
Qed.
Lemma show_Z_head z : exists c r, show_Z z = String c r /\ (is_digit c = true \/ c = "-"%char).
Proof.
  destruct (show_Z z) as [|c r] eqn:E.
  - exfalso. unfold show_Z in E. destruct (z <? 0) eqn:L; [discriminate E|]. apply Z.ltb_ge in L.
    destruct (show_nonneg_ok z L) as (_ & B & _). destruct (show_nonneg z); [auto|discriminate E].
  - exists c, r. split; [reflexivity|]. apply (show_Z_chars z). rewrite E. left. reflexivity.
Qed.

Section Values.
  Context {Obj : Type}.
  Variables obj_str obj_repr : Obj -> string.
  Variable home : string.
  Variable sheet : string.
  Notation value := (value Obj).
  Notation repr_of := (repr_of Obj obj_repr).
  Notation str_of := (str_of Obj obj_str).
  Notation sorted_items := (sorted_items Obj).
  Notation html_row := (html_row Obj obj_repr home).
  Notation html := (html Obj obj_repr home sheet).
  Notation env_items := (env_items Obj).

  Definition no_object (v : value) : Prop := match v with VObj _ => False | _ => True end.
  Definition is_text_value (v : value) : bool := match v with VStr _ => true | _ => false end.

  Lemma repr_quiet v c : no_object v -> is_text_value v = false -> is_digit c = false -> c <> "-"%char ->
    ~ In c (chars "NoneTrueFalse") -> without c (repr_of v).
  Proof.
    intros P T D M N. destruct v as [|[]|z|s|o]; try contradiction; try discriminate; cbn in N |- *; unfold without; cbn [chars].
    - cbn. intuition congruence.
    - cbn. intuition congruence.
    - cbn. intuition congruence.
    - intros I. apply show_Z_chars in I. destruct I; congruence.
  Qed.
  Lemma repr_first v : no_object v -> exists c r, repr_of v = String c r /\
    (is_text_value v = true -> c = SQ \/ c = DQ) /\ (is_text_value v = false -> is_digit c = true \/ In c ["-"; "N"; "T"; "F"]%char).
  Proof.
    intros P. destruct v as [|[]|z|s|o]; try contradiction; cbn.
    - exists "N"%char, "one". repeat split; intros H; try discriminate H. right. cbn. auto.
    - exists "T"%char, "rue". repeat split; intros H; try discriminate H. right. cbn. auto.
    - exists "F"%char, "alse". repeat split; intros H; try discriminate H. right. cbn. auto.
    - destruct (show_Z_head z) as (c & r & E & K). exists c, r. rewrite E. repeat split; intros H; try discriminate H. cbn. intuition.
    - eexists _, _. unfold repr_str. split; [reflexivity|]. split; [intros _; apply quote_ok|discriminate].
  Qed.
  Lemma repr_inj v v' : no_object v -> no_object v' -> repr_of v = repr_of v' -> v = v'.
  Proof.
    intros P P' E.
    assert (NZ : forall z c r, show_Z z = String c r -> is_digit c = true \/ c = "-"%char).
    { intros z c r X. destruct (show_Z_head z) as (d & r2 & E2 & K). rewrite E2 in X. injection X as -> _. exact K. }
    assert (NQ : forall s c r, repr_str s = String c r -> c = SQ \/ c = DQ).
    { intros s c r X. unfold repr_str in X. injection X as <- _. apply quote_ok. }
    assert (BAD : forall z s, show_Z z <> repr_str s).
    { intros z s X. unfold repr_str in X. apply NZ in X. destruct (quote_ok s) as [Y|Y]; rewrite Y in X; destruct X; discriminate. }
    destruct v as [|[]|z|s|o], v' as [|[]|z'|s'|o']; try contradiction; try reflexivity; cbn in E; try discriminate E;
      try (exfalso; first [exact (BAD _ _ E)|exact (BAD _ _ (eq_sym E))
                          |apply NZ in E; destruct E; discriminate|symmetry in E; apply NZ in E; destruct E; discriminate
                          |apply NQ in E; destruct E; discriminate|symmetry in E; apply NQ in E; destruct E; discriminate]).
    - apply show_Z_inj in E. congruence.
    - f_equal. apply (repr_str_code s s' "" ""). rewrite !sapp_nil. exact E.
  Qed.
  Lemma repr_code v v' c r r' : no_object v -> no_object v' -> c = "<"%char \/ c = ")"%char ->
    (repr_of v ++ String c r)%string = (repr_of v' ++ String c r')%string -> v = v' /\ r = r'.
  Proof.
    intros P P' C E.
    assert (D : is_digit c = false /\ c <> "-"%char /\ ~ In c (chars "NoneTrueFalse")).
    { destruct C as [->| ->]; (split; [reflexivity|]; split; [discriminate|]); cbn; intros H; intuition discriminate. }
    destruct D as (D1 & D2 & D3).
    destruct (is_text_value v) eqn:T, (is_text_value v') eqn:T'.
    - destruct v, v'; try discriminate. cbn in E. apply repr_str_code in E. destruct E as [-> E]. injection E as ->. auto.
    - exfalso. destruct (repr_first v P) as (x & y & F & K & _), (repr_first v' P') as (x' & y' & F' & _ & K').
      rewrite F, F' in E. cbn in E. injection E as E _. specialize (K T). specialize (K' T'). subst x'.
      destruct K as [->| ->]; destruct K' as [K'|K']; cbn in K'; try discriminate K'; intuition discriminate.
    - exfalso. destruct (repr_first v P) as (x & y & F & _ & K), (repr_first v' P') as (x' & y' & F' & K' & _).
      rewrite F, F' in E. cbn in E. injection E as E _. specialize (K T). specialize (K' T'). subst x'.
      destruct K' as [->| ->]; destruct K as [K|K]; cbn in K; try discriminate K; intuition discriminate.
    - apply upto in E; [|apply repr_quiet; assumption|apply repr_quiet; assumption].
      destruct E as [E ->]. split; [|reflexivity]. apply repr_inj; assumption.
  Qed.

  Lemma joined_cons x (l : list string) : joined "" (x :: l) = (x ++ joined "" l)%string.
  Proof. cbn. destruct l; [symmetry; apply sapp_nil|reflexivity]. Qed.

  (** ** The table in HTML *)
  Definition proper_env (e : list (string * (string * string))) : Prop :=
    forall k n t, alookup k e = Some (n, t) -> n = env_var_name k.
  Lemma env_var_head k : exists r, env_var_name k = String "E" r.
  Proof. unfold env_var_name. cbn. eexists. reflexivity. Qed.

  Ltac strip E := cbn in E; repeat (injection E as E).

  Lemma rows_code e e' : proper_env e -> proper_env e' -> forall l l',
    (forall k v, In (k, v) l -> no_object v /\ without "<" k) -> (forall k v, In (k, v) l' -> no_object v /\ without "<" k) ->
    (joined "" (map (html_row e) l) ++ "</table>")%string = (joined "" (map (html_row e') l') ++ "</table>")%string ->
    l = l' /\ forall k v, In (k, v) l -> alookup k e = alookup k e'.
  Proof.
    intros N N'. 
    assert (H0 : forall e k v r, exists t, (html_row e (k, v) ++ r)%string = String "<" (String "t" t)).
    { intros e0 k v r. unfold Show.html_row. destruct (alookup k e0) as [[n t]|]; eexists; reflexivity. }
    induction l as [|[k v] l IH]; intros [|[k' v'] l'] P P' E.
    - split; [reflexivity|intros ? ? []].
    - exfalso. cbn [map] in E. rewrite joined_cons, sapp_assoc in E. destruct (H0 e' k' v' (joined "" (map (html_row e') l') ++ "</table>")%string) as (t & T).
      rewrite T in E. discriminate E.
    - exfalso. cbn [map] in E. rewrite joined_cons, sapp_assoc in E. destruct (H0 e k v (joined "" (map (html_row e) l) ++ "</table>")%string) as (t & T).
      rewrite T in E. discriminate E.
    - cbn [map] in E. rewrite !joined_cons, !sapp_assoc in E.
      set (R := (joined "" (map (html_row e) l) ++ "</table>")%string) in *. set (R' := (joined "" (map (html_row e') l') ++ "</table>")%string) in *.
      destruct (P k v (or_introl eq_refl)) as [PV PK], (P' k' v' (or_introl eq_refl)) as [PV' PK'].
      assert (GO : k = k' /\ v = v' /\ alookup k e = alookup k e' /\ R = R').
      { unfold Show.html_row in E. destruct (alookup k e) as [[n t]|] eqn:Q, (alookup k' e') as [[n' t']|] eqn:Q'; rewrite ?sapp_assoc in E; apply (sapp_head "<tr><td>") in E;
          apply upto in E; try assumption; destruct E as [<- E]; rewrite ?Q'; apply (sapp_head "/td><td>") in E.
        - rewrite (N _ _ _ Q) in *. rewrite (N' _ _ _ Q') in *. apply sapp_head in E. apply (sapp_head "=") in E. apply repr_str_code in E. destruct E as [<- E].
          apply (sapp_head "<br>(") in E. cbn [append] in E. apply repr_code in E; [|exact PV|exact PV'|auto]. destruct E as [<- E].
          apply (sapp_head "</td><td>") in E. apply sapp_head in E. apply (sapp_head "</td></tr>") in E. auto.
        - exfalso. rewrite (N _ _ _ Q) in E. destruct (env_var_head k) as (x & X). rewrite X in E. destruct (repr_first v' PV') as (c & y & F & K1 & K2).
          rewrite F in E. cbn in E. injection E as <- _. destruct (is_text_value v').
          + destruct (K1 eq_refl) as [K|K]; discriminate K.
          + destruct (K2 eq_refl) as [K|K]; [discriminate K|]. cbn in K. intuition discriminate.
        - exfalso. rewrite (N' _ _ _ Q') in E. destruct (env_var_head k) as (x & X). rewrite X in E. destruct (repr_first v PV) as (c & y & F & K1 & K2).
          rewrite F in E. cbn in E. injection E as -> _. destruct (is_text_value v).
          + destruct (K1 eq_refl) as [K|K]; discriminate K.
          + destruct (K2 eq_refl) as [K|K]; [discriminate K|]. cbn in K. intuition discriminate.
        - cbn [append] in E. apply repr_code in E; [|exact PV|exact PV'|auto]. destruct E as [<- E].
          apply (sapp_head "/td><td>") in E. apply sapp_head in E. apply (sapp_head "</td></tr>") in E. auto. }
      destruct GO as (<- & <- & A & RE). destruct (IH l') as [<- B].
      + intros k0 v0 I. apply P. right. exact I.
      + intros k0 v0 I. apply P'. right. exact I.
      + exact RE.
      + split; [reflexivity|]. intros k0 v0 [I|I]; [|eapply B, I]. injection I as <- <-. exact A.
  Qed.

  Lemma env_items_lookup (env : list (string * string)) : forall (vals : list (string * value)) k,
    alookup k (flat_map (fun p => match alookup (env_var_name (fst p)) env with
                       | Some t => [(fst p, (env_var_name (fst p), t))] | None => [] end) vals) =
    if existsb (fun p => String.eqb k (fst p)) vals then option_map (fun t => (env_var_name k, t)) (alookup (env_var_name k) env) else None.
  Proof.
    induction vals as [|[k0 v0] vals IH]; intros k; [reflexivity|]. cbn [flat_map existsb fst].
    destruct (String.eqb_spec k k0) as [->|D].
    - cbn [orb]. destruct (alookup (env_var_name k0) env) as [t|] eqn:E; cbn.
      + rewrite String.eqb_refl. reflexivity.
      + rewrite IH, E. destruct (existsb _ _); reflexivity.
    - cbn [orb]. destruct (alookup (env_var_name k0) env) as [t|] eqn:E; cbn; [|apply IH]. apply String.eqb_neq in D. rewrite D. apply IH.
  Qed.
  Lemma env_items_in vals env k v : In (k, v) vals -> alookup k (env_items vals env) = option_map (fun t => (env_var_name k, t)) (alookup (env_var_name k) env).
  Proof.
    intros I. unfold Show.env_items. rewrite env_items_lookup.
    replace (existsb _ _) with true; [reflexivity|]. symmetry. apply existsb_exists. exists (k, v). split; [|apply String.eqb_refl].
    eapply Permutation_in; [symmetry; apply sorted_perm|exact I].
  Qed.
  Lemma env_items_proper vals env : proper_env (env_items vals env).
  Proof.
    intros k n t. unfold Show.env_items. rewrite env_items_lookup. destruct (existsb _ _); [|discriminate].
    destruct (alookup (env_var_name k) env); [|discriminate]. cbn. congruence.
  Qed.

  Lemma html_code vals vals' env env' :
    (forall k v, In (k, v) vals -> no_object v /\ without "<" k) -> (forall k v, In (k, v) vals' -> no_object v /\ without "<" k) ->
    html vals env = html vals' env' ->
    (forall k v, In (k, v) vals <-> In (k, v) vals') /\ (forall k v, In (k, v) vals -> alookup (env_var_name k) env = alookup (env_var_name k) env').
  Proof.
    intros P P' E. unfold Show.html in E. do 3 apply sapp_head in E.
    assert (S : forall k v (l : list (string * value)), In (k, v) (sorted_items l) <-> In (k, v) l).
    { intros k v l. split; intros I; (eapply Permutation_in; [|exact I]); [apply sorted_perm|symmetry; apply sorted_perm]. }
    apply rows_code in E; try apply env_items_proper.
    - destruct E as [E F].
      assert (SAME : forall k v, In (k, v) vals <-> In (k, v) vals') by (intros k v; rewrite <- (S k v vals), <- (S k v vals'), E; reflexivity).
      split; [exact SAME|]. intros k v I. specialize (F k v (proj2 (S _ _ _) I)).
      rewrite (env_items_in vals env k v I), (env_items_in vals' env' k v (proj1 (SAME k v) I)) in F.
      destruct (alookup (env_var_name k) env), (alookup (env_var_name k) env'); cbn in F; congruence.
    - intros k v I. apply P, S, I.
    - intros k v I. apply P', S, I.
  Qed.
End Values.

(** ** The printed form *)
Section Text.
  Context {Obj : Type}.
  Variable obj_str : Obj -> string.
  Variable home : string.
  Notation value := (value Obj).
  Notation str_of := (str_of Obj obj_str).
  Notation sorted_items := (sorted_items Obj).
  Notation text_line := (text_line Obj obj_str home).
  Notation text := (text Obj obj_str home).

  Lemma prints_str v t : prints v t -> str_of v = t.
  Proof. destruct 1; reflexivity. Qed.
  Lemma str_prints v : no_object v -> prints v (str_of v).
  Proof. destruct v as [|[]|z|s|o]; cbn; intros H; try contradiction; constructor. Qed.

  (** Lines without a newline can be read off the joined text. *)
  Lemma joined_lines c : forall l l', (forall x, In x l -> without c x /\ x <> "") -> (forall x, In x l' -> without c x /\ x <> "") ->
    joined (String c "") l = joined (String c "") l' -> l = l'.
  Proof.
    assert (J : forall x y (l : list string), joined (String c "") (x :: y :: l) = (x ++ String c (joined (String c "") (y :: l)))%string) by reflexivity.
    induction l as [|x [|y l] IH]; intros [|x' [|y' l']] A B E; rewrite ?J in E.
    - reflexivity.
    - exfalso. destruct (B x' (or_introl eq_refl)) as [_ F]. cbn in E. congruence.
    - exfalso. destruct x'; discriminate E.
    - exfalso. destruct (A x (or_introl eq_refl)) as [_ F]. cbn in E. congruence.
    - cbn in E. congruence.
    - exfalso. cbn [joined] in E. destruct (A x (or_introl eq_refl)) as [F _]. rewrite E in F. apply without_app in F. destruct F as [_ F]. apply without_cons in F. destruct F; congruence.
    - exfalso. destruct x; discriminate E.
    - exfalso. cbn [joined] in E. destruct (B x' (or_introl eq_refl)) as [F _]. rewrite <- E in F. apply without_app in F. destruct F as [_ F]. apply without_cons in F. destruct F; congruence.
    - apply upto in E; [|apply A; left; reflexivity|apply B; left; reflexivity]. destruct E as [-> E].
      f_equal. apply IH; [intros z I; apply A; right; exact I|intros z I; apply B; right; exact I|exact E].
  Qed.

  Lemma line_code (F : string -> option (string * string)) e e' p p' : alookup (fst p) e = F (fst p) -> alookup (fst p') e' = F (fst p') ->
    without ":" (fst p) -> without ":" (fst p') -> text_line e p = text_line e' p' ->
    fst p = fst p' /\ str_of (snd p) = str_of (snd p').
  Proof.
    destruct p as [k v], p' as [k' v']. cbn [fst snd]. intros L L' A B E. unfold Show.text_line in E. rewrite L, L' in E. clear L L'.
    destruct (F k) as [[n t]|] eqn:Q, (F k') as [[n' t']|] eqn:Q'; apply upto in E; try assumption; destruct E as [<- E];
      rewrite Q in Q'; try discriminate Q'; (split; [reflexivity|]).
    - injection Q' as <- <-. apply (sapp_head " (") in E. apply sapp_head in E. apply (sapp_head "=") in E. apply sapp_head in E. apply (sapp_head ", ") in E.
      apply sapp_tail in E. exact E.
    - apply (sapp_head " (") in E. apply sapp_tail in E. exact E.
  Qed.
End Text.

(** ** Marks *)
Lemma marks_quiet s r : without "<" s -> marks None (s ++ r)%string = marks None r.
Proof.
  induction s as [|c s IH]; intros W; cbn; [reflexivity|]. apply without_cons in W. destruct W as [D W].
  destruct (Ascii.eqb_spec c "<"); [congruence|]. apply IH, W.
Qed.
Lemma shown_quiet q c x : without x (shown_char q c) \/ c = x \/ x = BS \/ In x (chars "nrtx0123456789abcdef").
Proof.
  unfold shown_char. destruct (Ascii.eqb_spec c x) as [->|D]; [auto|]. destruct (Ascii.eqb_spec x BS) as [->|B]; [auto|].
  destruct (in_dec Ascii.ascii_dec x (chars "nrtx0123456789abcdef")) as [I|I]; [auto|]. left.
  assert (HX : forall n, 0 <= n < 16 -> hex n <> x).
  { intros n N. assert (n = 0 \/ n = 1 \/ n = 2 \/ n = 3 \/ n = 4 \/ n = 5 \/ n = 6 \/ n = 7 \/ n = 8 \/ n = 9 \/ n = 10 \/ n = 11 \/ n = 12 \/ n = 13 \/ n = 14 \/ n = 15) as C by lia.
    intros <-. apply I. repeat (destruct C as [->|C]; [vm_compute; tauto|]). subst. vm_compute; tauto. }
  assert (IN : forall y, In y (chars "nrtx") -> y <> x) by (intros y Y <-; apply I; cbn in Y |- *; tauto).
  pose proof (code_range c) as R.
  repeat match goal with |- without _ (if ?b then _ else _) => destruct b end; unfold without; cbn; intros H;
    repeat (destruct H as [H|H]); try contradiction; try (apply B; symmetry; exact H); try (apply D; exact H);
    try (apply IN in H; [contradiction|cbn; tauto]).
  - apply (HX (code c / 16)); [|exact H]. split; [apply Z.div_pos; lia|apply Z.div_lt_upper_bound; lia].
  - apply (HX (code c mod 16)); [|exact H]. apply Z.mod_pos_bound. lia.
Qed.
Lemma repr_str_quiet s : without "<" s -> without "<" (repr_str s).
Proof.
  intros W. unfold repr_str. apply without_cons. split; [destruct (quote_ok s) as [E|E]; rewrite E; discriminate|].
  apply without_app. split; [|apply without_cons; split; [destruct (quote_ok s) as [E|E]; rewrite E; discriminate|intros []]].
  generalize (quote_of s). intros q. induction s as [|c s IH]; cbn; [intros []|]. apply without_cons in W. destruct W as [D W].
  apply without_app. split; [|apply IH, W]. destruct (shown_quiet q c "<") as [H|[H|[H|H]]]; [exact H|congruence|discriminate|].
  exfalso. cbn in H. intuition discriminate.
Qed.
Lemma upper_quiet k : without "<" k -> without "<" (env_var_name k).
Proof.
  intros W. unfold env_var_name. apply without_app. split; [cbv; intuition discriminate|].
  unfold without, replace1, upper. rewrite !chars_of_chars. rewrite map_map. intros I. apply in_map_iff in I. destruct I as (c & E & I).
  apply W. revert E. destruct c as [[] [] [] [] [] [] [] []]; vm_compute; intros E; try discriminate E; exact I.
Qed.

Section Pages.
  Context {Obj : Type}.
  Variables obj_str obj_repr : Obj -> string.
  Variable home : string.
  Variable sheet : string.
  Hypothesis K : without "<" sheet.
  Hypothesis KH : without "<" home.
  Notation value := (value Obj).
  Notation repr_of := (repr_of Obj obj_repr).

  Lemma repr_quiet_lt v : (forall t, prints v t -> without "<" t) -> no_object v -> without "<" (repr_of v).
  Proof.
    intros H P. destruct v as [|[]|z|s|o]; try contradiction; try (vm_compute; intuition discriminate).
    - cbn. apply H. constructor.
    - cbn. apply repr_str_quiet, H. constructor.
  Qed.
  Lemma default_quiet k : without "<" (repr_of (default_of Obj home k)).
  Proof using KH.
    assert (F : forall p, In p (options Obj home) -> without "<" (repr_of (o_default Obj (snd p)))).
    { intros p I. cbn in I. repeat (destruct I as [<-|I]; [cbn; try (vm_compute; intuition discriminate)|]); [|contradiction].
      apply repr_str_quiet. apply without_app. split; [exact KH|]. vm_compute; intuition discriminate. }
    unfold default_of. destruct (alookup k (options Obj home)) as [o|] eqn:E; [|vm_compute; intuition discriminate].
    apply alookup_In in E. apply (F _ E).
  Qed.
  Definition plain_item (env : list (string * string)) (p : string * value) : Prop :=
    without "<" (fst p) /\ no_object (snd p) /\ (forall t, prints (snd p) t -> without "<" t) /\
    (forall t, alookup (env_var_name (fst p)) env = Some t -> without "<" t).

  Lemma rows_nested e env : (forall k n t, alookup k e = Some (n, t) -> n = env_var_name k /\ alookup n env = Some t) -> forall l, Forall (plain_item env) l -> forall r st,
    nested st (marks None (joined "" (map (html_row Obj obj_repr home e) l) ++ r)%string) = nested st (marks None r).
  Proof using KH.
    intros PE. induction l as [|[k v] l IH]; intros F r st; [reflexivity|]. inversion F as [|? ? (Q1 & Q2 & Q3 & Q4) F2]; subst.
    cbn [map]. rewrite joined_cons, sapp_assoc. cbn [fst snd] in *. unfold html_row.
    set (R := (joined "" (map _ l) ++ r)%string) in *.
    assert (H_tr : forall x st, nested st (marks None ("<tr><td>" ++ x)%string) = nested ("td" :: "tr" :: st) (marks None x)) by reflexivity.
    assert (H_td : forall x st, nested ("td" :: st) (marks None ("</td><td>" ++ x)%string) = nested ("td" :: st) (marks None x)) by reflexivity.
    assert (H_br : forall x st, nested st (marks None ("<br>(" ++ x)%string) = nested st (marks None x)) by reflexivity.
    assert (H_tp : forall x st, nested ("td" :: st) (marks None (")</td><td>" ++ x)%string) = nested ("td" :: st) (marks None x)) by reflexivity.
    assert (H_en : forall x st, nested ("td" :: "tr" :: st) (marks None ("</td></tr>" ++ x)%string) = nested st (marks None x)) by reflexivity.
    assert (H_eq : forall x, marks None ("=" ++ x)%string = marks None x) by reflexivity.
    destruct (alookup k e) as [[n t]|] eqn:E.
    - destruct (PE _ _ _ E) as [-> ET]. rewrite !sapp_assoc, H_tr, (marks_quiet k) by exact Q1. rewrite H_td.
      rewrite (marks_quiet (env_var_name k)) by apply upper_quiet, Q1. rewrite H_eq, (marks_quiet (repr_str t)) by apply repr_str_quiet, Q4, ET.
      rewrite H_br, (marks_quiet (repr_of v)) by (apply repr_quiet_lt; assumption). rewrite H_tp, (marks_quiet (repr_of (default_of Obj home k))) by apply default_quiet.
      rewrite H_en. apply IH, F2.
    - rewrite !sapp_assoc, H_tr, (marks_quiet k) by exact Q1. rewrite H_td, (marks_quiet (repr_of v)) by (apply repr_quiet_lt; assumption).
      rewrite H_td, (marks_quiet (repr_of (default_of Obj home k))) by apply default_quiet. rewrite H_en. apply IH, F2.
  Qed.

  Lemma css_quiet r st : nested st (marks None (css sheet ++ r)%string) = nested st (marks None r).
  Proof using K.
    unfold css. rewrite !sapp_assoc.
    assert (H : forall x st, nested st (marks None ("<style type=" ++ String DQ "text/css" ++ String DQ ">" ++ x)%string) = nested ("style" :: st) (marks None x)) by reflexivity.
    rewrite H, marks_quiet by exact K. reflexivity.
  Qed.

  Lemma html_nested vals env : Forall (plain_item env) vals -> well_formed (html Obj obj_repr home sheet vals env).
  Proof using K KH.
    intros F. unfold well_formed, html. rewrite css_quiet.
    assert (H : forall x, nested [] (marks None ("<table class='ek'>" ++ ("<tr><th>" ++ joined "</th><th>" ["Name"; "Value"; "Default"] ++ "</th></tr>") ++ x)%string) = nested ["table"] (marks None x)) by reflexivity.
    rewrite H, (rows_nested _ env).
    - reflexivity.
    - intros k n t Q. pose proof (env_items_proper vals env k n t Q) as N. split; [exact N|]. subst n.
      unfold env_items in Q. rewrite env_items_lookup in Q. destruct (existsb _ _); [|discriminate Q].
      destruct (alookup (env_var_name k) env); [|discriminate Q]. cbn in Q. congruence.
    - rewrite Forall_forall in *. intros p I. apply F. eapply Permutation_in; [apply sorted_perm|exact I].
  Qed.

  Lemma cache_not_nested e es : without "<" (fst e) -> ~ well_formed (cache_html sheet (e :: es)).
  Proof using K.
    intros W. unfold well_formed, cache_html. rewrite css_quiet. cbn [map]. rewrite joined_cons. unfold cache_entry. rewrite !sapp_assoc.
    assert (H : forall x, nested [] (marks None ("<table class='ek'>" ++ "<td><td colspan='2'>" ++ x)%string) = nested ["td"; "td"; "table"] (marks None x)) by reflexivity.
    rewrite H, marks_quiet by exact W.
    assert (H2 : forall x, nested ["td"; "td"; "table"] (marks None ("</td></tr>" ++ x)%string) = false) by reflexivity.
    rewrite H2. discriminate.
  Qed.
  Lemma cache_empty : well_formed (cache_html sheet []).
  Proof using K. unfold well_formed, cache_html. rewrite css_quiet. reflexivity. Qed.
End Pages.

(** ** The role xref *)
Lemma find_none c l : ~ In c l -> find_char c l = None.
Proof.
  induction l as [|d l IH]; intros N; cbn; [reflexivity|]. destruct (Ascii.eqb_spec d c) as [->|D]; [exfalso; apply N; left; reflexivity|].
  rewrite IH; [reflexivity|]. intros I. apply N. right. exact I.
Qed.
Lemma find_some c a b : ~ In c a -> find_char c (a ++ c :: b) = Some (a, b).
Proof.
  induction a as [|d a IH]; intros N; cbn; [rewrite Ascii.eqb_refl; reflexivity|].
  destruct (Ascii.eqb_spec d c) as [->|D]; [exfalso; apply N; left; reflexivity|]. rewrite IH; [reflexivity|]. intros I. apply N. right. exact I.
Qed.
Lemma rfind_some c a b : ~ In c b -> rfind_char c (a ++ c :: b) = Some (a, b).
Proof.
  intros N. unfold rfind_char. rewrite rev_app_distr. cbn [rev]. rewrite <- app_assoc. cbn [app].
  rewrite find_some by (intros I; apply N, in_rev, I). rewrite !rev_involutive. reflexivity.
Qed.
Lemma closed_some t : closed (t ++ [GT]) = Some t.
Proof. unfold closed. rewrite rev_app_distr. cbn [rev app]. rewrite Ascii.eqb_refl, rev_involutive. reflexivity. Qed.
Lemma closed_none t : ~ In GT t -> closed t = None.
Proof.
  intros N. unfold closed. destruct (rev t) as [|c r] eqn:E; [reflexivity|].
  assert (I : forall x, In x (c :: r) -> In x t) by (intros x X; apply in_rev; rewrite E; exact X).
  destruct (Ascii.eqb_spec c GT) as [->|D]; [exfalso; apply N, I; left; reflexivity|]. destruct (Ascii.eqb_spec c NL); [|reflexivity].
  destruct r as [|d r]; [reflexivity|]. destruct (Ascii.eqb_spec d GT) as [->|D2]; [exfalso; apply N, I; right; left; reflexivity|reflexivity].
Qed.
Lemma span_all p l r : Forall (fun c => p c = true) l -> (match r with [] => True | c :: _ => p c = false end) -> snd (span p (l ++ r)) = r.
Proof. intros F H. rewrite span_app by assumption. reflexivity. Qed.
Lemma before_space_app t w : t <> [] -> (forall c, In c w -> is_space c = true) -> (forall a c, t = a ++ [c] -> is_space c = false) -> before_space (t ++ w) = t.
Proof.
  intros NE W E. destruct t as [|c t]; [contradiction|]. cbn. f_equal. rewrite rev_app_distr.
  rewrite span_all; [apply rev_involutive| |].
  - apply Forall_forall. intros x I. apply W, in_rev, I.
  - destruct (rev t) as [|d r] eqn:R; [exact I|]. apply (E (c :: rev r)). cbn. f_equal. rewrite <- (rev_involutive t), R. reflexivity.
Qed.
