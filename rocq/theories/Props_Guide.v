(** C149: the examples of the guide to the configuration do what the guide says. *)
From Coq Require Import Lia.
From Verif Require Import PyBase ListLemmas PyStr Config Guide.
Local Open Scope string_scope.
Local Open Scope list_scope.
Local Open Scope Z_scope.

Section Statements.
Context {Obj : Type} (obj_str : Obj -> string) (obj_bool obj_yaml : Obj -> bool).
Context (home : string) (writable : string -> bool) (version : string).
Notation value := (value Obj).
Notation printed := (@printed Obj).
(** Any observers that return and print nothing. *)
Context (obs : nat -> (string -> result value) -> printed -> printed * result unit).
Definition quiet : Prop := forall cb g o, obs cb g o = (o, Ok tt).
Notation exec := (exec Obj obj_str obj_bool home writable version printed obs).
Notation get := (get Obj obj_str home printed).
Notation notify := (notify Obj obj_str home printed obs).
Notation changed := (changed Obj obj_str home writable version printed obs).
Notation start := (start Obj obj_yaml home writable version printed).
Notation st := (st Obj printed).
Implicit Types s : st.

(** The same configuration and outputs. *)
Definition alike s s' : Prop := base s' = base s /\ stack s' = stack s /\ environ s' = environ s /\ ostate s' = ostate s.
Lemma alike_trans s1 s2 s3 : alike s1 s2 -> alike s2 s3 -> alike s1 s3.
Proof. intros (A & B & C & D) (A' & B' & C' & D'). unfold alike. rewrite A', B', C', D'. auto. Qed.
Lemma alike_top s s' : alike s s' -> top s' = top s.
Proof. intros (A & B & _). unfold top. rewrite A, B. reflexivity. Qed.
Lemma alike_get s s' n : alike s s' -> get s' n = get s n.
Proof. intros H. unfold Config.get. rewrite (alike_top _ _ H). destruct H as (_ & _ & -> & _). reflexivity. Qed.

Section Quiet.
Hypothesis Q : quiet.

Lemma notify_quiet s : exists s', notify s = (s', Ok tt) /\ alike s s' /\ files s' = files s.
Proof using Q.
  unfold Config.notify. generalize (callbacks s) as l. intros l. revert s. induction l as [|cb l IH]; intros s; cbn [notify_loop].
  - exists s. repeat split.
  - rewrite Q. match goal with |- context [notify_loop _ _ _ _ _ l ?x] => destruct (IH x) as (s' & E & A & F) end.
    exists s'. split; [exact E|]. split; [exact A|exact F].
Qed.
Lemma changed_quiet n : forall s, exists s', changed n s = (s', Ok tt) /\ alike s s'.
Proof using Q.
  induction n as [|n IH]; intros s; [exists s; repeat split|]. cbn [Config.changed]. unfold changed1.
  set (s1 := if autosave s then _ else s). assert (A1 : alike s s1) by (unfold s1; destruct (autosave s); repeat split).
  destruct (notify_quiet s1) as (s2 & E & A2 & _). rewrite E. destruct (IH s2) as (s3 & E3 & A3). exists s3. split; [exact E3|].
  exact (alike_trans _ _ _ A1 (alike_trans _ _ _ A2 A3)).
Qed.
Lemma changed_temp n : forall s, path (top s) = None -> exists s', changed n s = (s', Ok tt) /\ alike s s' /\ files s' = files s.
Proof using Q.
  induction n as [|n IH]; intros s P; [exists s; repeat split|]. cbn [Config.changed]. unfold changed1. rewrite P. cbn [save_to].
  set (s1 := if autosave s then _ else s). assert (A1 : alike s s1 /\ files s1 = files s) by (unfold s1; destruct (autosave s); repeat split).
  destruct (notify_quiet s1) as (s2 & E & A2 & F2). rewrite E. destruct (IH s2) as (s3 & E3 & A3 & F3).
  { rewrite (alike_top _ _ A2), (alike_top _ _ (proj1 A1)). exact P. }
  exists s3. split; [exact E3|]. split; [exact (alike_trans _ _ _ (proj1 A1) (alike_trans _ _ _ A2 A3))|]. rewrite F3, F2. apply A1.
Qed.

(** A value that [set] accepts and stores as it is. *)
Lemma set_runs s name v w : checked Obj obj_str obj_bool home name [v] 0 = Ok w ->
  exists s', exec (set_option name v) s = (s', Ok tt) /\
    alike (with_top Obj printed s (mkConf (aset name w (vals (top s))) (path (top s)))) s' /\ (path (top s) = None -> files s' = files s).
Proof using Q.
  intros C. cbn [Config.exec set_option]. unfold do_set, set_vals, set_one. rewrite C.
  set (s1 := with_top _ _ _ _). assert (P1 : path (top s1) = path (top s)) by (unfold s1, with_top, top; destruct (stack s); reflexivity).
  assert (F1 : files s1 = files s) by (unfold s1, with_top; destruct (stack s); reflexivity).
  destruct (path (top s)) as [p|] eqn:P.
  - destruct (changed_quiet 1 s1) as (s' & E & A). exists s'. split; [exact E|]. split; [exact A|discriminate].
  - destruct (changed_temp 1 s1 P1) as (s' & E & A & F). exists s'. split; [exact E|]. split; [exact A|]. intros _. rewrite F. exact F1.
Qed.
Lemma print_runs s name v : get s name = Ok v ->
  exists s', exec (print_option name) s = (s', Ok tt) /\ base s' = base s /\ stack s' = stack s /\ environ s' = environ s /\ files s' = files s /\ ostate s' = ostate s ++ [v].
Proof. intros G. cbn [Config.exec print_option]. unfold Config.get in G |- *. rewrite G. eexists. split; [reflexivity|]. auto. Qed.

(** The same, and [o] printed. *)
Definition prints (o : printed) s s' : Prop := base s' = base s /\ stack s' = stack s /\ environ s' = environ s /\ files s' = files s /\ ostate s' = ostate s ++ o.
Lemma prints_get o s s' n : prints o s s' -> get s' n = get s n.
Proof. intros (A & B & C & _). unfold Config.get, top. rewrite A, B, C. reflexivity. Qed.
(** A block without a file: what the body changes in the configuration is gone afterwards. *)
Lemma temp_runs s s0 a body v o : make_temp Obj obj_str obj_bool home writable version printed None a s = (s0, Ok (mkConf v None)) ->
  prints [] s s0 ->
  (forall s1, base s1 = base s -> stack s1 = mkConf v None :: stack s -> environ s1 = environ s -> ostate s1 = ostate s -> files s1 = files s ->
    exists s2, exec body s1 = (s2, Ok tt) /\ base s2 = base s /\ tl (stack s2) = stack s /\ environ s2 = environ s /\ files s2 = files s /\ ostate s2 = ostate s ++ o) ->
  exists s', exec (CTemp None a body) s = (s', Ok tt) /\ prints o s s'.
Proof using Q.
  intros M (B0 & S0 & E0 & F0 & O0) H. rewrite app_nil_r in O0. cbn [Config.exec]. rewrite M. unfold enter.
  destruct (notify_quiet (with_stack Obj printed s0 (mkConf v None :: stack s0))) as (s1 & N1 & (A1 & A2 & A3 & A4) & F1). rewrite N1.
  cbn in A1, A2, A3, A4, F1.
  destruct (H s1) as (s2 & E2 & C1 & C2 & C3 & C4 & C5); try congruence. rewrite E2. unfold leave.
  destruct (notify_quiet (with_stack Obj printed s2 (tl (stack s2)))) as (s3 & N3 & (D1 & D2 & D3 & D4) & F3). rewrite N3. cbn in D1, D2, D3, D4, F3.
  exists s3. split; [reflexivity|]. unfold prints. rewrite D1, D2, D3, D4, F3. split; [exact C1|]. split; [exact C2|]. split; [exact C3|]. split; [exact C4|exact C5].
Qed.
Lemma seq_runs a b s s1 r : exec a s = (s1, Ok tt) -> exec b s1 = r -> exec (CSeq a b) s = r.
Proof. intros E1 E2. cbn [Config.exec]. rewrite E1. exact E2. Qed.

Lemma timeout_of (vs : list (string * value)) env z : alookup (env_var_name T) env = None -> 
  get_in Obj obj_str home (aset T (VInt z) vs) env T = lift_num Obj (Humanize.as_seconds (Some (show_Z z)) false).
Proof. intros E. unfold get_in. cbn [alookup options]. rewrite E, alookup_aset_eq. reflexivity. Qed.

(** The example of [temporary] prints the value there was, 5 and 11, and leaves the configuration and
    all files as they were. *)
Theorem C149_temporary s v : alookup "EARTHKIT_REGRID_URL_DOWNLOAD_TIMEOUT" (environ s) = None -> get s T = Ok v ->
  exists s', exec temporary_example s = (s', Ok tt) /\ ostate s' = ostate s ++ [v; VInt 5; VInt 11] /\ files s' = files s /\ (forall n, get s' n = get s n).
Proof using Q.
  intros E G. unfold temporary_example, all.
  destruct (print_runs s T v G) as (s1 & R1 & P1).
  assert (P1' : prints [v] s s1) by (unfold prints; intuition). clear P1.
  assert (E1 : alookup (env_var_name T) (environ s1) = None) by (destruct P1' as (_ & _ & -> & _); exact E).
  destruct (temp_runs s1 s1 None (CSeq (set_option T (VInt 5)) (CSeq (print_option T) CSkip)) (vals (top s1)) [VInt 5]) as (s2 & R2 & P2).
  { reflexivity. }
  { unfold prints. rewrite app_nil_r. repeat split. }
  { intros s2 B S0 En O F. destruct (set_runs s2 T (VInt 5) (VInt 5)) as (s3 & R3 & (A1 & A2 & A3 & A4) & F3); [reflexivity|].
    unfold with_top, top in A1, A2, A3, A4, F3. rewrite S0 in A1, A2, A3, A4, F3. cbn in A1, A2, A3, A4, F3. specialize (F3 eq_refl).
    assert (G3 : get s3 T = Ok (VInt 5)).
    { unfold Config.get, top. rewrite A2. cbn [vals]. rewrite timeout_of; [vm_compute; reflexivity|]. rewrite A3, En. exact E1. }
    destruct (print_runs s3 T _ G3) as (s4 & R4 & C1 & C2 & C3 & C4 & C5). exists s4.
    split; [eapply seq_runs; [exact R3|eapply seq_runs; [exact R4|reflexivity]]|].
    split; [congruence|]. split; [rewrite C2, A2; reflexivity|]. split; [congruence|]. split; [congruence|]. rewrite C5, A4, O. reflexivity. }
  assert (E2 : alookup (env_var_name T) (environ s2) = None) by (destruct P2 as (_ & _ & -> & _); exact E1).
  assert (M : exists s3, make_temp Obj obj_str obj_bool home writable version printed None (Some (SetPos T [VInt 11] 0)) s2 = (s3, Ok (mkConf (aset T (VInt 11) (vals (top s2))) None)) /\ prints [] s2 s3).
  { unfold make_temp. cbn [set_vals]. unfold set_one. 
    assert (K : checked Obj obj_str obj_bool home T [VInt 11] 0 = Ok (VInt 11)) by reflexivity. rewrite K. cbn [save_to].
    eexists. split; [reflexivity|]. unfold prints. rewrite app_nil_r. destruct (autosave s2); repeat split. }
  destruct M as (s3 & M & P3).
  destruct (temp_runs s2 s3 _ (print_option T) _ [VInt 11] M P3) as (s4 & R4 & P4).
  { intros s5 B S0 En O F. assert (G5 : get s5 T = Ok (VInt 11)).
    { unfold Config.get, top. rewrite S0. cbn [vals]. rewrite timeout_of; [vm_compute; reflexivity|]. rewrite En. exact E2. }
    destruct (print_runs s5 T _ G5) as (s6 & R6 & C1 & C2 & C3 & C4 & C5). exists s6. split; [exact R6|].
    split; [congruence|]. split; [rewrite C2, S0; reflexivity|]. split; [congruence|]. split; [congruence|]. rewrite C5, O. reflexivity. }
  exists s4. split; [eapply seq_runs; [exact R1|eapply seq_runs; [exact R2|eapply seq_runs; [exact R4|reflexivity]]]|].
  split; [|split].
  - destruct P1' as (_ & _ & _ & _ & O1). destruct P2 as (_ & _ & _ & _ & O2). destruct P4 as (_ & _ & _ & _ & O4). rewrite O4, O2, O1, <- !app_assoc. reflexivity.
  - destruct P1' as (_ & _ & _ & F1 & _). destruct P2 as (_ & _ & _ & F2 & _). destruct P4 as (_ & _ & _ & F4 & _). congruence.
  - intros n. rewrite (prints_get _ _ _ n P4), (prints_get _ _ _ n P2). apply (prints_get _ _ _ n P1').
Qed.

(** A call of [set] that is accepted. *)
Lemma set_call a s v n : set_vals Obj obj_str obj_bool home a (vals (top s)) = (v, Ok n) ->
  exists s', exec (CSet a) s = (s', Ok tt) /\ top s' = mkConf v (path (top s)) /\ environ s' = environ s /\ ostate s' = ostate s.
Proof using Q.
  intros E. cbn [Config.exec]. unfold do_set. rewrite E. set (s1 := with_top _ _ _ _). destruct (changed_quiet n s1) as (s' & R & A). exists s'. split; [exact R|].
  rewrite (alike_top _ _ A). destruct A as (_ & _ & A3 & A4). rewrite A3, A4. unfold s1, with_top, top. destruct (stack s); repeat split.
Qed.
(** The example of [set]: accepted, and the options read as the comments say; 1m is 60 seconds. *)
Theorem C149_set s : (forall n, In n ["user-cache-directory"; T; "check-out-of-date-urls"] -> alookup (env_var_name n) (environ s) = None) ->
  exists s', exec set_example s = (s', Ok tt) /\ ostate s' = ostate s /\
    get s' "user-cache-directory" = Ok (VStr "/big-disk/earthkit-regrid-cache") /\ get s' T = Ok (VInt 60) /\ get s' "check-out-of-date-urls" = Ok (VBool true) /\
    (forall n, ~ In n ["user-cache-directory"; T; "check-out-of-date-urls"] -> get s' n = get s n).
Proof using Q.
  intros E. unfold set_example, all, set_option.
  destruct (set_call (SetPos "user-cache-directory" [VStr "/big-disk/earthkit-regrid-cache"] 0) s _ _ eq_refl) as (s1 & R1 & T1 & V1 & O1).
  destruct (set_call (SetPos T [VStr "1m"] 0) s1 _ _ eq_refl) as (s2 & R2 & T2 & V2 & O2).
  destruct (set_call (SetDict [(T, VStr "1m"); ("check-out-of-date-urls", VBool true)]) s2 _ _ eq_refl) as (s3 & R3 & T3 & V3 & O3).
  destruct (set_call (SetKw [("url_download_timeout", VStr "1m"); ("check_out_of_date_urls", VBool true)]) s3 _ _ eq_refl) as (s4 & R4 & T4 & V4 & O4).
  rewrite T3 in T4. rewrite T2 in T4. rewrite T1 in T4. cbn [vals] in T4.
  assert (V : environ s4 = environ s) by congruence.
  exists s4. split; [eapply seq_runs; [exact R1|eapply seq_runs; [exact R2|eapply seq_runs; [exact R3|eapply seq_runs; [exact R4|reflexivity]]]]|].
  split; [congruence|]. unfold Config.get. rewrite T4, V. cbn [vals]. unfold T in *.
  split; [|split; [|split]].
  - unfold get_in. cbn [alookup options]. rewrite (E "user-cache-directory") by (cbn; auto). rewrite !alookup_aset_neq by (vm_compute; discriminate). rewrite alookup_aset_eq. reflexivity.
  - unfold get_in. cbn [alookup options]. rewrite (E "url-download-timeout") by (cbn; auto). rewrite alookup_aset_neq by (vm_compute; discriminate). rewrite alookup_aset_eq. vm_compute. reflexivity.
  - unfold get_in. cbn [alookup options]. rewrite (E "check-out-of-date-urls") by (cbn; auto). rewrite alookup_aset_eq. reflexivity.
  - intros n N. unfold get_in. destruct (alookup n _); [|reflexivity].
    assert (N1 : "user-cache-directory" <> n) by (intros <-; apply N; cbn; auto).
    assert (N2 : "url-download-timeout" <> n) by (intros <-; apply N; cbn; auto).
    assert (N3 : "check-out-of-date-urls" <> n) by (intros <-; apply N; cbn; auto).
    rewrite !alookup_aset_neq by assumption. reflexivity.
Qed.
(** The example of [reset]: all options are back at their defaults. *)
Theorem C149_reset s : exists s', exec reset_example s = (s', Ok tt) /\ vals (top s') = defaults Obj home /\ environ s' = environ s /\ ostate s' = ostate s.
Proof using Q.
  unfold reset_example, all. 
  assert (R1 : exists s1, exec (CReset (Some "user-cache-directory")) s = (s1, Ok tt) /\ environ s1 = environ s /\ ostate s1 = ostate s).
  { cbn [Config.exec]. unfold do_reset.
    assert (X : alookup "user-cache-directory" (defaults Obj home) = Some (VStr (home ++ "/.cache/earthkit-regrid")%string)) by reflexivity. rewrite X. set (s0 := with_top _ _ _ _).
    destruct (changed_quiet 1 s0) as (s1 & R & A). exists s1. split; [exact R|]. destruct A as (_ & _ & A3 & A4). rewrite A3, A4. unfold s0, with_top. destruct (stack s); split; reflexivity. }
  destruct R1 as (s1 & R1 & V1 & O1).
  assert (R2 : exists s2, exec (CReset None) s1 = (s2, Ok tt) /\ vals (top s2) = defaults Obj home /\ environ s2 = environ s1 /\ ostate s2 = ostate s1).
  { cbn [Config.exec]. unfold do_reset. set (s0 := with_top _ _ _ _).
    destruct (changed_quiet 1 s0) as (s2 & R & A). exists s2. split; [exact R|]. rewrite (alike_top _ _ A). destruct A as (_ & _ & A3 & A4). rewrite A3, A4. unfold s0, with_top, top. destruct (stack s1); repeat split. }
  destruct R2 as (s2 & R2 & D2 & V2 & O2). exists s2. split; [eapply seq_runs; [exact R1|eapply seq_runs; [exact R2|reflexivity]]|]. split; [exact D2|]. split; congruence.
Qed.
(** The example of the environment: 5 while the variable is set, also after a call of [set]; the
    value of that call once the variable is gone. *)
Theorem C149_environment s : exists s', exec environment_example s = (s', Ok tt) /\ ostate s' = ostate s ++ [VInt 5; VInt 5; VInt 10] /\
  (forall n, n <> T -> alookup (env_var_name n) (environ s') = alookup (env_var_name n) (environ s) -> get s' n = get s n).
Proof using Q.
  unfold environment_example, all. set (var := "EARTHKIT_REGRID_URL_DOWNLOAD_TIMEOUT").
  assert (EV : env_var_name T = var) by (vm_compute; reflexivity).
  set (s1 := mkSt (base s) (stack s) (callbacks s) (autosave s) (files s) (aset var "5" (environ s)) (ostate s) (seen s) (failed s)).
  assert (R1 : exec (CEnv var (Some "5")) s = (s1, Ok tt)) by reflexivity.
  assert (G : forall s2, environ s2 = aset var "5" (environ s) -> get s2 T = Ok (VInt 5)).
  { intros s2 V. unfold Config.get, get_in. cbn [alookup options]. rewrite EV, V, alookup_aset_eq. vm_compute. reflexivity. }
  destruct (print_runs s1 T _ (G s1 eq_refl)) as (s2 & R2 & B2 & S2 & V2 & F2 & O2). cbn in B2, S2, V2, O2.
  destruct (set_call (SetPos T [VInt 10] 0) s2 _ _ eq_refl) as (s3 & R3 & T3 & V3 & O3).
  destruct (print_runs s3 T _ (G s3 ltac:(congruence))) as (s4 & R4 & B4 & S4 & V4 & F4 & O4).
  set (s5 := mkSt (base s4) (stack s4) (callbacks s4) (autosave s4) (files s4) (aremove var (environ s4)) (ostate s4) (seen s4) (failed s4)).
  assert (R5 : exec (CEnv var None) s4 = (s5, Ok tt)) by reflexivity.
  assert (T5 : top s5 = mkConf (aset T (VInt 10) (vals (top s))) (path (top s2))).
  { transitivity (top s3); [unfold top; cbn; rewrite B4, S4; reflexivity|]. rewrite T3. f_equal. f_equal. unfold top. rewrite B2, S2. reflexivity. }
  assert (G5 : get s5 T = Ok (VInt 10)).
  { unfold Config.get. rewrite T5. cbn [vals]. rewrite timeout_of; [vm_compute; reflexivity|]. rewrite EV. cbn. apply alookup_aremove_eq. }
  destruct (print_runs s5 T _ G5) as (s6 & R6 & B6 & S6 & V6 & F6 & O6). exists s6.
  split; [eapply seq_runs; [exact R1|eapply seq_runs; [exact R2|eapply seq_runs; [exact R3|eapply seq_runs; [exact R4|eapply seq_runs; [exact R5|eapply seq_runs; [exact R6|reflexivity]]]]]]|].
  split; [rewrite O6; cbn; rewrite O4, O3, O2, <- !app_assoc; reflexivity|].
  intros n N V. unfold Config.get, get_in. destruct (alookup n _); [|reflexivity]. rewrite V.
  assert (T6 : top s6 = top s5) by (unfold top; rewrite B6, S6; reflexivity). rewrite T6, T5. cbn [vals]. rewrite alookup_aset_neq by (intros X; apply N; symmetry; exact X). reflexivity.
Qed.

(** ** C150: the guide to the memory cache *)
Lemma policy_of (vs : list (string * value)) env p : alookup (env_var_name P) env = None -> get_in Obj obj_str home (aset P (VStr p) vs) env P = Ok (VStr p).
Proof. intros E. unfold get_in. cbn [alookup options]. rewrite E, alookup_aset_eq. reflexivity. Qed.
Lemma other_of (vs : list (string * value)) env v n : n <> P -> get_in Obj obj_str home (aset P v vs) env n = get_in Obj obj_str home vs env n.
Proof. intros N. unfold get_in. destruct (alookup n _); [|reflexivity]. rewrite alookup_aset_neq by (intros X; apply N; symmetry; exact X). reflexivity. Qed.
(** A policy that exists is accepted and printed, with the other options as they were. *)
Theorem C150_policies p s m k : In p ["off"; "unlimited"; "largest"; "lru"] -> alookup (env_var_name P) (environ s) = None -> get s M = Ok m -> get s S_ = Ok k ->
  exists s', exec (policy_example p) s = (s', Ok tt) /\ ostate s' = ostate s ++ [VStr p; m; k] /\ (forall n, n <> P -> get s' n = get s n).
Proof using Q.
  intros I E GM GS. unfold policy_example, all, set_option.
  assert (K : set_vals Obj obj_str obj_bool home (SetPos P [VStr p] 0) (vals (top s)) = (aset P (VStr p) (vals (top s)), Ok 1%nat)).
  { destruct I as [<-|[<-|[<-|[<-|[]]]]]; reflexivity. }
  destruct (set_call _ s _ _ K) as (s1 & R1 & T1 & V1 & O1).
  assert (G1 : get s1 P = Ok (VStr p)) by (unfold Config.get; rewrite T1, V1; apply policy_of, E).
  assert (H1 : forall n, n <> P -> get s1 n = get s n) by (intros n N; unfold Config.get; rewrite T1, V1; apply other_of, N).
  destruct (print_runs s1 P _ G1) as (s2 & R2 & B2 & C2 & V2 & F2 & O2).
  assert (P2 : prints [VStr p] s1 s2) by (unfold prints; repeat split; assumption).
  assert (G2 : get s2 M = Ok m) by (rewrite (prints_get _ _ _ M P2), H1 by (vm_compute; discriminate); exact GM).
  destruct (print_runs s2 M _ G2) as (s3 & R3 & B3 & C3 & V3 & F3 & O3).
  assert (P3 : prints [m] s2 s3) by (unfold prints; repeat split; assumption).
  assert (G3 : get s3 S_ = Ok k) by (rewrite (prints_get _ _ _ S_ P3), (prints_get _ _ _ S_ P2), H1 by (vm_compute; discriminate); exact GS).
  destruct (print_runs s3 S_ _ G3) as (s4 & R4 & B4 & C4 & V4 & F4 & O4).
  assert (P4 : prints [k] s3 s4) by (unfold prints; repeat split; assumption).
  exists s4. split; [eapply seq_runs; [exact R1|eapply seq_runs; [exact R2|eapply seq_runs; [exact R3|eapply seq_runs; [exact R4|reflexivity]]]]|].
  split; [rewrite O4, O3, O2, O1, <- !app_assoc; reflexivity|].
  intros n N. rewrite (prints_get _ _ _ n P4), (prints_get _ _ _ n P3), (prints_get _ _ _ n P2). apply H1, N.
Qed.
(** The two short examples. *)
Theorem C150_short s : alookup (env_var_name P) (environ s) = None ->
  (exists s', exec unlimited_example s = (s', Ok tt) /\ ostate s' = ostate s ++ [VStr "unlimited"] /\ (forall n, n <> P -> get s' n = get s n)) /\
  (exists s', exec off_example s = (s', Ok tt) /\ ostate s' = ostate s ++ [VStr "off"] /\ (forall n, n <> P -> get s' n = get s n)).
Proof using Q.
  intros E.
  assert (H : forall p, In p ["off"; "unlimited"] -> exists s', exec (all [set_option P (VStr p); print_option P]) s = (s', Ok tt) /\ ostate s' = ostate s ++ [VStr p] /\ (forall n, n <> P -> get s' n = get s n)).
  { intros p I. unfold all, set_option.
    assert (K : set_vals Obj obj_str obj_bool home (SetPos P [VStr p] 0) (vals (top s)) = (aset P (VStr p) (vals (top s)), Ok 1%nat)).
    { destruct I as [<-|[<-|[]]]; reflexivity. }
    destruct (set_call _ s _ _ K) as (s1 & R1 & T1 & V1 & O1).
    assert (G1 : get s1 P = Ok (VStr p)) by (unfold Config.get; rewrite T1, V1; apply policy_of, E).
    destruct (print_runs s1 P _ G1) as (s2 & R2 & B2 & C2 & V2 & F2 & O2).
    assert (P2 : prints [VStr p] s1 s2) by (unfold prints; repeat split; assumption).
    exists s2. split; [eapply seq_runs; [exact R1|eapply seq_runs; [exact R2|reflexivity]]|]. split; [rewrite O2, O1; reflexivity|].
    intros n N. rewrite (prints_get _ _ _ n P2). unfold Config.get. rewrite T1, V1. apply other_of, N. }
  split; apply H; cbn; auto.
Qed.
(** The example of the limit: largest, and 100 MB. *)
Theorem C150_limit s : alookup (env_var_name P) (environ s) = None -> alookup (env_var_name M) (environ s) = None ->
  exists s', exec limit_example s = (s', Ok tt) /\ get s' P = Ok (VStr "largest") /\ get s' M = Ok (VInt 104857600) /\ (forall n, n <> P -> n <> M -> get s' n = get s n).
Proof using Q.
  intros E1 E2. unfold limit_example.
  assert (K : set_vals Obj obj_str obj_bool home (SetKw [("weights_memory_cache_policy", VStr "largest"); ("maximum_weights_memory_cache_size", VInt (100 * 1024 ^ 2))]) (vals (top s)) =
    (aset M (VInt 104857600) (aset P (VStr "largest") (vals (top s))), Ok 2%nat)) by reflexivity.
  destruct (set_call _ s _ _ K) as (s1 & R1 & T1 & V1 & O1). exists s1. split; [exact R1|]. unfold Config.get. rewrite T1, V1. cbn [vals]. split; [|split].
  - unfold get_in. cbn [alookup options]. rewrite E1. rewrite alookup_aset_neq by (vm_compute; discriminate). rewrite alookup_aset_eq. reflexivity.
  - unfold get_in. cbn [alookup options]. rewrite E2, alookup_aset_eq. vm_compute. reflexivity.
  - intros n N1 N2. unfold get_in. destruct (alookup n _); [|reflexivity]. rewrite !alookup_aset_neq by (intros X; symmetry in X; contradiction). reflexivity.
Qed.
End Quiet.
(** The example of the policy "largest" sets the policy "user", which there is not: it fails, and the
    configuration stays as it was; whatever the state, the environment and the observers. *)
Theorem C150_largest_refuted s : exists s', exec largest_example s = (s', Raise ValueError) /\ ostate s' = ostate s /\ (forall n, get s' n = get s n).
Proof.
  unfold largest_example, policy_example, all, set_option. cbn [Config.exec]. unfold do_set.
  assert (K : set_vals Obj obj_str obj_bool home (SetPos P [VStr "user"] 0) (vals (top s)) = (vals (top s), Raise ValueError)) by reflexivity.
  rewrite K. eexists. split; [reflexivity|]. unfold Config.get, with_top, top. destruct (stack s); split; try reflexivity; intros n; reflexivity.
Qed.
End Statements.

(** ** At the start, with no file and no environment *)
Definition nothing (_ : unit) : string := "".
Definition calm (cb : nat) (g : string -> result (value unit)) (o : @printed unit) : printed * result unit := (o, Ok tt).
(** The output of the guide: 30, 5, 11. *)
Example C149_output : quiet calm /\
  let s := start unit (fun _ => true) "/home/u" (fun _ => true) "1" (@printed unit) "/home/u/.config" [] [] [] in
  ostate (fst (exec unit nothing (fun _ => true) "/home/u" (fun _ => true) "1" printed calm temporary_example s)) = [VInt 30; VInt 5; VInt 11] /\
  ostate (fst (exec unit nothing (fun _ => true) "/home/u" (fun _ => true) "1" printed calm environment_example s)) = [VInt 5; VInt 5; VInt 10] /\
  get unit nothing "/home/u" printed (fst (exec unit nothing (fun _ => true) "/home/u" (fun _ => true) "1" printed calm set_example s)) T = Ok (VInt 60).
Proof. split; [intros cb g o; reflexivity|]. vm_compute. auto. Qed.

(** The other outputs of the guide, without file and environment: 500 MB, not strict. *)
Example C150_output :
  let s := start unit (fun _ => true) "/home/u" (fun _ => true) "1" (@printed unit) "/home/u/.config" [] [] [] in
  ostate (fst (exec unit nothing (fun _ => true) "/home/u" (fun _ => true) "1" printed calm lru_example s)) = [VStr "lru"; VInt 524288000; VBool false].
Proof. vm_compute. reflexivity. Qed.

Print Assumptions C149_temporary.
Print Assumptions C149_set.
Print Assumptions C149_reset.
Print Assumptions C149_environment.
Print Assumptions C150_policies.
Print Assumptions C150_short.
Print Assumptions C150_limit.
Print Assumptions C150_largest_refuted.
