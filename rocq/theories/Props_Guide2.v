(** Property C151: the state of the memory cache shown in its guide. *)
From Verif Require Import PyBase ListLemmas MemCache MemCacheSpec MemCacheDemo Guide2.
Local Open Scope string_scope.
Local Open Scope list_scope.
Local Open Scope Z_scope.

Section Statements.
Context {Req Ent W : Type} (key_of : Req -> string) (est_size : Ent -> Z) (size_of : W -> Z).
Notation after := (after key_of est_size size_of).
Notation run := (run key_of est_size size_of).
Notation get := (get key_of est_size size_of).

(** A cache that holds nothing and has counted nothing. *)
Definition blank (s : state W) : Prop := items s = [] /\ curr_mem s = 0 /\ hits s = 0 /\ misses s = 0.
Lemma blank_clear s : blank (clear s).
Proof. repeat split. Qed.
Lemma blank_reduce t s : blank s -> blank (fst (reduce_ t s)).
Proof.
  destruct s as [l m c h n st p]. intros (A & B & C & D). cbn in A, B, C, D. subst.
  unfold reduce_, blank. destruct p, m as [m|]; cbn; try (destruct (m <=? 0)); cbn; destruct t; cbn; auto.
Qed.
Lemma blank_update c s : blank s -> blank (fst (update c s)).
Proof.
  destruct s as [l m cu h n st p]. intros (A & B & C & D). cbn in A, B, C, D. subst. unfold update. cbn [MemCache.items MemCache.max_mem MemCache.curr_mem MemCache.hits MemCache.misses MemCache.strict MemCache.pol].
  destruct (String.eqb _ _).
  - destruct (_ || _ || _); [apply blank_reduce|]; repeat split.
  - destruct (make_policy _) as [q|]; [|repeat split].
    destruct q; unfold check; cbn [MemCache.items MemCache.max_mem MemCache.curr_mem MemCache.hits MemCache.misses MemCache.strict MemCache.pol];
      try (destruct (_ || _ || _); [apply blank_reduce|]; repeat split);
      (destruct (if negb _ then _ else _) as [z|]; [destruct (z <=? 0)|]; try (repeat split; fail);
       destruct (_ || _ || _); [apply blank_reduce|]; repeat split).
Qed.
(** A cache at the start of a session is blank, whatever the configuration. *)
Lemma blank_init c : blank (fst (init c)).
Proof. apply blank_update. repeat split. Qed.

(** What the limits are after an update. *)
Lemma update_blank c s m p : blank s -> c_max c = Some m -> 0 < m -> make_policy (c_policy c) = Some p -> p = PLru \/ p = PLargest ->
  update c s = (mkState [] (Some m) 0 0 0 (c_strict c) p, Ok tt).
Proof.
  destruct s as [l mm cu h n st q]. intros (A & B & C & D) M P N L. cbn in A, B, C, D. subst.
  assert (LE : (m <=? 0) = false) by (apply Z.leb_gt; lia).
  assert (NAME : policy_name p = c_policy c).
  { unfold make_policy in N. destruct (String.eqb_spec (c_policy c) "off") as [X|_]; [injection N as <-; symmetry; exact X|].
    destruct (String.eqb_spec (c_policy c) "unlimited") as [X|_]; [injection N as <-; symmetry; exact X|].
    destruct (String.eqb_spec (c_policy c) "lru") as [X|_]; [injection N as <-; symmetry; exact X|].
    destruct (String.eqb_spec (c_policy c) "largest") as [X|_]; [injection N as <-; symmetry; exact X|discriminate]. }
  assert (SAME : forall q', policy_name q' = c_policy c -> q' = p).
  { intros q' X. rewrite <- NAME in X. destruct q', p; try reflexivity; discriminate. }
  unfold update. cbn [MemCache.items MemCache.max_mem MemCache.curr_mem MemCache.hits MemCache.misses MemCache.strict MemCache.pol]. rewrite M.
  assert (E1 : (if negb (optZ_eqb mm (Some m)) then Some m else mm) = Some m).
  { destruct mm as [z|]; cbn; [|reflexivity]. destruct (Z.eqb_spec z m) as [->|X]; reflexivity. }
  assert (E2 : (if negb (Bool.eqb st (c_strict c)) then c_strict c else st) = c_strict c) by (destruct st, (c_strict c); reflexivity).
  rewrite E1, E2.
  assert (R : reduce_ None (@mkState W [] (Some m) 0 0 0 (c_strict c) p) = (mkState [] (Some m) 0 0 0 (c_strict c) p, Ok tt)).
  { destruct L as [->| ->]; unfold reduce_, check; cbn; rewrite LE; reflexivity. }
  destruct (String.eqb_spec (policy_name q) (c_policy c)) as [X|X].
  - rewrite (SAME _ X). rewrite R. destruct (_ || _ || _); reflexivity.
  - rewrite N. destruct L as [->| ->]; unfold check; cbn [MemCache.max_mem]; rewrite LE; cbn [MemCache.items MemCache.max_mem MemCache.curr_mem MemCache.hits MemCache.misses MemCache.strict MemCache.pol]; rewrite !orb_true_r; exact R.
Qed.

(** The weights held after the first request. *)
Definition one (m : Z) (st : bool) (p : policy) (h : Z) (r : Req) (w : W) : state W :=
  mkState [(key_of r, mkItem w (size_of w))] (Some m) (size_of w) h 1 st p.
Lemma first_get i r e w m st p : p = PLru \/ p = PLargest -> i_find i r = Ok (Some e) -> i_load i e = Ok w -> est_size e <= m -> 0 < m -> size_of w < m ->
  get i r (mkState [] (Some m) 0 0 0 st p) = (one m st p 0 r w, [CFind r; CLoad e], Ok (Some w)).
Proof.
  intros L F LD EM P SM.
  assert (LE : (m <=? 0) = false) by (apply Z.leb_gt; lia).
  assert (C : create_with_pre_check est_size i r (mkState [] (Some m) 0 0 0 st p) = (mkState [] (Some m) 0 0 0 st p, [CFind r; CLoad e], Ok (Some w))).
  { unfold create_with_pre_check. rewrite F. cbn [MemCache.max_mem MemCache.curr_mem]. rewrite Z.sub_0_r.
    replace (est_size e >? m) with false by (symmetry; rewrite Z.gtb_ltb; apply Z.ltb_ge; lia). cbn [andb MemCache.strict MemCache.curr_mem]. rewrite Z.sub_0_r.
    replace (m <? est_size e) with false by (symmetry; apply Z.ltb_ge; lia). rewrite andb_false_r. cbn. rewrite LD. reflexivity. }
  assert (HL : has_limit p = true) by (destruct L as [->| ->]; reflexivity).
  assert (HC : has_cache p = true) by (destruct L as [->| ->]; reflexivity).
  unfold MemCache.get. cbn [MemCache.pol MemCache.items]. rewrite HC, HL. cbn [negb alookup]. rewrite C. cbn [MemCache.items MemCache.max_mem MemCache.curr_mem MemCache.hits MemCache.misses MemCache.strict MemCache.pol].
  assert (GE : (size_of w + 0 >=? m) = false) by (rewrite Z.geb_leb; apply Z.leb_gt; lia).
  unfold reduce_, one. destruct L as [->| ->]; unfold check; cbn [MemCache.max_mem MemCache.pol]; rewrite LE; cbn; rewrite Z.add_0_r in *; rewrite ?GE; reflexivity.
Qed.
Lemma next_get i r w m st p h : has_cache p = true -> get i r (one m st p h r w) = (one m st p (h + 1) r w, [], Ok (Some w)).
Proof.
  intros HC. unfold MemCache.get, one. cbn [MemCache.pol MemCache.items]. rewrite HC. cbn [negb alookup]. rewrite String.eqb_refl.
  unfold move_to_end. cbn. rewrite String.eqb_refl. reflexivity.
Qed.

(** C151: in a new session, or after a clear whatever the history: nothing is held; the first regrid
    is a miss, its weights are held; the second is a hit that loads nothing. *)
Theorem C151_twice s c i r e w m p :
  (exists c0, s = fst (init c0)) \/ (exists c0 ops, s = after c0 (ops ++ [OpClear])) ->
  c_max c = Some m -> c_policy c = policy_name p -> p = PLru \/ p = PLargest -> 0 < m ->
  i_find i r = Ok (Some e) -> i_load i e = Ok w -> est_size e <= m -> size_of w < m ->
  snd (run s (twice_example c i r)) =
    [OutUpdate (Ok tt); OutInfo (mkInfo 0 0 (Some m) 0 0 (policy_name p));
     OutGet [CFind r; CLoad e] (Ok (Some w)); OutInfo (mkInfo 0 1 (Some m) (size_of w) 1 (policy_name p));
     OutGet [] (Ok (Some w)); OutInfo (mkInfo 1 1 (Some m) (size_of w) 1 (policy_name p))].
Proof.
  intros S M PN L P F LD EM SM.
  assert (B : blank s).
  { destruct S as [[c0 ->]|(c0 & ops & ->)]; [apply blank_init|]. unfold MemCacheSpec.after. generalize (fst (@init W c0)). induction ops as [|o ops IH]; intros s0.
    - apply blank_clear.
    - cbn [MemCache.run app]. destruct (step _ _ _ s0 o) as [s1 x]. specialize (IH s1). destruct (MemCache.run key_of est_size size_of s1 (ops ++ [OpClear])). exact IH. }
  assert (MP : make_policy (c_policy c) = Some p) by (rewrite PN; destruct p; reflexivity).
  assert (HC : has_cache p = true) by (destruct L as [->| ->]; reflexivity).
  unfold twice_example. cbn [MemCache.run MemCache.step]. rewrite (update_blank c s m p B M P MP L). cbn [MemCache.run MemCache.step].
  rewrite (first_get i r e w m (c_strict c) p L F LD EM P SM). cbn [MemCache.run MemCache.step]. rewrite next_get by exact HC. reflexivity.
Qed.

(** C151: n + 1 regrids with the same grids are n hits and one miss, and only the first loads. *)
Lemma hits_run i r w m st p : has_cache p = true -> forall n h, run (one m st p h r w) (info_example n i r) =
  (one m st p (h + Z.of_nat n) r w, repeat (OutGet [] (Ok (Some w))) n ++ [OutInfo (mkInfo (h + Z.of_nat n) 1 (Some m) (size_of w) 1 (policy_name p))]).
Proof.
  intros HC. induction n as [|n IH]; intros h; unfold info_example in *; cbn [repeat app MemCache.run MemCache.step].
  - change (Z.of_nat 0) with 0. rewrite Z.add_0_r. reflexivity.
  - rewrite next_get by exact HC. rewrite IH. replace (h + 1 + Z.of_nat n) with (h + Z.of_nat (S n)) by lia. reflexivity.
Qed.
Theorem C151_hits c i r e w m p n :
  c_max c = Some m -> c_policy c = policy_name p -> p = PLru \/ p = PLargest -> 0 < m ->
  i_find i r = Ok (Some e) -> i_load i e = Ok w -> est_size e <= m -> size_of w < m ->
  snd (run (fst (init c)) (info_example (S n) i r)) =
    OutGet [CFind r; CLoad e] (Ok (Some w)) :: repeat (OutGet [] (Ok (Some w))) n ++ [OutInfo (mkInfo (Z.of_nat n) 1 (Some m) (size_of w) 1 (policy_name p))].
Proof.
  intros M PN L P F LD EM SM.
  assert (MP : make_policy (c_policy c) = Some p) by (rewrite PN; destruct p; reflexivity).
  assert (HC : has_cache p = true) by (destruct L as [->| ->]; reflexivity).
  unfold init. rewrite (update_blank c fresh m p) by (try assumption; repeat split). cbn [fst].
  unfold info_example. cbn [repeat app MemCache.run MemCache.step]. rewrite (first_get i r e w m (c_strict c) p L F LD EM P SM).
  pose proof (hits_run i r w m (c_strict c) p HC n 0) as H. unfold info_example in H. rewrite H. reflexivity.
Qed.

(** C151: weights of the maximum or more are not kept: every regrid loads them and is a miss. *)
Lemma large_get i r e w m st p k : p = PLru \/ p = PLargest -> i_find i r = Ok (Some e) -> i_load i e = Ok w -> (st = false \/ est_size e <= m) -> 0 < m -> m <= size_of w ->
  get i r (mkState [] (Some m) 0 0 k st p) = (mkState [] (Some m) 0 0 (k + 1) st p, [CFind r; CLoad e], Ok (Some w)).
Proof.
  intros L F LD EM P SM.
  assert (LE : (m <=? 0) = false) by (apply Z.leb_gt; lia).
  assert (C : create_with_pre_check est_size i r (mkState [] (Some m) 0 0 k st p) = (mkState [] (Some m) 0 0 k st p, [CFind r; CLoad e], Ok (Some w))).
  { unfold create_with_pre_check. rewrite F. cbn [MemCache.max_mem MemCache.curr_mem]. rewrite Z.sub_0_r.
    replace ((est_size e >? m) && (est_size e <=? m)) with false by (symmetry; rewrite Z.gtb_ltb; destruct (Z.ltb_spec m (est_size e)), (Z.leb_spec (est_size e) m); try reflexivity; lia).
    cbn [MemCache.strict MemCache.curr_mem]. rewrite Z.sub_0_r.
    replace (st && (m <? est_size e)) with false by (symmetry; destruct EM as [->|EM]; [reflexivity|]; rewrite (proj2 (Z.ltb_ge _ _) EM), andb_false_r; reflexivity).
    cbn. rewrite LD. reflexivity. }
  assert (HL : has_limit p = true) by (destruct L as [->| ->]; reflexivity).
  assert (HC : has_cache p = true) by (destruct L as [->| ->]; reflexivity).
  unfold MemCache.get. cbn [MemCache.pol MemCache.items]. rewrite HC, HL. cbn [negb alookup]. rewrite C. cbn [MemCache.items MemCache.max_mem MemCache.curr_mem MemCache.hits MemCache.misses MemCache.strict MemCache.pol].
  assert (GE : (size_of w + 0 >=? m) = true) by (rewrite Z.geb_leb; apply Z.leb_le; lia).
  unfold reduce_. destruct L as [->| ->]; unfold check; cbn [MemCache.max_mem MemCache.pol]; rewrite LE; cbn; rewrite Z.add_0_r in *; rewrite ?GE; cbn; rewrite Z.sub_diag; try rewrite String.eqb_refl; reflexivity.
Qed.
Theorem C151_too_large c i r e w m p n :
  c_max c = Some m -> c_policy c = policy_name p -> p = PLru \/ p = PLargest -> 0 < m ->
  i_find i r = Ok (Some e) -> i_load i e = Ok w -> (c_strict c = false \/ est_size e <= m) -> m <= size_of w ->
  snd (run (fst (init c)) (info_example n i r)) =
    repeat (OutGet [CFind r; CLoad e] (Ok (Some w))) n ++ [OutInfo (mkInfo 0 (Z.of_nat n) (Some m) 0 0 (policy_name p))].
Proof.
  intros M PN L P F LD EM SM.
  assert (MP : make_policy (c_policy c) = Some p) by (rewrite PN; destruct p; reflexivity).
  unfold init. rewrite (update_blank c fresh m p) by (try assumption; repeat split). cbn [fst].
  assert (H : forall n k, snd (run (mkState [] (Some m) 0 0 k (c_strict c) p) (info_example n i r)) =
    repeat (OutGet [CFind r; CLoad e] (Ok (Some w))) n ++ [OutInfo (mkInfo 0 (k + Z.of_nat n) (Some m) 0 0 (policy_name p))]).
  { clear n. induction n as [|n IH]; intros k; unfold info_example in *; cbn [repeat app MemCache.run MemCache.step].
    - change (Z.of_nat 0) with 0. rewrite Z.add_0_r. reflexivity.
    - rewrite (large_get i r e w m (c_strict c) p k L F LD EM P SM). specialize (IH (k + 1)). destruct (MemCache.run _ _ _ _ _). cbn [snd] in *. rewrite IH.
      replace (k + 1 + Z.of_nat n) with (k + Z.of_nat (S n)) by lia. reflexivity. }
  exact (H n 0).
Qed.

(** C151: unlimited keeps weights of any size; off loads every time and counts nothing. *)
Theorem C151_unlimited c i r e w n :
  c_policy c = "unlimited" -> i_find i r = Ok (Some e) -> i_load i e = Ok w ->
  snd (run (fst (init c)) (info_example (S n) i r)) =
    OutGet [CFind r; CLoad e] (Ok (Some w)) :: repeat (OutGet [] (Ok (Some w))) n ++ [OutInfo (mkInfo (Z.of_nat n) 1 None (size_of w) 1 "unlimited")].
Proof.
  intros PN F LD.
  assert (U : fst (init c) = @mkState W [] None 0 0 0 false PUnlimited).
  { unfold init, update. rewrite PN. cbn. rewrite !orb_true_r. reflexivity. }
  rewrite U. unfold info_example. cbn [repeat app MemCache.run MemCache.step].
  assert (G : get i r (mkState [] None 0 0 0 false PUnlimited) = (mkState [(key_of r, mkItem w (size_of w))] None (size_of w) 0 1 false PUnlimited, [CFind r; CLoad e], Ok (Some w))).
  { unfold MemCache.get, create, create_calls. cbn. rewrite F. cbn. rewrite LD. cbn. unfold reduce_. cbn. rewrite Z.add_0_r. reflexivity. }
  rewrite G.
  assert (H : forall n h, snd (run (mkState [(key_of r, mkItem w (size_of w))] None (size_of w) h 1 false PUnlimited) (repeat (OpGet i r) n ++ [OpInfo])) =
    repeat (OutGet [] (Ok (Some w))) n ++ [OutInfo (mkInfo (h + Z.of_nat n) 1 None (size_of w) 1 "unlimited")]).
  { clear n. induction n as [|n IH]; intros h; cbn [repeat app MemCache.run MemCache.step].
    - change (Z.of_nat 0) with 0. rewrite Z.add_0_r. reflexivity.
    - unfold MemCache.get. cbn [MemCache.pol MemCache.items has_cache negb alookup]. rewrite String.eqb_refl. unfold move_to_end. cbn [aremove filter fst]. 
      cbn. rewrite String.eqb_refl. cbn. specialize (IH (h + 1)). destruct (MemCache.run _ _ _ _ _). cbn [snd] in *. rewrite IH.
      replace (h + 1 + Z.of_nat n) with (h + Z.of_nat (S n)) by lia. reflexivity. }
  specialize (H n 0). destruct (MemCache.run _ _ _ _ _). cbn [snd] in *. rewrite H. reflexivity.
Qed.
Theorem C151_off c i r e w n :
  c_policy c = "off" -> i_find i r = Ok (Some e) -> i_load i e = Ok w ->
  snd (run (fst (init c)) (info_example n i r)) =
    repeat (OutGet [CFind r; CLoad e] (Ok (Some w))) n ++ [OutInfo (mkInfo 0 0 (Some 0) 0 0 "off")].
Proof.
  intros PN F LD.
  assert (U : fst (init c) = @mkState W [] (Some 0) 0 0 0 false POff).
  { unfold init, update. rewrite PN. cbn. rewrite !orb_true_r. reflexivity. }
  rewrite U. unfold info_example. induction n as [|n IH]; [reflexivity|]. cbn [repeat app MemCache.run MemCache.step].
  assert (G : get i r (mkState [] (Some 0) 0 0 0 false POff) = (mkState [] (Some 0) 0 0 0 false POff, [CFind r; CLoad e], Ok (Some w))).
  { unfold MemCache.get, create, create_calls. cbn. rewrite F. cbn. rewrite LD. reflexivity. }
  rewrite G. destruct (MemCache.run _ _ _ _ _). cbn [snd] in *. rewrite IH. reflexivity.
Qed.

(** C151: after a clear, whatever the history: no hits, no misses, nothing held; maximum and policy as before. *)
Theorem C151_clear c ops :
  snd (run (after c ops) clear_example) =
    [OutUnit; OutInfo (mkInfo 0 0 (f_maxsize (info (after c ops))) 0 0 (f_policy (info (after c ops))))].
Proof. reflexivity. Qed.
End Statements.

(** The outputs of the guide: 102340 bytes, of at most 104857600; and ten regrids. *)
Definition guide_inventory (n : N) := dinv 1 [("O32 5x5", n)].
Example C151_output :
  snd (run dkey dest dsize (fst (init (mkConf (Some 524288000) false "largest"))) (twice_example (mkConf (Some 104857600) false "largest") (guide_inventory 102340) "O32 5x5")) =
    [OutUpdate (Ok tt); OutInfo (mkInfo 0 0 (Some 104857600) 0 0 "largest");
     OutGet [CFind "O32 5x5"; CLoad (1, 102340%N)] (Ok (Some (1, 102340%N))); OutInfo (mkInfo 0 1 (Some 104857600) 102340 1 "largest");
     OutGet [] (Ok (Some (1, 102340%N))); OutInfo (mkInfo 1 1 (Some 104857600) 102340 1 "largest")].
Proof. apply (C151_twice dkey dest dsize) with (p := PLargest); try reflexivity; try (left; eexists; reflexivity); try (right; reflexivity); vm_compute; congruence. Qed.
Example C151_ten :
  last (snd (run dkey dest dsize (fst (init (mkConf (Some 524288000) false "largest"))) (info_example 10 (guide_inventory 259170724) "O32 5x5"))) OutUnit =
    OutInfo (mkInfo 9 1 (Some 524288000) 259170724 1 "largest").
Proof. rewrite (C151_hits dkey dest dsize) with (m := 524288000) (p := PLargest) (e := (1, 259170724%N)) (w := (1, 259170724%N)); try reflexivity; try (right; reflexivity); vm_compute; congruence. Qed.

(** Weights as large as the maximum, and the two other policies. *)
Example C151_others :
  last (snd (run dkey dest dsize (fst (init lru60)) (info_example 3 invA "full"))) OutUnit = OutInfo (mkInfo 0 3 (Some 60) 0 0 "lru") /\
  last (snd (run dkey dest dsize (fst (init unl)) (info_example 3 invA "big"))) OutUnit = OutInfo (mkInfo 2 1 None 200 1 "unlimited") /\
  last (snd (run dkey dest dsize (fst (init off_)) (info_example 3 invA "big"))) OutUnit = OutInfo (mkInfo 0 0 (Some 0) 0 0 "off").
Proof. repeat split; vm_compute; reflexivity. Qed.

Print Assumptions C151_twice.
Print Assumptions C151_hits.
Print Assumptions C151_clear.
Print Assumptions C151_too_large.
Print Assumptions C151_unlimited.
Print Assumptions C151_off.
