(** PolicyConc.v: a thread that nobody disturbs. *)
From Verif Require Import PyBase PolicyConc PolicyConcProofs.
Set Default Proof Using "Type".
Local Open Scope nat_scope.

Section Proofs3.
  Variable V : Type.
  Variable same : V -> V -> bool.
  Hypothesis same_ok : forall a b, same a b = true <-> a = b.
  Variable named : V -> kind.
  Notation sys := (PolicyConc.sys V).
  Notation step := (PolicyConc.step V same named).
  Notation run := (PolicyConc.run V same named).
  Notation at_ := (PolicyConc.at_ V).
  Notation todo := (PolicyConc.todo V).
  Notation thr := (PolicyConc.thr V).

  (** The system as one thread sees it. *)
  Definition lk (x : option nat) : option nat := match x with None => None | Some _ => Some 0 end.
  Definition em (g : sys) (t : nat) : sys :=
    mkSys V (conf V g) (heap V g) (next V g) (cur V g) (told V g) (lk (plock V g)) (lk (mlock V g)) (fun _ => thr g t) (faults V g).

  Lemma em_step g t : em (step t g) t = em (step 0 (em g t)) 0.
  Proof.
    clear same_ok. unfold PolicyConc.step, with_cur, goes. cbn [em PolicyConc.thr PolicyConc.conf PolicyConc.heap PolicyConc.next PolicyConc.cur PolicyConc.told PolicyConc.plock PolicyConc.mlock PolicyConc.faults].
    destruct (at_ (thr g t)) as
      [|[|[k v] a]|i [|k ks]| |[|k ks]|c [|k ks] acc| | | |i [|k ks] ch|i k ks ch|i k v ks ch| | |];
    try destruct (plock V g) eqn:EP; try destruct (mlock V g) eqn:EM; try destruct (cur V g) eqn:EC; try destruct (todo (thr g t)) eqn:ET;
    cbn [lk];
    repeat match goal with
      | |- context [if same ?a ?b then _ else _] => destruct (same a b)
      | |- context [if is_checked ?a ?b then _ else _] => destruct (is_checked a b)
      | |- context [if managed ?a then _ else _] => destruct (managed a)
      | |- context [if ?b then goes _ _ _ _ else _] => is_var b; destruct b
      | ch : bool |- _ => destruct ch
      end;
    unfold em, put; cbn [PolicyConc.thr PolicyConc.conf PolicyConc.heap PolicyConc.next PolicyConc.cur PolicyConc.told PolicyConc.plock PolicyConc.mlock PolicyConc.faults PolicyConc.at_ PolicyConc.todo];
    rewrite ?Nat.eqb_refl, ?EP, ?EM, ?EC, ?ET; reflexivity.
  Qed.

  Lemma em_em g t : em (em g t) 0 = em g t.
  Proof. unfold em. cbn. destruct (plock V g), (mlock V g); reflexivity. Qed.

  Definition solo (x : sys) : sys := em (step 0 x) 0.
  Fixpoint iters (m : nat) (x : sys) : sys := match m with 0 => x | S m => iters m (solo x) end.
  Definition leads (x y : sys) : Prop := exists m, iters m x = y.
  Lemma leads_refl x : leads x x.
  Proof. exists 0. reflexivity. Qed.
  Lemma leads_step x y z : solo x = y -> leads y z -> leads x z.
  Proof. intros <- (m & H). exists (S m). exact H. Qed.
  Lemma leads_trans x y z : leads x y -> leads y z -> leads x z.
  Proof.
    clear same_ok. intros (m & <-) H. revert x H. induction m as [|m IH]; intros x H; [exact H|].
    eapply leads_step; [reflexivity|]. apply IH. exact H.
  Qed.

  Lemma run_leads g t z : leads (em g t) z -> exists m, em (run (repeat t m) g) t = z.
  Proof.
    clear same_ok. intros (m & H). exists m. rewrite <- H. clear H z.
    revert g. induction m as [|m IH]; intros g; [reflexivity|].
    cbn [repeat iters]. change (run (t :: repeat t m) g) with (run (repeat t m) (step t g)). rewrite IH, em_step. reflexivity.
  Qed.

  (** Policy, manager and configuration agree in everything. *)
  Record agree (g : sys) : Prop := mkAgree {
    a_p : plock V g = None;
    a_m : mlock V g = None;
    a_c : exists i, cur V g = Some i /\ klass V (heap V g i) = named (conf V g Kpol) /\
          (forall k, conf_of V (heap V g i) k = conf V g k) /\
          (managed (klass V (heap V g i)) = true ->
           exists o, told V g = Some (i, o) /\ klass V o = klass V (heap V g i) /\ forall k, conf_of V o k = conf V g k) }.

  Lemma agree_em g t : agree (em g t) <-> agree g.
  Proof.
    split; intros [P M C]; constructor; cbn in *; try assumption;
      try (rewrite P; reflexivity); try (rewrite M; reflexivity);
      destruct (plock V g), (mlock V g); cbn in *; congruence.
  Qed.

  Definition assigned (c : cfg V) (a : change V) : cfg V := fold_left (fun c kv => cupd V c (fst kv) (snd kv)) a c.

  Notation X c h n cu to pl ml p cs fa := (mkSys V c h n cu to pl ml (fun _ => mkThr V p cs) fa).

  (** The assignments *)
  Lemma solo_set a c h n cu to cs fa :
    leads (X c h n cu to None None (Setting V a) cs fa) (X (assigned c a) h n cu to None None (Setting V []) cs fa).
  Proof.
    revert c. induction a as [|[k v] a IH]; intros c; [apply leads_refl|].
    eapply leads_step; [reflexivity|]. apply IH.
  Qed.

  Lemma set_obj_same (h : nat -> obj V) i o : set_obj V h i o i = o.
  Proof. unfold set_obj. rewrite Nat.eqb_refl. reflexivity. Qed.

  Lemma solo_read c h n to cs fa kl k ks acc :
    leads (X c h n None to (Some 0) None (Build V kl (k :: ks) acc) cs fa)
          (X c h n None to (Some 0) None (Build V kl ks (cupd V acc k (c k))) cs fa).
  Proof. eapply leads_step; [|apply leads_refl]. reflexivity. Qed.

  (** 793, 778-785: a new policy *)
  Lemma solo_build c h n to cs fa (P : sys -> Prop) :
    (forall o to', klass V o = named (c Kpol) -> (forall k, conf_of V o k = c k) ->
       to' = (if managed (named (c Kpol)) then Some (n, o) else to) ->
       P (X c (set_obj V h n o) (S n) (Some n) to' None None Rest cs fa)) ->
    exists z, leads (X c h n None to (Some 0) None (Build V (named (c Kpol)) CACHE_KEYS c) cs fa) z /\ P z.
  Proof.
    intros HP. set (o := mkObj V (named (c Kpol)) (cupd V (cupd V (cupd V (cupd V (cupd V c Kpol (c Kpol)) Kuser (c Kuser)) Ktmp (c Ktmp)) Kdisk (c Kdisk)) Ksize (c Ksize))).
    exists (X c (set_obj V h n o) (S n) (Some n) (if managed (named (c Kpol)) then Some (n, o) else to) None None Rest cs fa).
    split.
    - unfold CACHE_KEYS. do 5 (eapply leads_trans; [apply solo_read|]). fold o.
      set (h' := set_obj V h n o). assert (h' n = o) as HN by apply set_obj_same.
      destruct (managed (named (c Kpol))) eqn:EM.
      + apply (leads_step _ (X c h' (S n) (Some n) to (Some 0) None (WantM V) cs fa)).
        { unfold solo, PolicyConc.step. cbn [PolicyConc.thr PolicyConc.at_]. rewrite EM. reflexivity. }
        apply (leads_step _ (X c h' (S n) (Some n) to (Some 0) (Some 0) (TellP V) cs fa)); [reflexivity|].
        apply (leads_step _ (X c h' (S n) (Some n) (Some (n, h' n)) None None Rest cs fa)); [reflexivity|].
        rewrite HN. apply leads_refl.
      + apply (leads_step _ (X c h' (S n) (Some n) to None None Rest cs fa)).
        { unfold solo, PolicyConc.step. cbn [PolicyConc.thr PolicyConc.at_]. rewrite EM. reflexivity. }
        apply leads_refl.
    - apply HP; try reflexivity. intros k. destruct k; reflexivity.
  Qed.

  Lemma solo_cmp c h n i to cs fa k ks ch kl co :
    h i = mkObj V kl co ->
    exists h', (forall j, j <> i -> h' j = h j) /\
      h' i = mkObj V kl (if is_checked kl k then co else cupd V co k (c k)) /\
      leads (X c h n (Some i) to None None (Cmp V i (k :: ks) ch) cs fa)
            (X c h' n (Some i) to None None (Cmp V i ks (if same (co k) (c k) then ch else true)) cs fa).
  Proof.
    clear same_ok. intros EH. destruct (is_checked kl k) eqn:EK.
    - exists h. split; [reflexivity|]. split; [exact EH|].
      eapply leads_step; [|apply leads_refl]. unfold solo, PolicyConc.step. cbn [PolicyConc.thr PolicyConc.at_ PolicyConc.heap PolicyConc.conf].
      rewrite EH. cbn [klass conf_of]. rewrite EK. reflexivity.
    - exists (set_obj V h i (mkObj V kl (cupd V co k (c k)))). split; [|split].
      + intros j Hj. unfold set_obj. destruct (Nat.eqb_spec j i); [contradiction|reflexivity].
      + apply set_obj_same.
      + apply (leads_step _ (X c h n (Some i) to None None (Fetch V i k ks (if same (co k) (c k) then ch else true)) cs fa)).
        { unfold solo, PolicyConc.step. cbn [PolicyConc.thr PolicyConc.at_ PolicyConc.heap PolicyConc.conf].
          rewrite EH. cbn [klass conf_of]. rewrite EK. reflexivity. }
        apply (leads_step _ (X c h n (Some i) to None None (Store V i k (c k) ks (if same (co k) (c k) then ch else true)) cs fa)); [reflexivity|].
        eapply leads_step; [|apply leads_refl]. unfold solo, PolicyConc.step. cbn [PolicyConc.thr PolicyConc.at_ PolicyConc.heap PolicyConc.conf].
        rewrite EH. reflexivity.
  Qed.

  Fixpoint upds (kl : kind) (c : cfg V) (ks : list key) (co : cfg V) : cfg V :=
    match ks with [] => co | k :: ks => upds kl c ks (if is_checked kl k then co else cupd V co k (c k)) end.
  Fixpoint chg (kl : kind) (c : cfg V) (ks : list key) (co : cfg V) (ch : bool) : bool :=
    match ks with
    | [] => ch
    | k :: ks => chg kl c ks (if is_checked kl k then co else cupd V co k (c k)) (if same (co k) (c k) then ch else true)
    end.

  Lemma solo_cmps c n i to cs fa kl : forall ks h ch co, h i = mkObj V kl co ->
    exists h', h' i = mkObj V kl (upds kl c ks co) /\
      leads (X c h n (Some i) to None None (Cmp V i ks ch) cs fa)
            (X c h' n (Some i) to None None (Cmp V i [] (chg kl c ks co ch)) cs fa).
  Proof.
    clear same_ok. induction ks as [|k ks IH]; intros h ch co EH; [exists h; split; [exact EH|apply leads_refl]|].
    destruct (solo_cmp c h n i to cs fa k ks ch kl co EH) as (h1 & _ & E1 & L1).
    destruct (IH h1 (if same (co k) (c k) then ch else true) _ E1) as (h2 & E2 & L2).
    exists h2. split; [exact E2|]. eapply leads_trans; [exact L1|exact L2].
  Qed.

  Lemma same_refl a : same a a = true.
  Proof using same_ok. apply same_ok. reflexivity. Qed.

  (** No checked option changed: the object gets the values. *)
  Lemma upds_all kl c co : (forall k, is_checked kl k = true -> co k = c k) -> forall k, upds kl c CACHE_KEYS co k = c k.
  Proof.
    intros H k. destruct kl, k; cbn; try reflexivity; apply H; reflexivity.
  Qed.
  Lemma chg_none kl c co : chg kl c CACHE_KEYS co false = false -> forall k, co k = c k.
  Proof using same_ok.
    intros H k. destruct (same (co k) (c k)) eqn:E; [apply same_ok; exact E|].
    destruct kl, k; cbn in H; rewrite ?E in H;
      repeat match type of H with context [same ?a ?b] => destruct (same a b) end; discriminate.
  Qed.

  (** The callback *)
  Lemma solo_notify c h n i to cs fa :
    i < n ->
    klass V (h i) = named (conf_of V (h i) Kpol) ->
    (managed (klass V (h i)) = true ->
       exists o, to = Some (i, o) /\ klass V o = klass V (h i) /\ forall k, conf_of V o k = conf_of V (h i) k) ->
    exists g, leads (X c h n (Some i) to None None (Setting V []) cs fa) g /\
      agree g /\ conf V g = c /\ thr g 0 = mkThr V Rest cs /\ faults V g = fa.
  Proof using same_ok.
    intros HI HK HT. destruct (h i) as [kl co] eqn:EH. cbn [klass conf_of] in *.
    assert (forall p, (exists k, is_checked kl k = true /\ same (co k) (c k) = false) ->
      leads (X c h n (Some i) to None None p cs fa) (X c h n (Some i) to None None (WantP V) cs fa) ->
      exists g, leads (X c h n (Some i) to None None p cs fa) g /\
        agree g /\ conf V g = c /\ thr g 0 = mkThr V Rest cs /\ faults V g = fa) as HB.
    { intros p (k0 & K0 & S0) L0.
      destruct (solo_build c h n to cs fa (fun g => agree g /\ conf V g = c /\ thr g 0 = mkThr V Rest cs /\ faults V g = fa)) as (z & L & Z).
      { intros o to' O1 O2 ->. split; [|repeat split]. constructor; [reflexivity|reflexivity|].
        exists n. cbn [PolicyConc.heap PolicyConc.cur PolicyConc.conf PolicyConc.told]. rewrite set_obj_same, O1. repeat split; [exact O2|].
        intros ->. exists o. rewrite O1. auto. }
      exists z. split; [|exact Z]. eapply leads_trans; [exact L0|].
      apply (leads_step _ (X c h n (Some i) to (Some 0) None (Out2 V (checked kl)) cs fa)).
      { unfold solo, PolicyConc.step. cbn [PolicyConc.thr PolicyConc.at_ PolicyConc.plock PolicyConc.cur PolicyConc.heap]. rewrite EH. reflexivity. }
      (* compare, then build *)
      assert (forall ks, In k0 ks ->
        leads (X c h n (Some i) to (Some 0) None (Out2 V ks) cs fa) (X c h n None to (Some 0) None (Build V (named (c Kpol)) CACHE_KEYS c) cs fa)) as HO.
      { induction ks as [|k ks IH]; intros HIn; [destruct HIn|]. destruct (same (co k) (c k)) eqn:ES.
        - destruct HIn as [->|HIn]; [congruence|]. eapply leads_step; [|apply IH; exact HIn].
          unfold solo, PolicyConc.step. cbn [PolicyConc.thr PolicyConc.at_ PolicyConc.cur PolicyConc.heap PolicyConc.conf]. rewrite EH. cbn [conf_of]. rewrite ES. reflexivity.
        - eapply leads_step; [|apply leads_refl].
          unfold solo, PolicyConc.step. cbn [PolicyConc.thr PolicyConc.at_ PolicyConc.cur PolicyConc.heap PolicyConc.conf]. rewrite EH. cbn [conf_of]. rewrite ES. reflexivity. }
      eapply leads_trans; [apply HO|exact L]. unfold is_checked in K0. apply existsb_exists in K0. destruct K0 as (k' & HIn & EK).
      apply key_eqb_ok in EK. subst. exact HIn. }
    (* 789 *)
    assert (leads (X c h n (Some i) to None None (Setting V []) cs fa) (X c h n (Some i) to None None (Out1 V i (checked kl)) cs fa)) as L0.
    { eapply leads_step; [|apply leads_refl]. unfold solo, PolicyConc.step, with_cur. cbn [PolicyConc.thr PolicyConc.at_ PolicyConc.plock PolicyConc.cur PolicyConc.heap].
      rewrite EH. reflexivity. }
    assert (forall ks, (exists k, In k ks /\ same (co k) (c k) = false /\
        leads (X c h n (Some i) to None None (Out1 V i ks) cs fa) (X c h n (Some i) to None None (WantP V) cs fa)) \/
      ((forall k, In k ks -> co k = c k) /\
        leads (X c h n (Some i) to None None (Out1 V i ks) cs fa) (X c h n (Some i) to None None (Get2 V) cs fa))) as HO.
    { induction ks as [|k ks IH].
      - right. split; [intros k []|]. eapply leads_step; [reflexivity|apply leads_refl].
      - destruct (same (co k) (c k)) eqn:ES.
        + assert (leads (X c h n (Some i) to None None (Out1 V i (k :: ks)) cs fa) (X c h n (Some i) to None None (Out1 V i ks) cs fa)) as L1.
          { eapply leads_step; [|apply leads_refl]. unfold solo, PolicyConc.step. cbn [PolicyConc.thr PolicyConc.at_ PolicyConc.heap PolicyConc.conf].
            rewrite EH. cbn [conf_of]. rewrite ES. reflexivity. }
          destruct IH as [(k1 & I1 & S1 & L2)|[I1 L2]].
          * left. exists k1. split; [right; exact I1|]. split; [exact S1|]. eapply leads_trans; [exact L1|exact L2].
          * right. split; [|eapply leads_trans; [exact L1|exact L2]]. intros k' [<-|H]; [apply same_ok; exact ES|apply I1; exact H].
        + left. exists k. split; [left; reflexivity|]. split; [exact ES|]. eapply leads_step; [|apply leads_refl].
          unfold solo, PolicyConc.step. cbn [PolicyConc.thr PolicyConc.at_ PolicyConc.heap PolicyConc.conf]. rewrite EH. cbn [conf_of]. rewrite ES. reflexivity. }
    destruct (HO (checked kl)) as [(k1 & I1 & S1 & L1)|[I1 L1]].
    { apply HB; [exists k1; split; [apply checked_in; exact I1|exact S1]|]. eapply leads_trans; [exact L0|exact L1]. }
    assert (forall k, is_checked kl k = true -> co k = c k) as HC.
    { intros k H. apply I1. unfold is_checked in H. apply existsb_exists in H. destruct H as (k' & HIn & EK).
      apply key_eqb_ok in EK. subst. exact HIn. }
    assert (kl = named (c Kpol)) as HN by (rewrite HK, HC; [reflexivity|destruct kl; reflexivity]).
    destruct (solo_cmps c n i to cs fa kl CACHE_KEYS h false co EH) as (h2 & E2 & L2).
    assert (leads (X c h n (Some i) to None None (Setting V []) cs fa)
                  (X c h2 n (Some i) to None None (Cmp V i [] (chg kl c CACHE_KEYS co false)) cs fa)) as L3.
    { eapply leads_trans; [exact L0|]. eapply leads_trans; [exact L1|].
      apply (leads_step _ (X c h n (Some i) to None None (Cmp V i CACHE_KEYS false) cs fa)); [reflexivity|]. exact L2. }
    destruct (chg kl c CACHE_KEYS co false) eqn:EC.
    - destruct (managed kl) eqn:EM.
      + exists (X c h2 n (Some i) (Some (i, h2 i)) None None Rest cs fa). split; [|split; [|repeat split]].
        * eapply leads_trans; [exact L3|].
          apply (leads_step _ (X c h2 n (Some i) to None None (Get3 V) cs fa)); [reflexivity|].
          apply (leads_step _ (X c h2 n (Some i) to None None (WantM2 V) cs fa)).
          { unfold solo, PolicyConc.step, with_cur. cbn [PolicyConc.thr PolicyConc.at_ PolicyConc.plock PolicyConc.cur PolicyConc.heap].
            rewrite E2. cbn [klass]. rewrite EM. reflexivity. }
          apply (leads_step _ (X c h2 n (Some i) to None (Some 0) (Tell2 V) cs fa)); [reflexivity|].
          eapply leads_step; [|apply leads_refl]. reflexivity.
        * constructor; [reflexivity|reflexivity|]. exists i. cbn [PolicyConc.heap PolicyConc.cur PolicyConc.conf PolicyConc.told]. rewrite E2. cbn [klass conf_of].
          split; [reflexivity|]. split; [exact HN|]. split; [apply upds_all; exact HC|]. intros _. eexists. split; [reflexivity|]. cbn. split; [reflexivity|].
          apply upds_all; exact HC.
      + exists (X c h2 n (Some i) to None None Rest cs fa). split; [|split; [|repeat split]].
        * eapply leads_trans; [exact L3|].
          apply (leads_step _ (X c h2 n (Some i) to None None (Get3 V) cs fa)); [reflexivity|].
          eapply leads_step; [|apply leads_refl].
          unfold solo, PolicyConc.step, with_cur. cbn [PolicyConc.thr PolicyConc.at_ PolicyConc.plock PolicyConc.cur PolicyConc.heap].
          rewrite E2. cbn [klass]. rewrite EM. reflexivity.
        * constructor; [reflexivity|reflexivity|]. exists i. cbn [PolicyConc.heap PolicyConc.cur PolicyConc.conf PolicyConc.told]. rewrite E2. cbn [klass conf_of].
          split; [reflexivity|]. split; [exact HN|]. split; [apply upds_all; exact HC|]. congruence.
    - exists (X c h2 n (Some i) to None None Rest cs fa). split; [|split; [|repeat split]].
      + eapply leads_trans; [exact L3|]. eapply leads_step; [|apply leads_refl]. reflexivity.
      + constructor; [reflexivity|reflexivity|]. exists i. cbn [PolicyConc.heap PolicyConc.cur PolicyConc.conf PolicyConc.told]. rewrite E2. cbn [klass conf_of].
        split; [reflexivity|]. split; [exact HN|]. split; [apply upds_all; exact HC|]. intros HM. destruct (HT HM) as (o & O1 & O2 & O3).
        exists o. split; [exact O1|]. split; [exact O2|]. intros k. rewrite O3. apply (chg_none kl); exact EC.
  Qed.

  (** One change made while nobody else does anything. *)
  Lemma alone g t a cs : agree g -> (forall i, cur V g = Some i -> i < next V g) ->
    thr g t = mkThr V Rest (a :: cs) ->
    exists m, let g' := run (repeat t m) g in
      agree g' /\ conf V g' = assigned (conf V g) a /\ thr g' t = mkThr V Rest cs /\ faults V g' = faults V g.
  Proof using same_ok.
    intros [P M (i & C1 & C2 & C3 & C4)] HI HT.
    destruct (solo_notify (assigned (conf V g) a) (heap V g) (next V g) i (told V g) cs (faults V g)) as (z & L & Z1 & Z2 & Z3 & Z4).
    - apply HI. exact C1.
    - rewrite C2, C3. reflexivity.
    - intros HM. destruct (C4 HM) as (o & O1 & O2 & O3). exists o. split; [exact O1|]. split; [exact O2|]. intros k. rewrite O3, C3. reflexivity.
    - destruct (run_leads g t z) as (m & Hm).
      { unfold em. rewrite P, M, HT, C1. apply (leads_step _ (X (conf V g) (heap V g) (next V g) (Some i) (told V g) None None (Setting V a) cs (faults V g))); [reflexivity|].
        eapply leads_trans; [apply solo_set|exact L]. }
      exists m. cbv zeta. rewrite <- Hm in *. split; [apply (agree_em _ t); exact Z1|]. auto.
  Qed.
End Proofs3.
