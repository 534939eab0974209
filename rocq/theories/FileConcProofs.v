(** cache_file while the settings change: what every run keeps. *)
From Verif Require Import PyBase FileConc.
Set Default Proof Using "Type".

Section Proofs.
  Variables C D : Type.
  Variable size_of : C -> Z.
  Variable o : nat -> now.
  Notation world := (FileConc.world C D).
  Notation M := (FileConc.M C D).
  Notation row := (FileConc.row D).
  Notation see := (FileConc.see C D o).
  Notation exists_ := (FileConc.exists_ C D o).
  Notation call_manager := (FileConc.call_manager C D o).
  Notation register := (FileConc.register C D).
  Notation update_entry := (FileConc.update_entry C D size_of o).
  Notation decache := (FileConc.decache C D o).
  Notation make := (FileConc.make C D o).
  Notation wanted := (FileConc.wanted C D).
  Notation bind := (FileConc.bind C D).
  Notation ret := (FileConc.ret C D).
  Notation fail := (FileConc.fail C D).
  Implicit Types (w : world).

  (** What holds of the outcome of a computation. *)
  Definition tri {A} (P : world -> Prop) (m : M A) (Q : A -> world -> Prop) (E : exn -> world -> Prop) : Prop :=
    forall w, P w -> match m w with
                     | (w', Ok a) => Q a w'
                     | (w', Raise e) => E e w'
                     | (w', OutOfFuel) => True
                     end.

  Lemma tri_bind {A B} P (m : M A) (Q : A -> world -> Prop) (k : A -> M B) (R : B -> world -> Prop) E :
    tri P m Q E -> (forall a, tri (Q a) (k a) R E) -> tri P (bind m k) R E.
  Proof.
    intros H1 H2 w HP. unfold FileConc.bind. specialize (H1 w HP).
    destruct (m w) as [w' [a|e|]]; [apply H2; exact H1|exact H1|exact I].
  Qed.
  Lemma tri_ret {A} (P : world -> Prop) (a : A) (Q : A -> world -> Prop) E : (forall w, P w -> Q a w) -> tri P (ret a) Q E.
  Proof. intros H w HP. cbn. auto. Qed.
  Lemma tri_fail {A} (P : world -> Prop) e (Q : A -> world -> Prop) (E : exn -> world -> Prop) :
    (forall w, P w -> E e w) -> tri P (fail e) Q E.
  Proof. intros H w HP. cbn. auto. Qed.
  Lemma tri_weak {A} (P P' : world -> Prop) (m : M A) (Q Q' : A -> world -> Prop) (E : exn -> world -> Prop) :
    tri P m Q E -> (forall w, P' w -> P w) -> (forall a w, Q a w -> Q' a w) -> tri P' m Q' E.
  Proof.
    intros H H1 H2 w HP. specialize (H w (H1 w HP)). destruct (m w) as [w' [a|e|]]; auto.
  Qed.

  Section Inv.
    (** The world before the call, the file of the call and its directory, and what it makes. *)
    Variables (w0 : world) (home p : string) (create : result (C * D)) (f : force D).

    Definition upd_eq {A} (g : string -> A) k v : FileConc.upd g k v k = v.
    Proof. unfold FileConc.upd. rewrite String.eqb_refl. reflexivity. Qed.
    Definition upd_neq {A} (g : string -> A) k v x : x <> k -> FileConc.upd g k v x = g x.
    Proof. intros N. unfold FileConc.upd. destruct (String.eqb_spec x k); [contradiction|reflexivity]. Qed.
    Lemma set_row_same t d q v : FileConc.set_row D t d q v d q = v.
    Proof. unfold FileConc.set_row. rewrite upd_eq, upd_eq. reflexivity. Qed.
    Lemma set_row_other t d q v d' q' : d' <> d \/ q' <> q -> FileConc.set_row D t d q v d' q' = t d' q'.
    Proof.
      intros H. unfold FileConc.set_row. destruct (string_dec d' d) as [->|N].
      - rewrite upd_eq. destruct H as [H|H]; [contradiction|]. apply upd_neq. exact H.
      - rewrite upd_neq by exact N. reflexivity.
    Qed.

    (** Nothing but the file and its rows is touched; the file is the old one, gone, or the
        one made; a row that was not there is in the table of a directory that is the
        beginning of the path. *)
    Record fine w : Prop := mkFine {
      f_others : forall q, q <> p -> files w q = files w0 q;
      f_file : files w p = files w0 p \/ files w p = None \/ exists c d, create = Ok (c, d) /\ files w p = Some c;
      f_rows : forall d q, q <> p -> tables w d q = tables w0 d q;
      f_new : forall d r, tables w d p = Some r -> tables w0 d p = Some r \/ FileConc.inside d p = true /\ exists n, d = mdir (o n);
      f_dirs : forall d, FileConc.inside d p = false -> tables w d p = tables w0 d p \/ tables w d p = None }.

    Lemma fine_start : fine w0.
    Proof. split; auto. Qed.

    (** Exceptions that are not those of [create]. *)
    Definition expected (e : exn) : Prop :=
      e = AssertionError \/ e = FileNotFoundError \/ (e = TypeError /\ exists g, f = Ask g) \/ create = Raise e.
    Definition E e w : Prop := expected e /\ fine w.

    Lemma fine_look w n : fine w -> fine (mkWorld (files w) (tables w) n).
    Proof. intros [A B X Y Z]. split; cbn; auto. Qed.

    Lemma see_tri (P : world -> Prop) :
      (forall w n, P w -> P (mkWorld (files w) (tables w) n)) ->
      tri P see (fun x w => P w /\ exists n, x = o n) E.
    Proof. intros H w HP. cbn. split; [apply H; exact HP|eauto]. Qed.

    Lemma exists_tri (P : world -> Prop) :
      (forall w n, P w -> P (mkWorld (files w) (tables w) n)) ->
      tri P (exists_ home p) (fun e w => P w /\ (e = true -> exists c, files w p = Some c)) E.
    Proof.
      intros H. unfold FileConc.exists_. eapply tri_bind; [apply see_tri; exact H|].
      intros x w [HP _]. cbn. split; [exact HP|]. intros HE. destruct (files w p); [eauto|].
      rewrite andb_false_r in HE. discriminate.
    Qed.

    Lemma call_tri {A} (P : world -> Prop) (job : string -> M A) :
      (forall w n, P w -> P (mkWorld (files w) (tables w) n)) ->
      (forall n, tri P (job (mdir (o n))) (fun _ => P) E) ->
      tri P (call_manager job) (fun _ => P) E.
    Proof.
      intros H HJ. unfold FileConc.call_manager. eapply tri_bind; [apply see_tri; exact H|].
      intros x. destruct (managed x).
      - eapply tri_bind.
        { eapply tri_weak; [apply see_tri; exact H|intros w [A1 _]; exact A1|intros a w HH; exact HH]. }
        intros y. eapply tri_bind; [|intros r; apply tri_ret; intros w HW; exact HW].
        intros w [HP (n & ->)]. apply HJ. exact HP.
      - apply tri_ret. tauto.
    Qed.

    Lemma fine_row w d r : fine w -> (exists n, d = mdir (o n)) -> FileConc.inside d p = true ->
      fine (FileConc.with_tables C D w (FileConc.set_row D (tables w) d p (Some r))).
    Proof.
      intros [A B X Y Z] HM HI. split; cbn; auto.
      - intros d' q N. rewrite set_row_other by auto. apply X. exact N.
      - intros d' r' HR. destruct (string_dec d' d) as [->|N]; [auto|].
        rewrite set_row_other in HR by auto. apply Y. exact HR.
      - intros d' HI'. destruct (string_dec d' d) as [->|N]; [congruence|].
        rewrite set_row_other by auto. apply Z. exact HI'.
    Qed.

    Lemma ensure_tri d (P : world -> Prop) : (forall w, P w -> fine w) ->
      tri P (FileConc.ensure C D d p) (fun _ w => P w /\ FileConc.inside d p = true) E.
    Proof.
      intros HF. unfold FileConc.ensure. destruct (FileConc.inside d p) eqn:EI.
      - apply tri_ret. auto.
      - apply tri_fail. intros w HP. split; [left; reflexivity|auto].
    Qed.

    Lemma register_tri n : tri fine (register p (mdir (o n))) (fun _ => fine) E.
    Proof.
      unfold FileConc.register. eapply tri_bind; [apply ensure_tri; auto|].
      intros _ w [HF HI]. destruct (tables w (mdir (o n)) p); [exact HF|].
      apply fine_row; [exact HF|eauto|exact HI].
    Qed.

    Lemma update_tri x n (P := fun w => fine w /\ exists c d, create = Ok (c, d) /\ files w p = Some c) :
      tri P (update_entry home p x (mdir (o n))) (fun _ => P) E.
    Proof.
      unfold FileConc.update_entry. eapply tri_bind; [apply ensure_tri; intros w [HF _]; exact HF|].
      intros u. eapply tri_bind.
      { eapply tri_weak.
        - apply (exists_tri (fun w => P w /\ FileConc.inside (mdir (o n)) p = true)).
          intros w m [[HF HX] HI]. split; [split; [apply fine_look; exact HF|exact HX]|exact HI].
        - intros w HH; exact HH.
        - intros a w HH; exact HH. }
      intros e. destruct e.
      - intros w [[[HF HX] HI] HE]. destruct HX as (c & d & HC & HFi). rewrite HFi.
        destruct (tables w (mdir (o n)) p).
        + split; [apply fine_row; [exact HF|eauto|exact HI]|cbn; eauto].
        + split; [exact HF|eauto].
      - apply tri_fail. intros w [[[HF _] _] _]. split; [right; left; reflexivity|exact HF].
    Qed.

    Lemma decache_tri n : tri fine (decache home p (mdir (o n))) (fun _ => fine) E.
    Proof.
      unfold FileConc.decache. eapply tri_bind; [apply (exists_tri fine); apply fine_look|].
      intros e w [[A B X Y Z] _]. split; cbn.
      - intros q N. destruct e; [rewrite upd_neq by exact N|]; apply A; exact N.
      - destruct e; [rewrite upd_eq; auto|exact B].
      - intros d q N. rewrite set_row_other by auto. apply X. exact N.
      - intros d r HR. destruct (string_dec d (mdir (o n))) as [->|N].
        + rewrite set_row_same in HR. discriminate.
        + rewrite set_row_other in HR by auto. apply Y. exact HR.
      - intros d HI. destruct (string_dec d (mdir (o n))) as [->|N].
        + rewrite set_row_same. auto.
        + rewrite set_row_other by auto. apply Z. exact HI.
    Qed.

    Lemma make_tri :
      tri fine (make home p create) (fun _ w => fine w /\ exists c d, create = Ok (c, d) /\ files w p = Some c) E.
    Proof.
      unfold FileConc.make. eapply tri_bind; [apply (see_tri fine); apply fine_look|].
      intros x. destruct (there x home).
      2:{ apply tri_fail. intros w [HF _]. split; [right; left; reflexivity|exact HF]. }
      destruct create as [[c d]|e|] eqn:EC.
      - eapply tri_bind.
        { eapply tri_weak; [apply (see_tri fine); apply fine_look|intros w [HF _]; exact HF|intros a w HH; exact HH]. }
        intros y. destruct (there y home).
        + intros w [[A B X Y Z] _]. split.
          * split; cbn; auto.
            -- intros q N. rewrite upd_neq by exact N. apply A. exact N.
            -- right. right. exists c, d. rewrite upd_eq. auto.
          * cbn. exists c, d. rewrite upd_eq. auto.
        + apply tri_fail. intros w [HF _]. split; [right; left; reflexivity|exact HF].
      - apply tri_fail. intros w [HF _]. split; [right; right; right; exact EC|exact HF].
      - intros w HF. exact I.
    Qed.

    Lemma wanted_tri record : tri fine (wanted f record) (fun _ => fine) E.
    Proof.
      unfold FileConc.wanted. destruct f as [b|g] eqn:EF; [apply tri_ret; auto|].
      destruct record as [r|]; [apply tri_ret; auto|].
      apply tri_fail. intros w HF. split; [right; right; left; split; [reflexivity|eauto]|exact HF].
    Qed.

    (** The end of the managed branch and the whole of the other. *)
    Definition finished (q : string) w : Prop := fine w /\ q = p /\ exists c, files w p = Some c.

    Lemma end_managed :
      tri fine
        (bind (exists_ home p) (fun e => if e then ret p else
           bind (exists_ home p) (fun e => if e then ret p else
             bind (make home p create) (fun d =>
               bind (call_manager (update_entry home p d)) (fun _ => ret p))))) finished E.
    Proof.
      eapply tri_bind; [apply (exists_tri fine); apply fine_look|]. intros e. destruct e.
      { apply tri_ret. intros w [HF HE]. split; [exact HF|]. split; [reflexivity|apply HE; reflexivity]. }
      eapply tri_bind.
      { eapply tri_weak; [apply (exists_tri fine); apply fine_look|intros w [HF _]; exact HF|intros a w HH; exact HH]. }
      intros e. destruct e.
      { apply tri_ret. intros w [HF HE]. split; [exact HF|]. split; [reflexivity|apply HE; reflexivity]. }
      eapply tri_bind.
      { eapply tri_weak; [apply make_tri|intros w [HF _]; exact HF|intros a w HH; exact HH]. }
      intros d. eapply tri_bind.
      { apply (call_tri (fun w => fine w /\ exists c d, create = Ok (c, d) /\ files w p = Some c)).
        - intros w n [HF HX]. split; [apply fine_look; exact HF|exact HX].
        - intros n. apply update_tri. }
      intros u. apply tri_ret. intros w [HF (c & x & _ & HX)]. split; [exact HF|]. split; [reflexivity|eauto].
    Qed.

    Lemma end_off :
      tri fine
        (bind (exists_ home p) (fun e => if e then ret p else
           bind (exists_ home p) (fun e => if e then ret p else
             bind (make home p create) (fun _ => ret p)))) finished E.
    Proof.
      eapply tri_bind; [apply (exists_tri fine); apply fine_look|]. intros e. destruct e.
      { apply tri_ret. intros w [HF HE]. split; [exact HF|]. split; [reflexivity|apply HE; reflexivity]. }
      eapply tri_bind.
      { eapply tri_weak; [apply (exists_tri fine); apply fine_look|intros w [HF _]; exact HF|intros a w HH; exact HH]. }
      intros e. destruct e.
      { apply tri_ret. intros w [HF HE]. split; [exact HF|]. split; [reflexivity|apply HE; reflexivity]. }
      eapply tri_bind.
      { eapply tri_weak; [apply make_tri|intros w [HF _]; exact HF|intros a w HH; exact HH]. }
      intros d. apply tri_ret. intros w [HF (c & x & _ & HX)]. split; [exact HF|]. split; [reflexivity|eauto].
    Qed.

    Lemma managed_tri :
      tri fine
        (bind (call_manager (register p)) (fun record =>
         bind (exists_ home p) (fun e =>
         bind (if e then bind (wanted f record) (fun again =>
                 if again then bind (call_manager (decache home p)) (fun _ =>
                   bind (call_manager (register p)) (fun _ => ret tt))
                 else ret tt) else ret tt) (fun _ =>
         bind (exists_ home p) (fun e => if e then ret p else
           bind (exists_ home p) (fun e => if e then ret p else
             bind (make home p create) (fun d =>
               bind (call_manager (update_entry home p d)) (fun _ => ret p)))))))) finished E.
    Proof.
      eapply tri_bind; [apply (call_tri fine); [apply fine_look|apply register_tri]|].
      intros record. eapply tri_bind; [apply (exists_tri fine); apply fine_look|].
      intros e. apply tri_bind with (Q := fun _ => fine); [|intros _; apply end_managed].
      destruct e; [|apply tri_ret; intros w [HF _]; exact HF].
      apply tri_bind with (Q := fun _ => fine).
      { eapply tri_weak; [apply wanted_tri|intros w [HF _]; exact HF|intros a w HH; exact HH]. }
      intros again. destruct again; [|apply tri_ret; auto].
      eapply tri_bind; [apply (call_tri fine); [apply fine_look|apply decache_tri]|].
      intros u1. eapply tri_bind; [apply (call_tri fine); [apply fine_look|apply register_tri]|].
      intros u. apply tri_ret. auto.
    Qed.
  End Inv.
End Proofs.
