(** C145: threads that ask for backends. *)
From Verif Require Import PyBase MakerConc.
Local Open Scope list_scope.
Local Open Scope nat_scope.

Section Any.
  Context {key : Type}.
  Variable eqb : key -> key -> bool.
  Variables hashable known : key -> bool.
  Variable construct : key -> result unit.
  (** Python's equality of keys. *)
  Hypothesis Erefl : forall a, eqb a a = true.
  Hypothesis Esym : forall a b, eqb a b = true -> eqb b a = true.
  Hypothesis Etrans : forall a b c, eqb a b = true -> eqb b c = true -> eqb a c = true.
  Set Default Proof Using "Erefl Esym Etrans".
  Notation obj := (@obj key). Notation thread := (@thread key). Notation state := (@state key). Notation shared := (@shared key).
  Notation find := (find eqb). Notation put := (put eqb).
  Notation move := (move eqb hashable known construct). Notation step := (step eqb hashable known construct). Notation run := (run eqb hashable known construct).
  Implicit Types (k : key) (o : obj) (t : thread) (g : state) (s : shared) (progs : nat -> list key) (y : result obj).

  (** ** What is to be shown *)
  (** The answer to a request: a backend made for an equal request that can be made, or the error of this request. *)
  Definition right_answer k y : Prop :=
    (exists o, y = Ok o /\ eqb (o_key o) k = true /\ known (o_key o) = true /\ construct (o_key o) = Ok tt /\ hashable k = true) \/
    (hashable k = false /\ y = Raise TypeError) \/
    (hashable k = true /\ known k = false /\ y = Raise ValueError) \/
    (hashable k = true /\ known k = true /\ exists e, construct k = Raise e /\ y = Raise e).
  Definition pending t : list key := match at_ t with Idle => [] | Construct k | Store k _ => [k] end.
  Definition in_order (prog : list key) t : Prop := map fst (results t) ++ pending t ++ todo t = prog.
  (** The backends that thread [n] made for requests equal to [k]. *)
  Definition made_by (n : nat) k (l : list obj) : list obj := filter (fun o => Nat.eqb (o_by o) n && eqb (o_key o) k) l.
  (** The thread is making a backend for a request equal to [k]. *)
  Definition making k t : Prop := exists k', In k' (pending t) /\ eqb k' k = true.

  Lemma same_class a b c : eqb a b = true -> eqb c a = eqb c b.
  Proof. intros H. destruct (eqb c a) eqn:X; symmetry; [exact (Etrans _ _ _ X H)|]. destruct (eqb c b) eqn:Y; [|reflexivity]. rewrite <- X. exact (eq_sym (Etrans _ _ _ Y (Esym _ _ H))). Qed.
  Lemma find_put_same k o d k' : eqb k k' = true -> find k' (put k o d) = Some o.
  Proof.
    intros H. unfold MakerConc.find. induction d as [|[a b] d IH]; cbn; [rewrite H; reflexivity|]. destruct (eqb a k) eqn:X; cbn.
    - rewrite (Etrans _ _ _ X H). reflexivity.
    - rewrite <- (same_class _ _ a H), X. exact IH.
  Qed.
  Lemma find_put_other k o d k' : eqb k k' = false -> find k' (put k o d) = find k' d.
  Proof.
    intros H. unfold MakerConc.find. induction d as [|[a b] d IH]; cbn; [rewrite H; reflexivity|]. destruct (eqb a k) eqn:X; cbn.
    - destruct (eqb a k') eqn:Y; [|reflexivity]. rewrite (Etrans _ _ _ (Esym _ _ X) Y) in H. discriminate H.
    - destruct (eqb a k'); [reflexivity|exact IH].
  Qed.
  Lemma find_in k d o : find k d = Some o -> exists a, In (a, o) d /\ eqb a k = true.
  Proof. unfold MakerConc.find. destruct (List.find _ d) as [[a b]|] eqn:F; [|discriminate]. intros E. injection E as <-. apply find_some in F. exists a. exact F. Qed.
  Lemma put_in k o d p : In p (put k o d) -> In p d \/ (snd p = o /\ eqb (fst p) k = true).
  Proof.
    induction d as [|[a b] d IH]; cbn; [intros [<-|[]]; right; auto|]. destruct (eqb a k) eqn:X; cbn; intros [<-|I]; auto. destruct (IH I); auto.
  Qed.

  Lemma at_step g n m : threads (step g n) m = if Nat.eqb m n then snd (move n (sh g) (threads g n)) else threads g m.
  Proof. unfold MakerConc.step. destruct (move n (sh g) (threads g n)). reflexivity. Qed.
  Lemma sh_step g n : sh (step g n) = fst (move n (sh g) (threads g n)).
  Proof. unfold MakerConc.step. destruct (move n (sh g) (threads g n)). reflexivity. Qed.
  Lemma run_invariant (I : state -> Prop) : (forall g n, I g -> I (step g n)) -> forall l g, I g -> I (run g l).
  Proof. intros S. induction l as [|n l IH]; intros g H; [exact H|]. cbn. apply IH, S, H. Qed.

  (** ** Right answers, in order *)
  Definition fits (s : shared) o : Prop := In o (created s) /\ known (o_key o) = true /\ construct (o_key o) = Ok tt.
  Definition good (s : shared) : Prop := forall a o, In (a, o) (objects s) -> eqb (o_key o) a = true /\ fits s o.
  Definition good_thread (n : nat) s t : Prop :=
    (forall k y, In (k, y) (results t) -> right_answer k y /\ forall o, y = Ok o -> In o (created s)) /\
    match at_ t with
    | Idle => True
    | Construct k => hashable k = true /\ known k = true
    | Store k o => hashable k = true /\ o_key o = k /\ o_by o = n /\ fits s o
    end.
  Hypothesis total : forall k, construct k <> OutOfFuel.
  Lemma unit_ok k u : construct k = Ok u -> construct k = Ok tt. Proof. destruct u. auto. Qed.
  Lemma move_good n s t : good s -> good_thread n s t -> let s' := fst (move n s t) in
    good s' /\ good_thread n s' (snd (move n s t)) /\ (forall o, In o (created s) -> In o (created s')).
  Proof using Erefl Esym Etrans total.
    intros G [R A]. unfold MakerConc.move. destruct t as [td p rs]. unfold good_thread in *. cbn [at_ todo results] in *.
    assert (X : forall k y l', right_answer k y -> (forall o, y = Ok o -> In o (created s)) ->
      good_thread n s (answer (mkThread l' p rs) td k y)).
    { intros k y l' Y Z. split; [|exact I]. intros k' y' J. cbn in J. apply in_app_or in J. destruct J as [J|[J|[]]]; [exact (R k' y' J)|]. injection J as <- <-. auto. }
    destruct p as [|k|k o].
    - destruct td as [|k l]; [cbn; auto|].
      assert (XX : forall y, right_answer k y -> (forall o, y = Ok o -> In o (created s)) -> good_thread n s (answer (mkThread (k :: l) Idle rs) l k y)).
      { intros y Y Z. split; [|exact I]. intros k' y' J. cbn in J. apply in_app_or in J. destruct J as [J|[J|[]]]; [exact (R k' y' J)|]. injection J as <- <-. auto. }
      destruct (hashable k) eqn:Hk; cbn [negb].
      + destruct (find k (objects s)) as [o|] eqn:F; cbn [fst snd].
        * split; [exact G|]. split; [|auto]. destruct (find_in _ _ _ F) as (a & Ia & Ea). destruct (G a o Ia) as (G1 & G2 & G3 & G4).
          apply XX; [|intros o' E; injection E as <-; exact G2]. left. exists o. repeat split; auto. exact (Etrans _ _ _ G1 Ea).
        * destruct (known k) eqn:K; cbn [fst snd]; (split; [exact G|]); (split; [|auto]); [split; [exact R|cbn; auto]|]. apply XX; [|discriminate]. right. right. left. auto.
      + cbn [fst snd]. split; [exact G|]. split; [|auto]. apply XX; [|discriminate]. right. left. auto.
    - destruct A as [A1 A2]. destruct (construct k) as [u|e|] eqn:C; cbn [fst snd].
      + cbn. split; [intros a o I; destruct (G a o I) as (G1 & G2 & G3); split; [exact G1|split; [apply in_or_app; left; exact G2|exact G3]]|].
        split; [|intros o I; apply in_or_app; left; exact I]. split.
        * intros k' y' J. destruct (R k' y' J) as [R1 R2]. split; [exact R1|]. intros o E. apply in_or_app. left. exact (R2 o E).
        * repeat split; auto. apply in_or_app. right. left. reflexivity. cbn. exact (unit_ok k u C).
      + split; [exact G|]. split; [|auto]. apply (X k (Raise e) td); [|discriminate]. right. right. right. eauto.
      + destruct (total k C).
    - destruct A as (A1 & A2 & A3 & A4). cbn [fst snd objects created]. split; [|split; [|auto]].
      + intros a o' I. cbn in I. apply put_in in I. destruct I as [I|[E1 E2]]; [exact (G a o' I)|]. cbn in E1, E2. subst o' k. split; [apply Esym; exact E2|exact A4].
      + destruct A4 as (F1 & F2 & F3). apply (X k (Ok o) td); [|intros o' E; injection E as <-; exact F1]. left. exists o. subst k. repeat split; auto.
  Qed.
  Lemma good_more n s s' t : good_thread n s t -> (forall o, In o (created s) -> In o (created s')) -> good_thread n s' t.
  Proof.
    intros [R A] M. split; [intros k y J; destruct (R k y J) as [R1 R2]; split; [exact R1|intros o E; apply M; exact (R2 o E)]|].
    destruct (at_ t); auto. destruct A as (A1 & A2 & A3 & A4 & A5). repeat split; auto; apply A5.
  Qed.
  Lemma run_good progs l : let g := run (start progs) l in good (sh g) /\ forall n, good_thread n (sh g) (threads g n).
  Proof using Erefl Esym Etrans total.
    intros g. unfold g. apply (run_invariant (fun g => good (sh g) /\ forall n, good_thread n (sh g) (threads g n))).
    - intros g0 n [G T]. destruct (move_good n (sh g0) (threads g0 n) G (T n)) as (M1 & M2 & M3). rewrite sh_step. split; [exact M1|].
      intros m. rewrite at_step. destruct (Nat.eqb_spec m n) as [->|]; [exact M2|]. exact (good_more m (sh g0) _ _ (T m) M3).
    - split; [intros a o []|]. intros n. split; [intros k y []|exact I].
  Qed.
  Lemma move_order prog n s t : in_order prog t -> in_order prog (snd (move n s t)).
  Proof.
    unfold in_order, pending, MakerConc.move. destruct t as [td p rs]. cbn [at_ todo results]. intros <-. destruct p as [|k|k o].
    - destruct td as [|k l]; [reflexivity|]. destruct (negb (hashable k)); [|destruct (find k (objects s)); [|destruct (known k)]]; cbn; rewrite ?map_app, <- ?app_assoc; reflexivity.
    - destruct (construct k); cbn; rewrite ?map_app, <- ?app_assoc; reflexivity.
    - cbn. rewrite ?map_app, <- ?app_assoc. reflexivity.
  Qed.
  (** In every schedule, requests are answered in order, and rightly: with a backend made for an
      equal request, or with the error that this request has alone. *)
  Theorem C145_right progs l n : let g := run (start progs) l in
    in_order (progs n) (threads g n) /\ forall k y, In (k, y) (results (threads g n)) -> right_answer k y.
  Proof using Erefl Esym Etrans total.
    intros g. split.
    - unfold g. apply (run_invariant (fun g => in_order (progs n) (threads g n))); [|reflexivity]. intros g0 m H. rewrite at_step. destruct (Nat.eqb_spec n m) as [<-|]; [apply move_order|]; exact H.
    - intros k y J. destruct (run_good progs l) as [_ T]. exact (proj1 (proj1 (T n) k y J)).
  Qed.

  (** ** Ending *)
  Definition work t : nat := 3 * List.length (todo t) + match at_ t with Idle => 0 | Construct _ => 2 | Store _ _ => 1 end.
  (** Nobody waits: a thread that is not finished comes nearer to its end whenever it moves, three moves per request at most. *)
  Theorem C145_ends progs l n : let g := run (start progs) l in
    (at_ (threads g n) = Idle /\ todo (threads g n) = []) \/ work (threads (step g n) n) < work (threads g n).
  Proof.
    clear total. intros g. clearbody g. rewrite at_step, Nat.eqb_refl. unfold work, MakerConc.move. destruct (threads g n) as [td p rs]. cbn [at_ todo]. destruct p as [|k|k o].
    - destruct td as [|k l']; [left; auto|]. right. cbn [List.length]. destruct (negb (hashable k)); [|destruct (find k (objects (sh g))); [|destruct (known k)]]; cbn; lia.
    - right. destruct (construct k); cbn; lia.
    - right. cbn. lia.
  Qed.

  (** ** At most one backend per thread and request *)
  Definition once (n : nat) s t : Prop := forall k,
    List.length (made_by n k (created s)) <= 1 /\
    (made_by n k (created s) <> [] -> find k (objects s) <> None \/ exists k' o, at_ t = Store k' o /\ eqb k' k = true) /\
    (forall k', at_ t = Construct k' -> eqb k' k = true -> made_by n k (created s) = []).
  Lemma made_app n k l o : made_by n k (l ++ [o]) = made_by n k l ++ (if Nat.eqb (o_by o) n && eqb (o_key o) k then [o] else []).
  Proof. unfold made_by. rewrite filter_app. reflexivity. Qed.
  Lemma put_keeps k o d k' : find k' d <> None -> find k' (put k o d) <> None.
  Proof. intros H. destruct (eqb k k') eqn:E; [rewrite (find_put_same _ _ _ _ E); discriminate|rewrite (find_put_other _ _ _ _ E); exact H]. Qed.
  Lemma once_own n s t : once n s t -> once n (fst (move n s t)) (snd (move n s t)).
  Proof.
    clear total. intros O k. unfold MakerConc.move. destruct t as [td p rs]. unfold once in O. cbn [at_ todo results] in *. destruct p as [|q|q o].
    - assert (N : made_by n k (created s) <> [] -> find k (objects s) <> None) by (intros X; destruct (proj1 (proj2 (O k)) X) as [Y|(k' & o & Y & _)]; [exact Y|discriminate Y]).
      destruct td as [|q l]; [exact (O k)|].
      assert (A : forall y, List.length (made_by n k (created s)) <= 1 /\ (made_by n k (created s) <> [] -> find k (objects s) <> None \/ exists k' o, at_ (answer (mkThread (q :: l) Idle rs) l q y) = Store k' o /\ eqb k' k = true) /\
         (forall k', at_ (answer (mkThread (q :: l) Idle rs) l q y) = Construct k' -> eqb k' k = true -> made_by n k (created s) = [])).
      { intros y. split; [apply (O k)|]. split; [intros X; left; exact (N X)|discriminate]. }
      destruct (negb (hashable q)); [apply A|]. destruct (find q (objects s)) as [o|] eqn:F; [apply A|]. destruct (known q); [|apply A]. cbn [fst snd].
      split; [apply (O k)|]. split; [intros X; left; exact (N X)|]. cbn. intros k' E Ek. injection E as <-. destruct (made_by n k (created s)) eqn:M; [reflexivity|]. exfalso. apply N; [discriminate|].
      unfold MakerConc.find in *. destruct (List.find (fun p => eqb (fst p) k) (objects s)) as [[a b]|] eqn:FF; [|reflexivity]. apply find_some in FF. destruct FF as [I1 I2]. cbn in I2.
      destruct (List.find (fun p => eqb (fst p) q) (objects s)) as [pp|] eqn:FQ; [discriminate F|]. pose proof (find_none _ _ FQ _ I1) as Z. cbn in Z. rewrite (same_class _ _ a Ek), I2 in Z. discriminate Z.
    - destruct (O k) as (O1 & O2 & O3). specialize (O3 q eq_refl).
      assert (A : forall y, List.length (made_by n k (created s)) <= 1 /\ (made_by n k (created s) <> [] -> find k (objects s) <> None \/ exists k' o, at_ (answer (mkThread td (Construct q) rs) td q y) = Store k' o /\ eqb k' k = true) /\
         (forall k', at_ (answer (mkThread td (Construct q) rs) td q y) = Construct k' -> eqb k' k = true -> made_by n k (created s) = [])).
      { intros y. split; [exact O1|]. split; [intros X; destruct (O2 X) as [Y|(k' & o & Y & _)]; [left; exact Y|discriminate Y]|discriminate]. }
      destruct (construct q); [|apply A|apply A]. cbn [fst snd created objects at_]. rewrite made_app. cbn [o_by o_key]. rewrite Nat.eqb_refl. cbn [andb]. destruct (eqb q k) eqn:E.
      + rewrite (O3 eq_refl). cbn. split; [lia|]. split; [intros _; right; eauto|discriminate].
      + rewrite app_nil_r. split; [exact O1|]. split; [|discriminate]. intros X. destruct (O2 X) as [Y|(k' & o & Y & _)]; [left; exact Y|discriminate Y].
    - destruct (O k) as (O1 & O2 & O3). cbn [fst snd created objects answer at_]. split; [exact O1|]. split; [|discriminate]. intros X. left. destruct (O2 X) as [Y|(k' & o' & Y & Ek)]; [apply put_keeps; exact Y|].
      injection Y as <- <-. rewrite (find_put_same _ _ _ _ Ek). discriminate.
  Qed.
  Lemma once_other n m s t u : m <> n -> (forall k o, at_ u = Store k o -> o_by o = m) -> once n s t -> once n (fst (move m s u)) t.
  Proof.
    clear total. intros D B O k. destruct (O k) as (O1 & O2 & O3). unfold MakerConc.move. destruct u as [td p rs]. cbn [at_ todo results] in *. destruct p as [|q|q o].
    - destruct td as [|q l]; [exact (O k)|]. destruct (negb (hashable q)); [exact (O k)|]. destruct (find q (objects s)); [exact (O k)|]. destruct (known q); exact (O k).
    - destruct (construct q); [|exact (O k)|exact (O k)]. cbn [fst created objects]. rewrite made_app. cbn [o_by o_key]. destruct (Nat.eqb_spec m n); [contradiction|]. cbn [andb]. rewrite app_nil_r. exact (O k).
    - cbn [fst created objects]. split; [exact O1|]. split; [|exact O3]. intros X. destruct (O2 X) as [Y|Y]; [left; apply put_keeps; exact Y|right; exact Y].
  Qed.
  (** In every schedule, a thread makes at most one backend for equal requests, so that there never
      are more of them than threads; all backends have numbers of their own, and those given to
      threads are among those made. *)
  Theorem C145_once progs l n k : let g := run (start progs) l in
    List.length (made_by n k (created (sh g))) <= 1 /\ map o_id (created (sh g)) = seq 0 (List.length (created (sh g))) /\
    forall m q o, In (q, Ok o) (results (threads g m)) -> In o (created (sh g)).
  Proof using Erefl Esym Etrans total.
    intros g. split; [|split].
    - assert (H : forall m, once m (sh g) (threads g m)); [|apply (H n k)].
      assert (J : (good (sh g) /\ forall m, good_thread m (sh g) (threads g m)) /\ forall m, once m (sh g) (threads g m)); [|apply J].
      unfold g. apply (run_invariant (fun g => (good (sh g) /\ forall m, good_thread m (sh g) (threads g m)) /\ forall m, once m (sh g) (threads g m))).
      + intros g0 i [[G T] O]. split.
        * destruct (move_good i (sh g0) (threads g0 i) G (T i)) as (M1 & M2 & M3). rewrite sh_step. split; [exact M1|]. intros m. rewrite at_step. destruct (Nat.eqb_spec m i) as [->|]; [exact M2|]. exact (good_more m (sh g0) _ _ (T m) M3).
        * intros m. rewrite sh_step, at_step. destruct (Nat.eqb_spec m i) as [->|N]; [apply once_own; apply O|]. apply once_other; [congruence| |apply O].
          intros q o E. destruct (T i) as [_ A]. rewrite E in A. apply A.
      + split; [split; [intros a o []|intros m; split; [intros q y []|exact I]]|]. intros m q. split; [cbn; lia|]. split; [cbn; congruence|discriminate].
    - unfold g. apply (run_invariant (fun g => map o_id (created (sh g)) = seq 0 (List.length (created (sh g))))); [|reflexivity]. intros g0 i H. rewrite sh_step. unfold MakerConc.move. destruct (threads g0 i) as [td p rs]. cbn [at_ todo results].
      destruct p as [|q|q o]; [destruct td as [|q l']; [exact H|]; destruct (negb (hashable q)); [exact H|]; destruct (find q (objects (sh g0))); [exact H|]; destruct (known q); exact H| |exact H].
      destruct (construct q); [|exact H|exact H]. cbn [fst created]. rewrite map_app, app_length, H. cbn. rewrite Nat.add_1_r, seq_S. reflexivity.
    - intros m q o J. destruct (run_good progs l) as [_ T]. exact (proj2 (proj1 (T m) q (Ok o) J) o eq_refl).
  Qed.

  (** A thread that is alone gets the same backend for equal requests. *)
  Theorem C145_alone progs l n : (forall m, m <> n -> progs m = []) -> let g := run (start progs) l in
    forall k o k' o', In (k, Ok o) (results (threads g n)) -> In (k', Ok o') (results (threads g n)) -> eqb k k' = true -> o = o'.
  Proof using Erefl Esym Etrans total.
    intros A g k o k' o' I I' E.
    assert (B : (forall m, m <> n -> threads g m = mkThread [] Idle []) /\ Forall (fun o => o_by o = n) (created (sh g))).
    { unfold g. apply (run_invariant (fun g => (forall m, m <> n -> threads g m = mkThread [] Idle []) /\ Forall (fun o => o_by o = n) (created (sh g)))).
      - intros g0 i [T C]. destruct (Nat.eq_dec i n) as [->|N].
        + split; [intros m D; rewrite at_step; destruct (Nat.eqb_spec m n); [contradiction|auto]|]. rewrite sh_step. unfold MakerConc.move. destruct (threads g0 n) as [td p rs]. cbn [at_ todo results].
          destruct p as [|q|q ob]; [destruct td as [|q l']; [exact C|]; destruct (negb (hashable q)); [exact C|]; destruct (find q (objects (sh g0))); [exact C|]; destruct (known q); exact C| |exact C].
          destruct (construct q); [|exact C|exact C]. cbn [fst created]. apply Forall_app. split; [exact C|]. constructor; [reflexivity|constructor].
        + split; [intros m D; rewrite at_step; destruct (Nat.eqb_spec m i) as [->|]; [rewrite (T i N); reflexivity|auto]|]. rewrite sh_step, (T i N). exact C.
      - split; [intros m D; cbn; rewrite (A m D); reflexivity|constructor]. }
    destruct B as [_ B]. rewrite Forall_forall in B.
    destruct (C145_right progs l n) as [_ R]. destruct (C145_once progs l n k) as (O1 & _ & O3). fold g in R, O1, O3.
    assert (M : forall q ob, In (q, Ok ob) (results (threads g n)) -> eqb q k = true -> In ob (made_by n k (created (sh g)))).
    { intros q ob J Q. pose proof (O3 n q ob J) as C. apply filter_In. split; [exact C|]. rewrite (B ob C), Nat.eqb_refl. cbn.
      destruct (R q (Ok ob) J) as [(o1 & X & Y & _)|[[_ X]|[(_ & _ & X)|(_ & _ & e & _ & X)]]]; try discriminate X. injection X as <-. exact (Etrans _ _ _ Y Q). }
    pose proof (M k o I (Erefl k)) as M1. pose proof (M k' o' I' (Esym _ _ E)) as M2.
    destruct (made_by n k (created (sh g))) as [|x [|x' r]]; [destruct M1| |cbn in O1; lia]. destruct M1 as [<-|[]], M2 as [<-|[]]. reflexivity.
  Qed.

  (** ** When nobody is making it any more *)
  (** From a state where a backend is kept for [k] and no thread is making one: every later answer
      to an equal request is that backend, in every schedule. *)
  Theorem C145_settled g k o l n : find k (objects (sh g)) = Some o -> (forall m, ~ making k (threads g m)) ->
    let g' := run g l in find k (objects (sh g')) = Some o /\
    exists new, results (threads g' n) = results (threads g n) ++ new /\ forall q y, In (q, y) new -> eqb q k = true -> hashable q = true -> y = Ok o.
  Proof.
    clear total. intros F N g'.
    assert (J : find k (objects (sh g')) = Some o /\ (forall m, ~ making k (threads g' m)) /\ exists new, results (threads g' n) = results (threads g n) ++ new /\ forall q y, In (q, y) new -> eqb q k = true -> hashable q = true -> y = Ok o); [|split; apply J].
    unfold g'. apply (run_invariant (fun g' => find k (objects (sh g')) = Some o /\ (forall m, ~ making k (threads g' m)) /\ exists new, results (threads g' n) = results (threads g n) ++ new /\ forall q y, In (q, y) new -> eqb q k = true -> hashable q = true -> y = Ok o)).
    2: { split; [exact F|]. split; [exact N|]. exists []. rewrite app_nil_r. split; [reflexivity|intros q y []]. }
    clear g' F N. intros g1 i (F & N & new & R & A).
    assert (M : find k (objects (fst (move i (sh g1) (threads g1 i)))) = Some o /\ ~ making k (snd (move i (sh g1) (threads g1 i))) /\
                exists more, results (snd (move i (sh g1) (threads g1 i))) = results (threads g1 i) ++ more /\ forall q y, In (q, y) more -> eqb q k = true -> hashable q = true -> y = Ok o).
    { specialize (N i). unfold MakerConc.move, making, pending in *. destruct (threads g1 i) as [td p rs]. cbn [at_ todo results] in *. destruct p as [|q|q o'].
      - destruct td as [|q l']; [cbn; split; [exact F|]; split; [exact N|]; exists []; rewrite app_nil_r; split; [reflexivity|intros ? ? []]|].
        destruct (hashable q) eqn:Hq; cbn [negb].
        + assert (FE : eqb q k = true -> find q (objects (sh g1)) = Some o).
          { intros E. rewrite <- F. unfold MakerConc.find. assert (X : forall d : list (key * obj), List.find (fun p => eqb (fst p) q) d = List.find (fun p => eqb (fst p) k) d); [|rewrite X; reflexivity].
            induction d as [|[a b] d IH]; [reflexivity|]. cbn. rewrite (same_class _ _ a E), IH. reflexivity. }
          destruct (find q (objects (sh g1))) as [o1|] eqn:Fq; [|destruct (known q)]; cbn.
          * split; [exact F|]. split; [intros (? & [] & _)|]. eexists. split; [reflexivity|]. intros q' y [I|[]] E _. injection I as <- <-. specialize (FE E). congruence.
          * split; [exact F|]. split; [intros (k' & [<-|[]] & E); specialize (FE E); discriminate FE|]. exists []. rewrite app_nil_r. split; [reflexivity|intros ? ? []].
          * split; [exact F|]. split; [intros (? & [] & _)|]. eexists. split; [reflexivity|]. intros q' y [I|[]] E _. injection I as <- <-. specialize (FE E). discriminate FE.
        + cbn. split; [exact F|]. split; [intros (? & [] & _)|]. eexists. split; [reflexivity|]. intros q' y [I|[]] _ E. injection I as <- <-. congruence.
      - assert (E : eqb q k = false) by (destruct (eqb q k) eqn:E; [exfalso; apply N; exists q; cbn; auto|reflexivity]).
        destruct (construct q); cbn; (split; [exact F|]).
        + split; [intros (k' & [<-|[]] & E'); congruence|]. exists []. rewrite app_nil_r. split; [reflexivity|intros ? ? []].
        + split; [intros (? & [] & _)|]. eexists. split; [reflexivity|]. intros q' y [I|[]] E' _. injection I as <- <-. congruence.
        + split; [intros (? & [] & _)|]. eexists. split; [reflexivity|]. intros q' y [I|[]] E' _. injection I as <- <-. congruence.
      - assert (E : eqb q k = false) by (destruct (eqb q k) eqn:E; [exfalso; apply N; exists q; cbn; auto|reflexivity]).
        cbn. split; [rewrite (find_put_other _ _ _ _ E); exact F|]. split; [intros (? & [] & _)|]. eexists. split; [reflexivity|]. intros q' y [I|[]] E' _. injection I as <- <-. congruence. }
    destruct M as (M1 & M2 & more & M3 & M4). rewrite sh_step. split; [exact M1|]. split; [intros m; rewrite at_step; destruct (Nat.eqb m i); [exact M2|apply N]|].
    rewrite at_step. destruct (Nat.eqb_spec n i) as [->|]; [|eauto]. exists (new ++ more). rewrite M3, R, app_assoc. split; [reflexivity|]. intros q y I. apply in_app_or in I. destruct I as [I|I]; [exact (A q y I)|exact (M4 q y I)].
  Qed.
End Any.
Set Default Proof Using "Type".

(** ** False as worded: one backend per request *)
Definition d_run := run Nat.eqb (fun _ => true) (fun k => Nat.ltb k 5) (fun _ => Ok tt).
(** Two threads that make the same request get different backends. *)
Theorem C145_two_refuted : exists l o o', let g := d_run (start (fun n => match n with 0 => [3] | 1 => [3] | _ => [] end)) l in
  results (threads g 0) = [(3, Ok o)] /\ results (threads g 1) = [(3, Ok o')] /\ o_id o <> o_id o'.
Proof. exists [0; 1; 0; 1; 0; 1]. eexists. eexists. vm_compute. split; [reflexivity|]. split; [reflexivity|discriminate]. Qed.
(** One thread that makes the same request twice gets different backends. *)
Theorem C145_changes_refuted : exists l o o', let g := d_run (start (fun n => match n with 0 => [3; 3] | 1 => [3] | _ => [] end)) l in
  results (threads g 0) = [(3, Ok o); (3, Ok o')] /\ o_id o <> o_id o'.
Proof. exists [0; 1; 0; 1; 0; 1; 0]. eexists. eexists. vm_compute. split; [reflexivity|discriminate]. Qed.

(** ** The hypotheses are met *)
Example C145_met : (forall a, Nat.eqb a a = true) /\ (forall a b, Nat.eqb a b = true -> Nat.eqb b a = true) /\ (forall a b c, Nat.eqb a b = true -> Nat.eqb b c = true -> Nat.eqb a c = true) /\
  let g := d_run (start (fun n => match n with 0 => [3; 9] | 1 => [3] | _ => [] end)) [0; 0; 0; 0] in
  results (threads g 0) = [(3, Ok (mkObj 0 3 0)); (9, Raise ValueError)] /\ find Nat.eqb 3 (objects (sh g)) = Some (mkObj 0 3 0) /\ forall m, ~ making Nat.eqb 3 (threads g m).
Proof.
  split; [exact Nat.eqb_refl|]. split; [intros a b; rewrite !Nat.eqb_eq; auto|]. split; [intros a b c; rewrite !Nat.eqb_eq; congruence|]. split; [reflexivity|]. split; [reflexivity|].
  intros [|[|m]] (k & I & _); vm_compute in I; exact I.
Qed.

Print Assumptions C145_right.
Print Assumptions C145_ends.
Print Assumptions C145_once.
Print Assumptions C145_alone.
Print Assumptions C145_settled.
Print Assumptions C145_two_refuted.
Print Assumptions C145_changes_refuted.
