(** C144: threads that share an inventory on a server. *)
From Verif Require Import PyBase RemoteConc.
Local Open Scope list_scope.
Local Open Scope nat_scope.
Set Default Proof Using "Type".

Section Any.
  Context {req W : Type}.
  Variables old new_ : req -> option W.
  Notation call := (@call req). Notation thread := (@thread req W). Notation state := (@state req W). Notation pc := (@pc req W).
  Notation move := (move old new_). Notation step := (step old new_). Notation run := (run old new_). Notation lookup := (lookup old new_).
  Implicit Types (s : shared) (t : thread) (g : state) (r : req) (y : result (option W)) (progs : nat -> list call).

  (** ** What is to be shown *)
  (** The answer to a request: what the server has now, or weights that it had. *)
  Definition right_answer r y : Prop := y = Ok (new_ r) \/ exists w, old r = Some w /\ y = Ok (Some w).
  (** The calls are answered in order, each once. *)
  Definition in_order (prog : list call) t : Prop :=
    map fst (results t) ++ (match doing t with Some c => [c] | None => [] end) ++ todo t = prog.
  Definition finished t : Prop := at_ t = Idle /\ todo t = [].
  (** The inventory between calls: nothing half done. *)
  Definition quiet s : Prop :=
    mem s <> Some Empty /\ file s <> Some Empty /\ (checked s = true -> mem s = Some New) /\ (mem s = Some New -> file s <> Some Old).

  Lemma at_step g n m : threads (step g n) m = if Nat.eqb m n then snd (move (sh g) (threads g n)) else threads g m.
  Proof. unfold RemoteConc.step. destruct (move (sh g) (threads g n)) as [h t]. cbn. destruct (Nat.eqb m n); reflexivity. Qed.
  Lemma sh_step g n : sh (step g n) = fst (move (sh g) (threads g n)).
  Proof. unfold RemoteConc.step. destruct (move (sh g) (threads g n)) as [h t]. reflexivity. Qed.
  Lemma run_invariant (I : state -> Prop) : (forall g n, I g -> I (step g n)) -> forall l g, I g -> I (run g l).
  Proof. intros S. induction l as [|n l IH]; intros g H; [exact H|]. cbn. apply IH, S, H. Qed.

  (** ** Bookkeeping: which call a thread is at *)
  Definition place (p : pc) : option req :=
    match p with
    | Idle | Done _ => None
    | Want r | Enter r | Clear r _ | Path r _ | Open r _ | Find r _ | Check r | Compare r | Delete r | Make r => Some r
    end.
  Definition book (prog : list call) t : Prop :=
    in_order prog t /\ (at_ t = Idle -> doing t = None) /\ (forall r, place (at_ t) = Some r -> exists c, doing t = Some c /\ c_req c = r) /\
    (forall y, at_ t = Done y -> exists c, doing t = Some c).
  Lemma move_book prog s t : book prog t -> book prog (snd (move s t)).
  Proof.
    intros (O & A & B & C). unfold RemoteConc.move. destruct t as [td p dg hd rs]. cbn [at_ todo doing holds results] in *. unfold book, in_order in *. cbn [at_ todo doing holds results] in *.
    destruct p as [|r|r|r again|r again|r again|r again|r|r|r|r|y]; cbn [place] in *.
    - destruct td as [|c l]; cbn [snd at_ todo doing holds results place]; [repeat split; auto; intros; discriminate|].
      rewrite (A eq_refl) in O. cbn in O. split; [exact O|]. destruct (c_locked c); cbn; (split; [discriminate|split; [intros r E; injection E as <-; eauto|discriminate]]).
    - destruct (B r eq_refl) as (c & -> & E). destruct (lock s); cbn; (split; [exact O|]); (split; [discriminate|split; [intros r' E'; try discriminate E'; injection E' as <-; eauto|discriminate]]).
    - destruct (B r eq_refl) as (c & -> & E). cbn. split; [exact O|]. destruct (mem s); cbn; (split; [discriminate|split; [intros r' E'; try discriminate E'; injection E' as <-; eauto|discriminate]]).
    - destruct (B r eq_refl) as (c & -> & E). cbn. split; [exact O|]. split; [discriminate|split; [intros r' E'; try discriminate E'; injection E' as <-; eauto|discriminate]].
    - destruct (B r eq_refl) as (c & -> & E). cbn. split; [exact O|]. split; [discriminate|split; [intros r' E'; try discriminate E'; injection E' as <-; eauto|discriminate]].
    - destruct (B r eq_refl) as (c & -> & E). destruct (file s); cbn; (split; [exact O|]); (split; [discriminate|split; [intros r' E'; try discriminate E'; injection E' as <-; eauto|eauto || discriminate]]).
    - destruct (B r eq_refl) as (c & -> & E). cbn. split; [exact O|]. destruct (match mem s with Some v => lookup v r | None => None end); [|destruct again]; cbn;
        (split; [discriminate|split; [intros r' E'; try discriminate E'; injection E' as <-; eauto|eauto || discriminate]]).
    - destruct (B r eq_refl) as (c & -> & E). cbn. split; [exact O|]. destruct (checked s); cbn; (split; [discriminate|split; [intros r' E'; try discriminate E'; injection E' as <-; eauto|eauto || discriminate]]).
    - destruct (B r eq_refl) as (c & -> & E). destruct (file s) as [[]|]; cbn; (split; [exact O|]); (split; [discriminate|split; [intros r' E'; try discriminate E'; injection E' as <-; eauto|discriminate]]).
    - destruct (B r eq_refl) as (c & -> & E). cbn. split; [exact O|]. split; [discriminate|split; [intros r' E'; try discriminate E'; injection E' as <-; eauto|discriminate]].
    - destruct (B r eq_refl) as (c & -> & E). cbn. split; [exact O|]. split; [discriminate|split; [intros r' E'; try discriminate E'; injection E' as <-; eauto|discriminate]].
    - destruct (C y eq_refl) as (c & ->). cbn. split; [rewrite map_app; cbn; rewrite <- app_assoc; exact O|]. split; [reflexivity|]. split; discriminate.
  Qed.
  Lemma run_book m0 f0 c0 progs l n : book (progs n) (threads (run (start m0 f0 c0 progs) l) n).
  Proof.
    apply (run_invariant (fun g => book (progs n) (threads g n))).
    - intros g k B. rewrite at_step. destruct (Nat.eqb_spec n k) as [<-|]; [apply move_book|]; exact B.
    - cbn. repeat split; cbn; try discriminate.
  Qed.

  (** ** Whatever the schedule: no wrong weights *)
  Definition safe r y : Prop := right_answer r y \/ y = Ok None \/ y = Raise FileNotFoundError.
  Definition safe_thread t : Prop :=
    (forall c y, In (c, y) (results t) -> safe (c_req c) y) /\ (forall y c, at_ t = Done y -> doing t = Some c -> safe (c_req c) y).
  Lemma lookup_right v r w : lookup v r = Some w -> right_answer r (Ok (Some w)).
  Proof. destruct v; cbn; intros E; [discriminate E|right; eauto|left; rewrite E; reflexivity]. Qed.
  Lemma move_safe prog s t : book prog t -> safe_thread t -> safe_thread (snd (move s t)).
  Proof.
    intros (_ & _ & B & _) [R D]. unfold RemoteConc.move. destruct t as [td p dg hd rs]. cbn [at_ todo doing holds results] in *. unfold safe_thread in *. cbn [at_ todo doing holds results] in *.
    destruct p as [|r|r|r again|r again|r again|r again|r|r|r|r|y]; cbn [place] in *.
    - destruct td as [|c l]; cbn; (split; [exact R|]); [discriminate|]. destruct (c_locked c); discriminate.
    - destruct (lock s); cbn; (split; [exact R|discriminate]).
    - cbn. split; [exact R|]. destruct (mem s); discriminate.
    - cbn. split; [exact R|discriminate].
    - cbn. split; [exact R|discriminate].
    - destruct (file s); cbn; (split; [exact R|]); [discriminate|]. intros y c E _. injection E as <-. right. right. reflexivity.
    - cbn. split; [exact R|]. destruct (B r eq_refl) as (c0 & E0 & E1). intros y c E E2. rewrite E0 in E2. injection E2 as ->. subst r.
      destruct (mem s) as [v|]; [destruct (lookup v (c_req c)) as [w|] eqn:L|].
      + injection E as <-. left. exact (lookup_right v _ w L).
      + destruct again; [|discriminate E]. injection E as <-. right. left. reflexivity.
      + destruct again; [|discriminate E]. injection E as <-. right. left. reflexivity.
    - cbn. split; [exact R|]. destruct (checked s); [|discriminate]. intros y c E _. injection E as <-. right. left. reflexivity.
    - destruct (file s) as [[]|]; cbn; (split; [exact R|discriminate]).
    - cbn. split; [exact R|discriminate].
    - cbn. split; [exact R|discriminate].
    - cbn. split; [|discriminate]. intros c y' I. destruct dg as [c0|]; [|exact (R c y' I)]. apply in_app_or in I. destruct I as [I|[I|[]]]; [exact (R c y' I)|]. injection I as <- <-. exact (D y c0 eq_refl eq_refl).
  Qed.
  (** In every schedule, with or without the lock, whatever is in memory and cache at the start:
      calls are answered in order; an answer is right, or says that there are no weights, or is
      FileNotFoundError; it never is other weights. *)
  Theorem C144_never_wrong m0 f0 c0 progs l n : let g := run (start m0 f0 c0 progs) l in
    in_order (progs n) (threads g n) /\ forall c y, In (c, y) (results (threads g n)) -> safe (c_req c) y.
  Proof.
    intros g. split; [apply run_book|].
    assert (H : (forall k, book (progs k) (threads g k)) /\ forall k, safe_thread (threads g k)).
    { unfold g. apply (run_invariant (fun g => (forall k, book (progs k) (threads g k)) /\ forall k, safe_thread (threads g k))).
      - intros g0 k [B S]. split; intros j; rewrite at_step; destruct (Nat.eqb_spec j k) as [->|]; auto; [apply move_book; apply B|apply (move_safe (progs k)); auto].
      - split; intros k; [repeat split; cbn; try discriminate|split; cbn; [contradiction|discriminate]]. }
    intros c y I. exact (proj1 (proj2 H n) c y I).
  Qed.

  (** ** Ending *)
  Definition rank (p : pc) : nat :=
    match p with
    | Idle => 0 | Done _ => 1 | Find _ true => 2 | Open _ true => 3 | Path _ true => 4 | Clear _ true => 5 | Make _ => 6 | Delete _ => 7
    | Compare _ => 8 | Check _ => 9 | Find _ false => 10 | Open _ false => 11 | Path _ false => 12 | Clear _ false => 13 | Enter _ => 14 | Want _ => 15
    end.
  Definition work t : nat := 16 * List.length (todo t) + rank (at_ t).
  Definition waits t : Prop := exists r, at_ t = Want r.
  Definition lock_kept g : Prop :=
    (lock (sh g) = true -> exists h, holds (threads g h) = true) /\
    (forall n, holds (threads g n) = true -> lock (sh g) = true /\ at_ (threads g n) <> Idle /\ ~ waits (threads g n)) /\
    (forall n m, holds (threads g n) = true -> holds (threads g m) = true -> n = m).
  Lemma move_holds s t : holds t = false -> ~ (waits t /\ lock s = false) -> holds (snd (move s t)) = false /\ lock (fst (move s t)) = lock s.
  Proof.
    intros H N. unfold RemoteConc.move. destruct t as [td p dg hd rs]. cbn [at_ todo doing holds results] in *. subst hd. destruct p as [|r|r|r again|r again|r again|r again|r|r|r|r|y]; try (cbn; auto; fail).
    - destruct td; cbn; auto.
    - destruct (lock s) eqn:L; cbn; [auto|]. exfalso. apply N. split; [exists r; reflexivity|reflexivity].
    - destruct (file s); cbn; auto.
    - destruct (file s) as [[]|]; cbn; auto.
  Qed.
  Lemma run_lock m0 f0 c0 progs l : lock_kept (run (start m0 f0 c0 progs) l).
  Proof.
    apply run_invariant; [|split; [cbn; discriminate|split; cbn; intros; discriminate]].
    intros g k (A & B & C). destruct (holds (threads g k)) eqn:H.
    - destruct (B k H) as (L & NI & NW).
      assert (O : forall j, j <> k -> holds (threads g j) = false) by (intros j N; destruct (holds (threads g j)) eqn:E; [exfalso; apply N; exact (C j k E H)|reflexivity]).
      assert (K : (holds (snd (move (sh g) (threads g k))) = true /\ lock (fst (move (sh g) (threads g k))) = true /\ at_ (snd (move (sh g) (threads g k))) <> Idle /\ ~ waits (snd (move (sh g) (threads g k)))) \/
                  (holds (snd (move (sh g) (threads g k))) = false /\ lock (fst (move (sh g) (threads g k))) = false)).
      { clear - H L NI NW. unfold waits in *. unfold RemoteConc.move. destruct (threads g k) as [td p dg hd rs]. cbn [at_ todo doing holds results] in *. subst hd.
        destruct p as [|r|r|r again|r again|r again|r again|r|r|r|r|y].
        - destruct (NI eq_refl).
        - exfalso. apply NW. eauto.
        - left. cbn. destruct (mem (sh g)); repeat split; auto; (discriminate || (intros [? E]; discriminate E)).
        - left. cbn. repeat split; auto; (discriminate || (intros [? E]; discriminate E)).
        - left. cbn. repeat split; auto; (discriminate || (intros [? E]; discriminate E)).
        - left. destruct (file (sh g)); cbn; repeat split; auto; (discriminate || (intros [? E]; discriminate E)).
        - left. cbn. destruct (match mem (sh g) with Some v => lookup v r | None => None end); [|destruct again]; repeat split; auto; (discriminate || (intros [? E]; discriminate E)).
        - left. cbn. destruct (checked (sh g)); repeat split; auto; (discriminate || (intros [? E]; discriminate E)).
        - left. destruct (file (sh g)) as [[]|]; cbn; repeat split; auto; (discriminate || (intros [? E]; discriminate E)).
        - left. cbn. repeat split; auto; (discriminate || (intros [? E]; discriminate E)).
        - left. cbn. repeat split; auto; (discriminate || (intros [? E]; discriminate E)).
        - right. cbn. auto. }
      split; [|split].
      + rewrite sh_step. intros E. exists k. rewrite at_step, Nat.eqb_refl. destruct K as [K|K]; [apply K|]. destruct K as [_ K]. congruence.
      + intros j. rewrite sh_step, at_step. destruct (Nat.eqb_spec j k) as [->|N]; [|intros E; rewrite (O j N) in E; discriminate E].
        intros E. destruct K as [(_ & K1 & K2 & K3)|[K _]]; [auto|congruence].
      + intros i j. rewrite !at_step. destruct (Nat.eqb_spec i k) as [->|N1], (Nat.eqb_spec j k) as [->|N2]; intros E1 E2; [reflexivity|rewrite (O j N2) in E2; discriminate E2|rewrite (O i N1) in E1; discriminate E1|exact (C i j E1 E2)].
    - assert (D : (waits (threads g k) /\ lock (sh g) = false) \/ ~ (waits (threads g k) /\ lock (sh g) = false)).
      { destruct (lock (sh g)); [right; intros [_ E]; discriminate E|]. unfold waits. destruct (at_ (threads g k)); try (right; intros [[? E] _]; discriminate E). left. split; [eauto|reflexivity]. }
      destruct D as [[[r W0] L]|D].
      + assert (O : forall j, holds (threads g j) = false) by (intros j; destruct (holds (threads g j)) eqn:E; [destruct (B j E) as [E2 _]; congruence|reflexivity]).
        assert (M : move (sh g) (threads g k) = (set_lock (sh g) true, mkThread (todo (threads g k)) (Enter r) (doing (threads g k)) true (results (threads g k)))).
        { unfold RemoteConc.move. rewrite W0, L. reflexivity. }
        split; [|split].
        * intros _. exists k. rewrite at_step, Nat.eqb_refl, M. reflexivity.
        * intros j. rewrite sh_step, at_step, M. destruct (Nat.eqb_spec j k) as [->|N]; [intros _; cbn; repeat split; [discriminate|intros [? E]; discriminate E]|]. rewrite O. discriminate.
        * intros i j. rewrite !at_step. destruct (Nat.eqb_spec i k) as [->|N1], (Nat.eqb_spec j k) as [->|N2]; rewrite ?O; try discriminate; reflexivity.
      + destruct (move_holds (sh g) (threads g k) H D) as [M1 M2]. split; [|split].
        * rewrite sh_step, M2. intros E. destruct (A E) as [h Hh]. exists h. rewrite at_step. destruct (Nat.eqb_spec h k) as [->|]; [congruence|exact Hh].
        * intros j. rewrite sh_step, at_step, M2. destruct (Nat.eqb_spec j k) as [->|N]; [rewrite M1; discriminate|apply B].
        * intros i j. rewrite !at_step. destruct (Nat.eqb_spec i k) as [->|N1], (Nat.eqb_spec j k) as [->|N2]; rewrite ?M1; try discriminate. apply C.
  Qed.
  Lemma move_work s t : finished t \/ (waits t /\ lock s = true) \/ work (snd (move s t)) < work t.
  Proof.
    unfold RemoteConc.move, finished, waits, work. destruct t as [td p dg hd rs]. cbn [at_ todo doing holds results] in *.
    destruct p as [|r|r|r again|r again|r again|r again|r|r|r|r|y].
    - destruct td as [|c l]; [left; auto|]. right. right. cbn [snd todo at_ List.length]. destruct (c_locked c); cbn [rank]; lia.
    - destruct (lock s); [right; left; split; [eauto|reflexivity]|]. right. right. cbn [snd todo at_ rank]. lia.
    - right. right. cbn [snd goes todo at_]. destruct (mem s); cbn [rank]; lia.
    - right. right. cbn [snd goes todo at_]. destruct again; cbn [rank]; lia.
    - right. right. cbn [snd goes todo at_]. destruct again; cbn [rank]; lia.
    - right. right. destruct (file s); cbn [snd goes todo at_]; destruct again; cbn [rank]; lia.
    - right. right. cbn [snd goes todo at_]. destruct (match mem s with Some v => lookup v r | None => None end); destruct again; cbn [rank]; lia.
    - right. right. cbn [snd goes todo at_]. destruct (checked s); cbn [rank]; lia.
    - right. right. destruct (file s) as [[]|]; cbn [snd goes todo at_ rank]; lia.
    - right. right. cbn [snd goes todo at_ rank]. lia.
    - right. right. cbn [snd goes todo at_ rank]. lia.
    - right. right. cbn [snd goes todo at_ rank]. lia.
  Qed.
  (** In every state reached, a thread that is not finished either comes nearer to its end when it
      moves (and other threads never take this back), or waits for a lock held by another thread,
      which comes nearer when it moves. *)
  Theorem C144_ends m0 f0 c0 progs l n : let g := run (start m0 f0 c0 progs) l in
    finished (threads g n) \/ work (threads (step g n) n) < work (threads g n) \/
    (waits (threads g n) /\ exists h, h <> n /\ holds (threads g h) = true /\ work (threads (step g h) h) < work (threads g h)).
  Proof.
    intros g. pose proof (run_lock m0 f0 c0 progs l) as (A & B & _). fold g in A, B. rewrite !at_step, Nat.eqb_refl.
    destruct (move_work (sh g) (threads g n)) as [F|[[X L]|M]]; auto. right. right. split; [exact X|]. destruct (A L) as [h H]. exists h.
    destruct (B h H) as (_ & NI & NW). split; [intros ->; contradiction|]. split; [exact H|]. rewrite at_step, Nat.eqb_refl.
    destruct (move_work (sh g) (threads g h)) as [[F _]|[[Y _]|M]]; [contradiction|contradiction|exact M].
  Qed.

  (** ** With the lock *)
  Definition sound_file s : Prop := file s <> Some Empty.
  Definition active s t : Prop :=
    sound_file s /\
    match at_ t with
    | Idle | Want _ => False
    | Enter _ => quiet s
    | Clear _ false => checked s = false
    | Path _ false => checked s = false
    | Open _ false => checked s = false /\ file s <> None
    | Find _ false => quiet s /\ mem s <> None
    | Check r => quiet s /\ exists v, mem s = Some v /\ lookup v r = None
    | Compare r => quiet s /\ checked s = false
    | Delete _ => True
    | Make _ => file s <> Some Old
    | Clear _ true | Path _ true | Open _ true => file s = Some New
    | Find _ true => file s = Some New /\ mem s = Some New
    | Done y => quiet s /\ forall c, doing t = Some c -> right_answer (c_req c) y
    end.
  Definition passive t : Prop := holds t = false /\ (at_ t = Idle \/ waits t).
  Definition answered t : Prop := (forall c y, In (c, y) (results t) -> right_answer (c_req c) y) /\ (forall c, In c (todo t) -> c_locked c = true).
  Definition locked_state progs g : Prop :=
    (forall k, book (progs k) (threads g k)) /\ (forall k, answered (threads g k)) /\
    ((lock (sh g) = false /\ quiet (sh g) /\ forall k, passive (threads g k)) \/
     (lock (sh g) = true /\ exists h, holds (threads g h) = true /\ active (sh g) (threads g h) /\ forall k, k <> h -> passive (threads g k))).

  Lemma active_move prog s t : book prog t -> holds t = true -> lock s = true -> active s t ->
    (forall y, at_ t <> Done y) -> holds (snd (move s t)) = true /\ lock (fst (move s t)) = true /\ active (fst (move s t)) (snd (move s t)).
  Proof.
    intros (_ & _ & BK & _) H L (SF & A) ND. unfold RemoteConc.move, active, sound_file in *. destruct t as [td p dg hd rs]. cbn [at_ todo doing holds results] in *. subst hd.
    destruct p as [|r|r|r again|r again|r again|r again|r|r|r|r|y]; try contradiction.
    - cbn. destruct (mem s) as [v|] eqn:M; cbn; repeat split; auto; try (apply A); try congruence.
      destruct A as (_ & _ & A & _). destruct (checked s); [specialize (A eq_refl); congruence|reflexivity].
    - cbn. destruct again; repeat split; auto.
    - cbn. destruct again; cbn; destruct (file s) as [[]|]; cbn; repeat split; auto; congruence.
    - destruct again.
      + rewrite A. cbn. repeat split; congruence || auto.
      + destruct A as [A1 A2]. destruct (file s) as [v|] eqn:F; [|contradiction]. cbn. rewrite F. repeat split; auto; cbn; try congruence.
    - cbn. destruct (BK r eq_refl) as (c0 & E0 & E1). subst dg r. destruct again.
      + destruct A as [A1 A2]. rewrite A2. cbn [RemoteConc.lookup]. destruct (new_ (c_req c0)) as [w|] eqn:E; (split; [reflexivity|split; [exact L|split; [exact SF|]]]);
          (split; [repeat split; congruence|]); intros c E2; injection E2 as <-; left; rewrite E; reflexivity.
      + destruct A as [Q M]. destruct (mem s) as [v|] eqn:MS; [|contradiction]. destruct (lookup v (c_req c0)) as [w|] eqn:E; (split; [reflexivity|split; [exact L|split; [exact SF|]]]); (split; [unfold quiet in *; rewrite MS in *; exact Q|]).
        * intros c E2. injection E2 as <-. exact (lookup_right v _ w E).
        * exists v. auto.
    - cbn. destruct (BK r eq_refl) as (c0 & E0 & E1). subst dg r. destruct A as [Q (v & MS & E)]. destruct (checked s) eqn:C; (split; [reflexivity|split; [exact L|split; [exact SF|]]]); (split; [exact Q|]); [|reflexivity].
      intros c E2. injection E2 as <-. left. destruct Q as (_ & _ & Q & _). specialize (Q C). rewrite MS in Q. injection Q as ->. cbn in E. rewrite E. reflexivity.
    - destruct A as [Q C]. destruct (file s) as [[]|] eqn:F; cbn; rewrite ?F; repeat split; auto; congruence.
    - cbn. repeat split; auto; discriminate.
    - cbn. destruct (file s) as [[]|]; cbn; repeat split; auto; congruence.
    - destruct (ND y eq_refl).
  Qed.
  Lemma answered_move prog s t : book prog t -> answered t -> (forall y, at_ t = Done y -> forall c, doing t = Some c -> right_answer (c_req c) y) -> answered (snd (move s t)).
  Proof.
    intros BK [R T] D. unfold RemoteConc.move, answered. destruct t as [td p dg hd rs]. cbn [at_ todo doing holds results] in *. destruct p as [|r|r|r again|r again|r again|r again|r|r|r|r|y]; try (cbn; auto; fail).
    - destruct td as [|c l]; cbn; [auto|]. split; [exact R|]. intros c' I. apply T. right. exact I.
    - destruct (lock s); cbn; auto.
    - destruct (file s); cbn; auto.
    - destruct (file s) as [[]|]; cbn; auto.
    - cbn. split; [|exact T]. intros c y' I. destruct dg as [c0|]; [|exact (R c y' I)]. apply in_app_or in I. destruct I as [I|[I|[]]]; [exact (R c y' I)|]. injection I as <- <-. exact (D y eq_refl c0 eq_refl).
  Qed.
  Lemma locked_step progs g n : locked_state progs g -> locked_state progs (step g n).
  Proof.
    intros (B & R & S). split; [intros k; rewrite at_step; destruct (Nat.eqb_spec k n) as [->|]; auto; apply move_book; apply B|].
    assert (DN : forall y, at_ (threads g n) = Done y -> forall c, doing (threads g n) = Some c -> right_answer (c_req c) y).
    { intros y E c E2. destruct S as [(_ & _ & P)|(_ & h & H & A & P)].
      - destruct (P n) as [_ [P1|[r P1]]]; congruence.
      - destruct (Nat.eq_dec n h) as [->|N]; [|destruct (P n N) as [_ [P1|[r P1]]]; congruence]. destruct A as [_ A]. rewrite E in A. apply A. exact E2. }
    split; [intros k; rewrite at_step; destruct (Nat.eqb_spec k n) as [->|]; auto; apply (answered_move (progs n)); auto|].
    destruct S as [(L & Q & P)|(L & h & H & A & P)].
    - destruct (P n) as [Hn [I|[r I]]].
      + left. assert (M : fst (move (sh g) (threads g n)) = sh g /\ passive (snd (move (sh g) (threads g n)))).
        { unfold RemoteConc.move. rewrite I. destruct (todo (threads g n)) as [|c l] eqn:T; cbn; [split; [reflexivity|split; auto]|]. split; [reflexivity|]. split; [reflexivity|].
          right. cbn. destruct (R n) as [_ R2]. rewrite (R2 c) by (rewrite T; left; reflexivity). unfold waits. cbn. eauto. }
        rewrite sh_step, (proj1 M). split; [exact L|]. split; [exact Q|]. intros k. rewrite at_step. destruct (Nat.eqb k n); [apply M|apply P].
      + right. assert (M : move (sh g) (threads g n) = (set_lock (sh g) true, mkThread (todo (threads g n)) (Enter r) (doing (threads g n)) true (results (threads g n)))) by (unfold RemoteConc.move; rewrite I, L; reflexivity).
        rewrite sh_step, M. split; [reflexivity|]. exists n. rewrite at_step, Nat.eqb_refl, M. split; [reflexivity|]. split; [split; [apply Q|exact Q]|].
        intros k N. rewrite at_step. destruct (Nat.eqb_spec k n); [contradiction|apply P].
    - destruct (Nat.eq_dec n h) as [->|N].
      + destruct (at_ (threads g h)) eqn:E;
          try (assert (ND : forall y, at_ (threads g h) <> Done y) by (intros y0 E0; congruence); destruct (active_move (progs h) (sh g) (threads g h) (B h) H L A ND) as (M1 & M2 & M3);
               right; rewrite sh_step; split; [exact M2|]; exists h; rewrite at_step, Nat.eqb_refl; split; [exact M1|]; split; [exact M3|]; intros k NK; rewrite at_step; destruct (Nat.eqb_spec k h); [contradiction|apply P; exact NK]).
        left. destruct A as [_ A]. rewrite E in A. destruct A as [Q _].
        assert (M : fst (move (sh g) (threads g h)) = set_lock (sh g) false /\ passive (snd (move (sh g) (threads g h)))).
        { unfold RemoteConc.move. rewrite E, H. cbn. split; [reflexivity|]. split; [reflexivity|left; reflexivity]. }
        rewrite sh_step, (proj1 M). split; [reflexivity|]. split; [exact Q|]. intros k. rewrite at_step. destruct (Nat.eqb_spec k h) as [->|NK]; [apply M|apply P; exact NK].
      + right. destruct (P n N) as [Hn I].
        assert (M : fst (move (sh g) (threads g n)) = sh g /\ passive (snd (move (sh g) (threads g n)))).
        { unfold RemoteConc.move. destruct I as [I|[r I]]; rewrite I; [|rewrite L; cbn; split; [reflexivity|split; [exact Hn|right; exists r; exact I]]].
          destruct (todo (threads g n)) as [|c l] eqn:T; cbn; [split; [reflexivity|split; auto]|]. split; [reflexivity|]. split; [reflexivity|].
          right. cbn. destruct (R n) as [_ R2]. rewrite (R2 c) by (rewrite T; left; reflexivity). unfold waits. cbn. eauto. }
        rewrite sh_step, (proj1 M). split; [exact L|]. exists h. rewrite at_step. destruct (Nat.eqb_spec h n); [congruence|]. split; [exact H|]. split; [exact A|].
        intros k NK. rewrite at_step. destruct (Nat.eqb k n); [apply M|apply P; exact NK].
  Qed.
  (** With the memory cache on, every call gets a right answer, in every schedule: if the server
      has weights for it now, it gets these or those that it had before. *)
  Theorem C144_locked m0 f0 c0 progs l n : quiet (mkShared m0 f0 c0 false) -> (forall k c, In c (progs k) -> c_locked c = true) ->
    forall c y, In (c, y) (results (threads (run (start m0 f0 c0 progs) l) n)) -> right_answer (c_req c) y.
  Proof.
    intros Q LK c y I. assert (H : locked_state progs (run (start m0 f0 c0 progs) l)).
    { apply (run_invariant (locked_state progs) (locked_step progs)). split; [intros k; repeat split; cbn; try discriminate|]. split; [intros k; split; cbn; [contradiction|apply LK]|].
      left. split; [reflexivity|]. split; [exact Q|]. intros k. split; [reflexivity|left; reflexivity]. }
    destruct H as (_ & R & _). exact (proj1 (R n) c y I).
  Qed.

  (** ** Without the lock: if nothing is missed *)
  Definition needs_nothing (v : version) (ck : bool) r : Prop := lookup v r <> None \/ ck = true.
  Definition calm (v : version) (ck : bool) t : Prop :=
    (forall c y, In (c, y) (results t) -> y = Ok (lookup v (c_req c))) /\ (forall c, In c (todo t) -> needs_nothing v ck (c_req c)) /\
    (forall c, doing t = Some c -> needs_nothing v ck (c_req c)) /\
    match at_ t with
    | Idle | Want _ | Enter _ | Find _ false => True
    | Check r => lookup v r = None
    | Done y => forall c, doing t = Some c -> y = Ok (lookup v (c_req c))
    | _ => False
    end.
  Lemma calm_move prog v ck s t : mem s = Some v -> checked s = ck -> book prog t -> calm v ck t ->
    mem (fst (move s t)) = Some v /\ checked (fst (move s t)) = ck /\ calm v ck (snd (move s t)).
  Proof.
    intros M C (_ & _ & BK & _) (R & T & D & A). unfold RemoteConc.move, calm. destruct t as [td p dg hd rs]. cbn [at_ todo doing holds results] in *. destruct p as [|r|r|r again|r again|r again|r again|r|r|r|r|y]; try contradiction.
    - destruct td as [|c l]; cbn; [auto 8|]. split; [exact M|]. split; [exact C|]. split; [exact R|]. split; [intros c' I; apply T; right; exact I|]. split; [intros c' E; injection E as <-; apply T; left; reflexivity|]. destruct (c_locked c); exact I.
    - destruct (lock s); cbn; auto 8.
    - cbn. rewrite M. auto 8.
    - destruct again; [contradiction|]. destruct (BK r eq_refl) as (c0 & E0 & E1). subst dg r. cbn. rewrite M. split; [reflexivity|]. split; [exact C|]. split; [exact R|]. split; [exact T|]. split; [exact D|].
      destruct (lookup v (c_req c0)) eqn:E; [intros c E2; injection E2 as <-; rewrite E; reflexivity|exact E].
    - destruct (BK r eq_refl) as (c0 & E0 & E1). subst dg r. cbn. destruct (D c0 eq_refl) as [N|N]; [contradiction|]. rewrite N in *. rewrite C. split; [exact M|]. split; [reflexivity|]. split; [exact R|]. split; [exact T|]. split; [exact D|].
      intros c E2. injection E2 as <-. rewrite A. reflexivity.
    - cbn. destruct hd; cbn; (split; [exact M|]; split; [exact C|]; split; [|split; [exact T|split; [discriminate|exact I]]]);
        intros c y' I; (destruct dg as [c0|]; [|exact (R c y' I)]); apply in_app_or in I; (destruct I as [I|[I|[]]]; [exact (R c y' I)|]); injection I as <- <-; exact (A c0 eq_refl).
  Qed.
  (** If the index is in memory, and has weights for every request made or was checked against the
      server already, every call is answered from it, in every schedule. *)
  Theorem C144_loaded v f0 ck progs l n : (forall k c, In c (progs k) -> lookup v (c_req c) <> None \/ ck = true) ->
    forall c y, In (c, y) (results (threads (run (start (Some v) f0 ck progs) l) n)) -> y = Ok (lookup v (c_req c)).
  Proof.
    intros H. set (I := fun g : state => mem (sh g) = Some v /\ checked (sh g) = ck /\ forall k, book (progs k) (threads g k) /\ calm v ck (threads g k)).
    assert (J : I (run (start (Some v) f0 ck progs) l)).
    { apply run_invariant.
      - intros g k (M & C & B). destruct (B k) as [B1 B2]. destruct (calm_move (progs k) v ck (sh g) (threads g k) M C B1 B2) as (M' & C' & K). split; [rewrite sh_step; exact M'|]. split; [rewrite sh_step; exact C'|].
        intros j. rewrite at_step. destruct (Nat.eqb_spec j k) as [->|]; [split; [apply move_book; exact B1|exact K]|apply B].
      - split; [reflexivity|]. split; [reflexivity|]. intros k. split; [repeat split; cbn; try discriminate|]. split; [cbn; contradiction|]. split; [cbn; intros c; apply H|]. split; [discriminate|exact Logic.I]. }
    destruct J as (_ & _ & B). intros c y X. exact (proj1 (proj2 (B n)) c y X).
  Qed.
  (** ** An index in the cache that has all that is asked for *)
  Definition at_rest (v : version) s : Prop := mem s = None \/ mem s = Some v.
  Definition within (v : version) s t : Prop :=
    match at_ t with
    | Enter _ => at_rest v s
    | Clear _ false | Path _ false | Open _ false => True
    | Find _ false => mem s = Some v
    | Done y => at_rest v s /\ forall c, doing t = Some c -> y = Ok (lookup v (c_req c))
    | _ => False
    end.
  Definition has_all (v : version) t : Prop :=
    (forall c y, In (c, y) (results t) -> y = Ok (lookup v (c_req c))) /\
    (forall c, In c (todo t) -> c_locked c = true /\ lookup v (c_req c) <> None) /\ (forall c, doing t = Some c -> lookup v (c_req c) <> None).
  Definition cached_state (v : version) (ck : bool) progs g : Prop :=
    file (sh g) = Some v /\ checked (sh g) = ck /\
    (forall k, book (progs k) (threads g k)) /\ (forall k, has_all v (threads g k)) /\
    ((lock (sh g) = false /\ at_rest v (sh g) /\ forall k, passive (threads g k)) \/
     (lock (sh g) = true /\ exists h, holds (threads g h) = true /\ within v (sh g) (threads g h) /\ forall k, k <> h -> passive (threads g k))).
  Lemma within_move prog v s t : book prog t -> has_all v t -> file s = Some v -> within v s t ->
    file (fst (move s t)) = Some v /\ checked (fst (move s t)) = checked s /\ has_all v (snd (move s t)) /\
    ((exists y, at_ t = Done y) \/
     (holds (snd (move s t)) = holds t /\ lock (fst (move s t)) = lock s /\ within v (fst (move s t)) (snd (move s t)))).
  Proof.
    intros (_ & _ & BK & _) (R & T & D) F A. unfold RemoteConc.move, within, has_all in *. destruct t as [td p dg hd rs]. cbn [at_ todo doing holds results] in *.
    destruct p as [|r|r|r again|r again|r again|r again|r|r|r|r|y]; try contradiction.
    - cbn. repeat split; auto; try (intros; apply T; assumption). right. repeat split. destruct A as [-> | ->]; cbn; [exact I|reflexivity].
    - destruct again; [contradiction|]. cbn. repeat split; auto; try (intros; apply T; assumption).
    - destruct again; [contradiction|]. cbn. rewrite F. cbn. repeat split; auto; try (intros; apply T; assumption).
    - destruct again; [contradiction|]. rewrite F. cbn. repeat split; auto; try (intros; apply T; assumption).
    - destruct again; [contradiction|]. destruct (BK r eq_refl) as (c0 & E0 & E1). subst dg r. cbn. repeat split; auto; try (intros; apply T; assumption). right. repeat split. rewrite A.
      destruct (lookup v (c_req c0)) as [w|] eqn:E; [|destruct (D c0 eq_refl E)]. split; [right; exact A|]. intros c E2. injection E2 as <-. rewrite E. reflexivity.
    - destruct A as [_ A]. cbn. split; [destruct hd; exact F|]. split; [destruct hd; reflexivity|]. split; [|left; eauto].
      split; [|split; [exact T|discriminate]]. intros c y' I. destruct dg as [c0|]; [|exact (R c y' I)]. apply in_app_or in I. destruct I as [I|[I|[]]]; [exact (R c y' I)|]. injection I as <- <-. exact (A c0 eq_refl).
  Qed.
  Lemma passive_move v s t : has_all v t -> passive t -> (at_ t = Idle \/ lock s = true) ->
    fst (move s t) = s /\ passive (snd (move s t)) /\ has_all v (snd (move s t)).
  Proof.
    intros (R & T & D) [H I] X. unfold RemoteConc.move, passive, has_all, waits in *. destruct t as [td p dg hd rs]. cbn [at_ todo doing holds results] in *. subst hd.
    destruct I as [-> | [r ->]].
    - destruct td as [|c l]; cbn; [repeat split; auto; intros; apply T; assumption|]. split; [reflexivity|]. destruct (T c (or_introl eq_refl)) as [-> N]. split; [split; [reflexivity|right; eauto]|].
      split; [exact R|]. split; [intros c' I; apply T; right; exact I|]. intros c' E. injection E as <-. exact N.
    - destruct X as [X|X]; [discriminate X|]. rewrite X. cbn. repeat split; eauto; intros; apply T; assumption.
  Qed.
  Lemma cached_step v ck progs g n : cached_state v ck progs g -> cached_state v ck progs (step g n).
  Proof.
    intros (F & C & B & R & S). unfold cached_state. rewrite !sh_step.
    assert (BB : forall k, book (progs k) (threads (step g n) k)) by (intros k; rewrite at_step; destruct (Nat.eqb_spec k n) as [->|]; auto; apply move_book; apply B).
    assert (RR : has_all v (snd (move (sh g) (threads g n))) -> forall k, has_all v (threads (step g n) k)) by (intros X k; rewrite at_step; destruct (Nat.eqb k n); auto).
    destruct S as [(L & Q & P)|(L & h & H & A & P)].
    - destruct (P n) as [Hn [I|[r I]]].
      + destruct (passive_move v (sh g) (threads g n) (R n) (P n) (or_introl I)) as (M1 & M2 & M3). rewrite M1. split; [exact F|]. split; [exact C|]. split; [exact BB|]. split; [exact (RR M3)|].
        left. split; [exact L|]. split; [exact Q|]. intros k. rewrite at_step. destruct (Nat.eqb k n); [exact M2|apply P].
      + assert (M : move (sh g) (threads g n) = (set_lock (sh g) true, mkThread (todo (threads g n)) (Enter r) (doing (threads g n)) true (results (threads g n)))) by (unfold RemoteConc.move; rewrite I, L; reflexivity).
        split; [rewrite M; exact F|]. split; [rewrite M; exact C|]. split; [exact BB|]. split; [apply RR; rewrite M; exact (R n)|]. right. split; [rewrite M; reflexivity|].
        exists n. rewrite at_step, Nat.eqb_refl, M. split; [reflexivity|]. split; [exact Q|]. intros k N. rewrite at_step. destruct (Nat.eqb_spec k n); [contradiction|apply P].
    - destruct (Nat.eq_dec n h) as [->|N].
      + destruct (within_move (progs h) v (sh g) (threads g h) (B h) (R h) F A) as (M1 & M2 & M3 & M4). split; [exact M1|]. split; [rewrite M2; exact C|]. split; [exact BB|]. split; [exact (RR M3)|].
        destruct M4 as [[y E]|(M4 & M5 & M6)].
        * left. unfold within in A. rewrite E in A. destruct A as [Q _].
          assert (M : fst (move (sh g) (threads g h)) = set_lock (sh g) false /\ passive (snd (move (sh g) (threads g h)))) by (unfold RemoteConc.move; rewrite E, H; cbn; repeat split; left; reflexivity).
          rewrite (proj1 M). split; [reflexivity|]. split; [exact Q|]. intros k. rewrite at_step. destruct (Nat.eqb_spec k h) as [->|NK]; [apply M|apply P; exact NK].
        * right. split; [rewrite M5; exact L|]. exists h. rewrite at_step, Nat.eqb_refl. split; [rewrite M4; exact H|]. split; [exact M6|]. intros k NK. rewrite at_step. destruct (Nat.eqb_spec k h); [contradiction|apply P; exact NK].
      + destruct (passive_move v (sh g) (threads g n) (R n) (P n N) (or_intror L)) as (M1 & M2 & M3). rewrite M1. split; [exact F|]. split; [exact C|]. split; [exact BB|]. split; [exact (RR M3)|].
        right. split; [exact L|]. exists h. rewrite at_step. destruct (Nat.eqb_spec h n); [congruence|]. split; [exact H|]. split; [exact A|]. intros k NK. rewrite at_step. destruct (Nat.eqb k n); [exact M2|apply P; exact NK].
  Qed.
  (** With the memory cache on, an index in the cache that has weights for every request is used as
      it is, though the server may have a newer one: all answers are from it, the file stays, and
      the server is not asked. *)
  Theorem C144_cached v m0 ck progs l n : m0 = None \/ m0 = Some v -> (forall k c, In c (progs k) -> c_locked c = true /\ lookup v (c_req c) <> None) ->
    let g := run (start m0 (Some v) ck progs) l in
    file (sh g) = Some v /\ checked (sh g) = ck /\ forall c y, In (c, y) (results (threads g n)) -> y = Ok (lookup v (c_req c)).
  Proof.
    intros M H g. assert (J : cached_state v ck progs g).
    { unfold g. apply (run_invariant (cached_state v ck progs) (cached_step v ck progs)). split; [reflexivity|]. split; [reflexivity|]. split; [intros k; repeat split; cbn; try discriminate|].
      split; [intros k; split; [cbn; contradiction|split; [apply H|discriminate]]|]. left. split; [reflexivity|]. split; [exact M|]. intros k. split; [reflexivity|left; reflexivity]. }
    destruct J as (J1 & J2 & _ & J3 & _). split; [exact J1|]. split; [exact J2|]. apply (J3 n).
  Qed.
End Any.

(** ** False as worded: schedules of two threads without the lock *)
(** Request 0 is in both indexes, request 1 was added on the server. *)
Definition d_old (r : nat) : option nat := match r with 0 => Some 5 | _ => None end.
Definition d_new (r : nat) : option nat := match r with 0 => Some 5 | 1 => Some 7 | _ => None end.
Definition ask (r : nat) (b : bool) : @call nat := mkCall r b.
Definition both (a b : nat) (lk : bool) (n : nat) : list (@call nat) := match n with 0 => [ask a lk] | 1 => [ask b lk] | _ => [] end.
(** Both ask for the new weights: the second is told that there are none, because the first has
    noted that the server was checked before it has the new index. *)
Theorem C144_missed_refuted : exists l, let g := run d_old d_new (start (Some Old) (Some Old) false (both 1 1 false)) l in
  results (threads g 0) = [(ask 1 false, Ok (Some 7))] /\ results (threads g 1) = [(ask 1 false, Ok None)] /\ ~ right_answer d_old d_new 1 (Ok None).
Proof.
  exists ([0; 0; 0; 0; 0] ++ [1; 1; 1; 1; 1] ++ [0; 0; 0; 0; 0; 0; 0]). split; [vm_compute; reflexivity|]. split; [vm_compute; reflexivity|]. intros [H|(w & H & _)]; [vm_compute in H; discriminate H|discriminate H].
Qed.
(** Weights that are in the memory, the cache and on the server are denied while another thread
    looks for new ones. *)
Theorem C144_lost_refuted : exists l, let g := run d_old d_new (start (Some Old) (Some Old) false (both 1 0 false)) l in
  results (threads g 0) = [(ask 1 false, Ok (Some 7))] /\ results (threads g 1) = [(ask 0 false, Ok None)] /\ ~ right_answer d_old d_new 0 (Ok None).
Proof.
  exists ([0; 0; 0; 0; 0; 0; 0; 0] ++ [1; 1; 1; 1; 1] ++ [0; 0; 0; 0]). split; [vm_compute; reflexivity|]. split; [vm_compute; reflexivity|]. intros [H|(w & H & E)]; [vm_compute in H; discriminate H|discriminate E].
Qed.
(** Both see that the index is out of date: the second deletes the file that the first has made
    and is about to open. *)
Theorem C144_gone_refuted : exists l, let g := run d_old d_new (start (Some Old) (Some Old) false (both 1 1 false)) l in
  results (threads g 0) = [(ask 1 false, Raise FileNotFoundError)] /\ results (threads g 1) = [(ask 1 false, Ok (Some 7))].
Proof.
  exists ([0; 0; 0; 0] ++ [1; 1; 1; 1; 1] ++ [0; 0; 0; 0; 0] ++ [1] ++ [0; 0] ++ [1; 1; 1; 1; 1; 1]). vm_compute. split; reflexivity.
Qed.

(** ** The hypotheses are met *)
Example C144_locked_met : quiet (mkShared (Some Old) (Some Old) false false) /\ (forall k c, In c (both 1 0 true k) -> c_locked c = true) /\
  exists l, let g := run d_old d_new (start (Some Old) (Some Old) false (both 1 0 true)) l in
  results (threads g 0) = [(ask 1 true, Ok (Some 7))] /\ results (threads g 1) = [(ask 0 true, Ok (Some 5))].
Proof.
  split; [repeat split; discriminate|]. split; [intros [|[|k]] c H; cbn in H; try contradiction; destruct H as [<-|[]]; reflexivity|].
  exists (repeat 0 5 ++ [1; 1; 1] ++ repeat 0 8 ++ repeat 1 8). vm_compute. split; reflexivity.
Qed.
Example C144_loaded_met : forall k c, In c (both 0 0 false k) -> lookup d_old d_new Old (c_req c) <> None \/ false = true.
Proof. intros [|[|k]] c H; cbn in H; try contradiction; destruct H as [<-|[]]; left; discriminate. Qed.
Example C144_cached_met : (forall k c, In c (both 0 0 true k) -> c_locked c = true /\ lookup d_old d_new Old (c_req c) <> None) /\
  let g := run d_old d_new (start None (Some Old) false (both 0 0 true)) (repeat 0 4 ++ [1; 1] ++ repeat 0 5 ++ repeat 1 8) in
  results (threads g 0) = [(ask 0 true, Ok (Some 5))] /\ results (threads g 1) = [(ask 0 true, Ok (Some 5))].
Proof. split; [intros [|[|k]] c H; cbn in H; try contradiction; destruct H as [<-|[]]; split; (reflexivity || discriminate)|vm_compute; split; reflexivity]. Qed.

Print Assumptions C144_never_wrong.
Print Assumptions C144_ends.
Print Assumptions C144_locked.
Print Assumptions C144_loaded.
Print Assumptions C144_cached.
Print Assumptions C144_missed_refuted.
Print Assumptions C144_lost_refuted.
Print Assumptions C144_gone_refuted.
