(** C146: threads that ask the same grid whether it is global. *)
From Verif Require Import PyBase Float64 GridSpec FlagConc.
Local Open Scope list_scope.
Local Open Scope nat_scope.
Set Default Proof Using "Type".

Section Any.
  Variable fuel : nat.
  Variable g : gspec.
  Notation move := (move fuel g). Notation step := (step fuel g). Notation run := (run fuel g). Notation start := (start g).
  Implicit Types (t : thread) (s : state) (m : option bool) (calls : nat -> nat).
  (** What a thread alone is told, and the memo it leaves (GridSpec.v). *)
  Notation alone := (snd (is_global_ew fuel g)).
  Notation left := (ew (fst (is_global_ew fuel g))).
  Definition resting s : Prop := forall n, at_ (threads s n) = Idle.

  Lemma at_step s n k : threads (step s n) k = if Nat.eqb k n then snd (move (memo s) (threads s n)) else threads s k.
  Proof. unfold FlagConc.step. destruct (move (memo s) (threads s n)). reflexivity. Qed.
  Lemma memo_step s n : memo (step s n) = fst (move (memo s) (threads s n)).
  Proof. unfold FlagConc.step. destruct (move (memo s) (threads s n)). reflexivity. Qed.
  Lemma run_invariant (I : state -> Prop) : (forall s n, I s -> I (step s n)) -> forall l s, I s -> I (run s l).
  Proof. intros S. induction l as [|n l IH]; intros s H; [exact H|]. cbn. apply IH, S, H. Qed.

  (** The two steps of a thread alone, as in GridSpec.v. *)
  Lemma alone_eq : is_global_ew fuel g =
    match ew g with
    | Some b => (g, Ok b)
    | None => match cls g with
              | LL | RGG => match limits fuel g with
                            | Ok (w, e) => match spans g w e with Ok b => (set_ew g b, Ok b) | r => (set_ew g false, r) end
                            | Raise x => (g, Raise x)
                            | OutOfFuel => (g, OutOfFuel)
                            end
              | _ => (g, Raise NotADirectoryError)
              end
    end.
  Proof. reflexivity. Qed.

  (** ** A thread alone *)
  Fixpoint iterate (n : nat) (p : option bool * thread) : option bool * thread := match n with 0 => p | S n => iterate n (move (fst p) (snd p)) end.
  Lemma iterated n s : memo (run s (repeat 0 n)) = fst (iterate n (memo s, threads s 0)) /\ threads (run s (repeat 0 n)) 0 = snd (iterate n (memo s, threads s 0)).
  Proof.
    revert s. induction n as [|n IH]; intros s; [auto|]. cbn [repeat iterate fst snd]. unfold FlagConc.run in *. cbn [fold_left]. destruct (IH (step s 0)) as [-> ->].
    rewrite memo_step, at_step. cbn [Nat.eqb]. destruct (move (memo s) (threads s 0)). auto.
  Qed.
  Lemma iterate_to n m t p : move m t = p -> iterate (S n) (m, t) = iterate n p.
  Proof. intros <-. reflexivity. Qed.
  Lemma rests n m y : iterate n (m, mkThread 0 Idle y) = (m, mkThread 0 Idle y).
  Proof. induction n as [|n IH]; [reflexivity|]. rewrite (iterate_to n _ _ (m, mkThread 0 Idle y)) by reflexivity. exact IH. Qed.
  (** One call of a thread alone is the function of GridSpec.v: the same answer, the same memo. *)
  Theorem C146_alone calls : calls 0 = 1 -> let s := run (start calls) (repeat 0 6) in
    results (threads s 0) = [alone] /\ memo s = left /\ at_ (threads s 0) = Idle /\ todo (threads s 0) = 0.
  Proof.
    intros C s. destruct (iterated 6 (start calls)) as [I1 I2]. fold s in I1, I2. rewrite I1, I2. clear I1 I2 s.
    change (memo (start calls)) with (ew g). change (threads (start calls) 0) with (mkThread (calls 0) Idle []). rewrite C, alone_eq.
    destruct (ew g) as [b|] eqn:E.
    - rewrite (iterate_to 5 _ _ (Some b, mkThread 0 Read [])) by reflexivity. rewrite (iterate_to 4 _ _ (Some b, mkThread 0 Idle [Ok b])) by reflexivity.
      rewrite rests. cbn. rewrite E. auto.
    - assert (D : (cls g = LL \/ cls g = RGG) \/ (cls g <> LL /\ cls g <> RGG)) by (destruct (cls g); auto; right; split; discriminate).
      destruct D as [D|[D1 D2]].
      + assert (M : move None (mkThread 1 Idle []) = (None, mkThread 0 Limits [])) by (unfold FlagConc.move; destruct D as [-> | ->]; reflexivity).
        rewrite (iterate_to 5 _ _ _ M).
        assert (X : match cls g with LL | RGG => match limits fuel g with
                            | Ok (w, e) => match spans g w e with Ok b => (set_ew g b, Ok b) | r => (set_ew g false, r) end
                            | Raise x => (g, Raise x) | OutOfFuel => (g, OutOfFuel) end | _ => (g, Raise NotADirectoryError) end =
                    match limits fuel g with
                            | Ok (w, e) => match spans g w e with Ok b => (set_ew g b, Ok b) | r => (set_ew g false, r) end
                            | Raise x => (g, Raise x) | OutOfFuel => (g, OutOfFuel) end) by (destruct D as [-> | ->]; reflexivity).
        rewrite X. clear X M. destruct (limits fuel g) as [[w e]|x|] eqn:L.
        * assert (M : move None (mkThread 0 Limits []) = (None, mkThread 0 (Reset w e) [])) by (unfold FlagConc.move; cbn [at_]; rewrite L; reflexivity).
          rewrite (iterate_to 4 _ _ _ M). rewrite (iterate_to 3 _ _ (Some false, mkThread 0 (Tests w e) [])) by reflexivity. clear M.
          destruct (spans g w e) as [[]|x|] eqn:S.
          -- rewrite (iterate_to 2 _ _ (Some false, mkThread 0 Mark [])) by (unfold FlagConc.move; cbn [at_]; rewrite S; reflexivity).
             rewrite (iterate_to 1 _ _ (Some true, mkThread 0 Read [])) by reflexivity. rewrite (iterate_to 0 _ _ (Some true, mkThread 0 Idle [Ok true])) by reflexivity. cbn. auto.
          -- rewrite (iterate_to 2 _ _ (Some false, mkThread 0 Read [])) by (unfold FlagConc.move; cbn [at_]; rewrite S; reflexivity).
             rewrite (iterate_to 1 _ _ (Some false, mkThread 0 Idle [Ok false])) by reflexivity. rewrite rests. cbn. auto.
          -- rewrite (iterate_to 2 _ _ (Some false, mkThread 0 Idle [Raise x])) by (unfold FlagConc.move; cbn [at_]; rewrite S; reflexivity). rewrite rests. cbn. auto.
          -- rewrite (iterate_to 2 _ _ (Some false, mkThread 0 Idle [OutOfFuel])) by (unfold FlagConc.move; cbn [at_]; rewrite S; reflexivity). rewrite rests. cbn. auto.
        * rewrite (iterate_to 4 _ _ (None, mkThread 0 Idle [Raise x])) by (unfold FlagConc.move; cbn [at_]; rewrite L; reflexivity). rewrite rests. cbn. rewrite E. auto.
        * rewrite (iterate_to 4 _ _ (None, mkThread 0 Idle [OutOfFuel])) by (unfold FlagConc.move; cbn [at_]; rewrite L; reflexivity). rewrite rests. cbn. rewrite E. auto.
      + assert (M : move None (mkThread 1 Idle []) = (None, mkThread 0 Idle [Raise NotADirectoryError])) by (unfold FlagConc.move; cbn [at_ todo]; destruct (cls g); reflexivity || contradiction).
        rewrite (iterate_to 5 _ _ _ M), rests. cbn [fst snd results at_ todo]. destruct (cls g); cbn [fst snd]; rewrite ?E; auto; contradiction.
  Qed.

  (** ** Any schedule *)
  Definition inside t : Prop := match at_ t with Tests _ _ | Mark => True | _ => False end.
  Definition may_be m : Prop := m = ew g \/ (ew g = None /\ (m = Some false \/ (m = Some true /\ alone = Ok true))).
  Definition told (y : result bool) : Prop := y = alone \/ (ew g = None /\ y = Ok false).
  Definition fine m t : Prop :=
    (forall y, In y (results t) -> told y) /\
    match at_ t with
    | Idle => True
    | Limits => ew g = None /\ (cls g = LL \/ cls g = RGG)
    | Reset w e => ew g = None /\ (cls g = LL \/ cls g = RGG) /\ limits fuel g = Ok (w, e)
    | Tests w e => m <> None /\ ew g = None /\ (cls g = LL \/ cls g = RGG) /\ limits fuel g = Ok (w, e)
    | Mark => ew g = None /\ alone = Ok true
    | Read => m <> None
    end.
  Lemma alone_limits w e : ew g = None -> (cls g = LL \/ cls g = RGG) -> limits fuel g = Ok (w, e) -> alone = spans g w e.
  Proof. intros E [K|K] L; rewrite alone_eq, E, K, L; destruct (spans g w e); reflexivity. Qed.
  Lemma alone_raises : ew g = None -> (cls g = LL \/ cls g = RGG) ->
    match limits fuel g with Ok _ => True | Raise x => alone = Raise x | OutOfFuel => alone = OutOfFuel end.
  Proof. intros E [K|K]; rewrite alone_eq, E, K; destruct (limits fuel g) as [[w e]|x|]; reflexivity || exact I. Qed.
  Lemma told_more t y : (forall z, In z (results t) -> told z) -> told y -> forall z, In z (results (answer t y)) -> told z.
  Proof. intros R Y z J. cbn in J. apply in_app_or in J. destruct J as [J|[<-|[]]]; auto. Qed.
  Lemma told_memo m b : may_be m -> m = Some b -> told (Ok b).
  Proof.
    intros [M|(E & [M|(M & A)])] B.
    - left. rewrite alone_eq, <- M, B. reflexivity.
    - right. split; [exact E|]. congruence.
    - left. rewrite A. congruence.
  Qed.
  Lemma move_fine m t : may_be m -> fine m t -> may_be (fst (move m t)) /\ fine (fst (move m t)) (snd (move m t)) /\ (m <> None -> fst (move m t) <> None).
  Proof.
    intros M [R A]. unfold FlagConc.move. destruct t as [td p rs]. unfold fine. cbn [at_ todo results] in *. destruct p as [| |w e|w e| |].
    - destruct td as [|n]; [cbn; auto|]. destruct m as [b|] eqn:Em; [cbn; repeat split; auto; discriminate|].
      assert (E : ew g = None) by (destruct M as [M|(E & _)]; congruence).
      destruct (cls g) eqn:K; cbn [fst snd]; (split; [exact M|]); (split; [|auto]); try (cbn; repeat split; auto; fail).
      all: split; [|exact I]; apply (told_more (mkThread n Idle rs)); [exact R|]; left; rewrite alone_eq, E, K; reflexivity.
    - destruct A as [E K]. pose proof (alone_raises E K) as X. destruct (limits fuel g) as [[w e]|x|] eqn:L; cbn [fst snd]; (split; [exact M|]); (split; [|auto]).
      + cbn. rewrite ?L. auto.
      + split; [|exact I]. apply (told_more (mkThread td Limits rs)); [exact R|]. left. symmetry. exact X.
      + split; [|exact I]. apply (told_more (mkThread td Limits rs)); [exact R|]. left. symmetry. exact X.
    - destruct A as (E & K & L). cbn. split; [right; split; [exact E|left; reflexivity]|]. split; [split; [exact R|]; split; [discriminate|auto]|discriminate].
    - destruct A as (N & E & K & L). pose proof (alone_limits w e E K L) as X. destruct (spans g w e) as [[]|x|] eqn:S; cbn [fst snd]; (split; [exact M|]); (split; [|auto]).
      + cbn. auto.
      + split; [exact R|exact N].
      + split; [|exact I]. apply (told_more (mkThread td (Tests w e) rs)); [exact R|]. left. symmetry. exact X.
      + split; [|exact I]. apply (told_more (mkThread td (Tests w e) rs)); [exact R|]. left. symmetry. exact X.
    - destruct A as [E X]. cbn. split; [right; split; [exact E|right; auto]|]. split; [split; [exact R|discriminate]|discriminate].
    - cbn [fst snd]. split; [exact M|]. split; [|auto]. split; [|exact I]. apply (told_more (mkThread td Read rs)); [exact R|]. destruct m as [b|]; [exact (told_memo (Some b) b M eq_refl)|destruct (A eq_refl)].
  Qed.
  Lemma fine_other m m' t : fine m t -> (m <> None -> m' <> None) -> fine m' t.
  Proof. intros [R A] H. split; [exact R|]. destruct (at_ t); auto. destruct A as [N A]. auto. Qed.
  Lemma run_fine calls l : let s := run (start calls) l in may_be (memo s) /\ forall n, fine (memo s) (threads s n).
  Proof.
    intros s. unfold s. apply (run_invariant (fun s => may_be (memo s) /\ forall n, fine (memo s) (threads s n))).
    - intros s0 n [M F]. destruct (move_fine (memo s0) (threads s0 n) M (F n)) as (M1 & M2 & M3). rewrite memo_step. split; [exact M1|].
      intros k. rewrite at_step. destruct (Nat.eqb k n); [exact M2|]. exact (fine_other _ _ _ (F k) M3).
    - split; [left; reflexivity|]. intros n. split; [intros y []|exact I].
  Qed.
  (** In every schedule, a call is answered as for a thread alone, or with False; with False only
      if the memo was not set at the start. *)
  Theorem C146_answers calls l n y : In y (results (threads (run (start calls) l) n)) -> y = alone \/ (ew g = None /\ y = Ok false).
  Proof. intros J. destruct (run_fine calls l) as [_ F]. exact (proj1 (F n) y J). Qed.
  (** If the memo is set (also by a constructor: default area, "global" given), or the grid is not
      global, every call is answered rightly. *)
  Theorem C146_known calls l n y b : ew g = Some b -> In y (results (threads (run (start calls) l) n)) -> y = Ok b.
  Proof. intros E J. destruct (C146_answers calls l n y J) as [->|[N _]]; [rewrite alone_eq, E; reflexivity|congruence]. Qed.
  Theorem C146_not_global calls l n y : alone = Ok false -> In y (results (threads (run (start calls) l) n)) -> y = Ok false.
  Proof. intros E J. destruct (C146_answers calls l n y J) as [->|[_ ->]]; [exact E|reflexivity]. Qed.

  (** ** When nobody is inside *)
  Lemma run_settles calls l : alone = Ok true -> let s := run (start calls) l in memo s = Some false -> exists n, inside (threads s n).
  Proof.
    intros X s.
    assert (J : (may_be (memo s) /\ forall n, fine (memo s) (threads s n)) /\ (memo s = Some false -> exists n, inside (threads s n))); [|apply J].
    unfold s. apply (run_invariant (fun s => (may_be (memo s) /\ forall n, fine (memo s) (threads s n)) /\ (memo s = Some false -> exists n, inside (threads s n)))).
    - intros s0 k [[M F] S]. split.
      { destruct (move_fine (memo s0) (threads s0 k) M (F k)) as (M1 & M2 & M3). rewrite memo_step. split; [exact M1|].
        intros j. rewrite at_step. destruct (Nat.eqb j k); [exact M2|]. exact (fine_other _ _ _ (F j) M3). }
      rewrite memo_step. intros E.
      assert (H : (memo s0 = Some false /\ (inside (threads s0 k) -> inside (snd (move (memo s0) (threads s0 k))))) \/ inside (snd (move (memo s0) (threads s0 k)))).
      { destruct (F k) as [_ A]. revert E. unfold FlagConc.move, inside. destruct (threads s0 k) as [td p rs]. cbn [at_ todo results] in *. destruct p as [| |w e|w e| |].
        - destruct td; [cbn; auto|]. destruct (memo s0) as [b|]; [cbn; intros E; left; auto|]. destruct (cls g); discriminate.
        - destruct (limits fuel g) as [[w e]|x|]; cbn; intros E; left; split; auto; intros [].
        - cbn. auto.
        - destruct A as (_ & E1 & K & L). rewrite (alone_limits w e E1 K L) in X. rewrite X. cbn. auto.
        - cbn. discriminate.
        - cbn. intros E. left. split; [exact E|intros []]. }
      destruct H as [[E0 H]|H]; [|exists k; rewrite at_step, Nat.eqb_refl; exact H]. destruct (S E0) as [j Ij]. exists j. rewrite at_step. destruct (Nat.eqb_spec j k) as [->|]; auto.
    - split; [split; [left; reflexivity|intros n; split; [intros y []|exact I]]|]. cbn. intros E. rewrite alone_eq, E in X. discriminate X.
  Qed.
  (** Whenever no thread is inside the function, the memo is not set, or is what a thread alone is
      told: no wrong answer stays. *)
  Theorem C146_settled calls l b : alone = Ok b -> let s := run (start calls) l in resting s -> memo s = None \/ memo s = Some b.
  Proof.
    intros X s R. destruct (run_fine calls l) as [M _]. fold s in M. destruct b.
    - destruct (memo s) as [[]|] eqn:E; auto. exfalso. destruct (run_settles calls l X) as [n J]; [exact E|]. fold s in J. unfold inside in J. rewrite (R n) in J. exact J.
    - destruct M as [M|(E & [M|(_ & A)])]; [|auto|congruence]. rewrite M. destruct (ew g) as [b|] eqn:E; [|auto]. right. rewrite alone_eq, E in X. cbn in X. congruence.
  Qed.

  (** ** One call at a time *)
  (** A thread moves only while the others are outside, as with the lock of the memory cache. *)
  Fixpoint exclusive s (l : list nat) : Prop :=
    match l with [] => True | n :: l => (forall k, k <> n -> at_ (threads s k) = Idle) /\ exclusive (step s n) l end.
  Definition serial (b : bool) s : Prop :=
    (may_be (memo s) /\ forall n, fine (memo s) (threads s n)) /\
    (forall n y, In y (results (threads s n)) -> y = Ok b) /\
    (forall n, at_ (threads s n) = Read -> memo s = Some b) /\
    (memo s = None \/ memo s = Some b \/ exists n, inside (threads s n)).
  Lemma serial_step b s n : alone = Ok b -> (forall k, k <> n -> at_ (threads s k) = Idle) -> serial b s -> serial b (step s n).
  Proof.
    intros X O ([M F] & R & RD & Q). split.
    { destruct (move_fine (memo s) (threads s n) M (F n)) as (M1 & M2 & M3). rewrite memo_step. split; [exact M1|].
      intros k. rewrite at_step. destruct (Nat.eqb k n); [exact M2|]. exact (fine_other _ _ _ (F k) M3). }
    assert (H : (forall y, In y (results (snd (move (memo s) (threads s n)))) -> y = Ok b) /\
                (at_ (snd (move (memo s) (threads s n))) = Read -> fst (move (memo s) (threads s n)) = Some b) /\
                (fst (move (memo s) (threads s n)) = None \/ fst (move (memo s) (threads s n)) = Some b \/ inside (snd (move (memo s) (threads s n))))).
    { pose proof (R n) as Rn. pose proof (RD n) as RDn. destruct (F n) as [_ A].
      assert (Q' : inside (threads s n) \/ memo s = None \/ memo s = Some b).
      { destruct Q as [Q|[Q|[k Q]]]; auto. destruct (Nat.eq_dec k n) as [->|N]; [auto|]. unfold inside in Q. rewrite (O k N) in Q. destruct Q. }
      clear Q R RD F O. unfold FlagConc.move, inside in *. destruct (threads s n) as [td p rs]. cbn [at_ todo results] in *.
      assert (AN : forall t y, results t = rs -> y = Ok b -> forall z, In z (results (answer t y)) -> z = Ok b).
      { intros t y E1 -> z J. cbn in J. rewrite E1 in J. apply in_app_or in J. destruct J as [J|[<-|[]]]; auto. }
      destruct p as [| |w e|w e| |].
      - destruct Q' as [[]|Q']. destruct td as [|k]; [cbn; split; [exact Rn|]; split; [discriminate|tauto]|]. destruct (memo s) as [x|] eqn:Em; [cbn; split; [exact Rn|]; split; [intros _; destruct Q'; congruence|tauto]|].
        assert (E : ew g = None) by (destruct M as [M|(E & _)]; congruence). rewrite alone_eq, E in X.
        destruct (cls g) eqn:K; cbn [fst snd]; try (discriminate X); cbn; (split; [exact Rn|]; split; [discriminate|auto]).
      - destruct Q' as [[]|Q']. destruct A as [E K]. pose proof (alone_raises E K) as Y. destruct (limits fuel g) as [[w e]|x|]; [|congruence|congruence]. cbn. split; [exact Rn|]. split; [discriminate|tauto].
      - cbn. split; [exact Rn|]. split; [discriminate|auto].
      - destruct A as (N & E & K & L). pose proof X as X0. rewrite (alone_limits w e E K L) in X. rewrite X. destruct b; cbn; (split; [exact Rn|]); [split; [discriminate|auto]|]. split.
        + intros _. destruct M as [M|(_ & [M|(M & Y)])]; [congruence|exact M|congruence].
        + right. left. destruct M as [M|(_ & [M|(M & Y)])]; [congruence|exact M|congruence].
      - destruct A as [E Y]. assert (b = true) as -> by congruence. cbn. split; [exact Rn|]. split; auto.
      - rewrite (RDn eq_refl). cbn [fst snd]. split; [apply AN; reflexivity|]. cbn. split; [discriminate|auto]. }
    destruct H as (H1 & H2 & H3). split; [|split].
    - intros k y. rewrite at_step. destruct (Nat.eqb_spec k n) as [->|N]; [apply H1|apply R].
    - intros k. rewrite at_step, memo_step. destruct (Nat.eqb_spec k n) as [->|N]; [apply H2|]. rewrite (O k N). discriminate.
    - rewrite memo_step. destruct H3 as [H3|[H3|H3]]; auto. right. right. exists n. rewrite at_step, Nat.eqb_refl. exact H3.
  Qed.
  (** With one call at a time every call is answered as for a thread alone. *)
  Theorem C146_locked calls l b : alone = Ok b -> exclusive (start calls) l -> forall n y, In y (results (threads (run (start calls) l) n)) -> y = Ok b.
  Proof.
    intros X. assert (J : forall l s, serial b s -> exclusive s l -> serial b (run s l)).
    { clear l. induction l as [|k l IH]; intros s S E; [exact S|]. destruct E as [E1 E2]. cbn. apply IH; [apply serial_step; assumption|exact E2]. }
    intros E n y. apply (J l (start calls)); [|exact E]. split; [split; [left; reflexivity|intros k; split; [intros z []|exact I]]|]. split; [intros k z []|]. split; [discriminate|].
    cbn. destruct (ew g) as [x|] eqn:W; [|auto]. right. left. rewrite alone_eq, W in X. cbn in X. congruence.
  Qed.

  (** ** Ending *)
  Definition work t : nat := 6 * todo t + match at_ t with Idle => 0 | Limits => 5 | Reset _ _ => 4 | Tests _ _ => 3 | Mark => 2 | Read => 1 end.
  Theorem C146_ends s n : (at_ (threads s n) = Idle /\ todo (threads s n) = 0) \/ work (threads (step s n) n) < work (threads s n).
  Proof.
    rewrite at_step, Nat.eqb_refl. unfold work, FlagConc.move. destruct (threads s n) as [td p rs]. cbn [at_ todo]. destruct p as [| |w e|w e| |].
    - destruct td as [|k]; [left; auto|]. right. destruct (memo s); [cbn; lia|]. destruct (cls g); cbn; lia.
    - right. destruct (limits fuel g) as [[w e]|x|]; cbn; lia.
    - right. cbn. lia.
    - right. destruct (spans g w e) as [[]|x|]; cbn; lia.
    - right. cbn. lia.
    - right. cbn. lia.
  Qed.
End Any.

(** ** False as worded *)
Local Open Scope string_scope.
(** The grid of one degree, its area given. *)
Definition world : dict := [("grid", VList [VInt 1; VInt 1]); ("area", VList [VInt 90; VInt 0; VInt (-90); VInt 359])].
Definition shifted : dict := [("grid", VList [VInt 1; VInt 1]); ("area", VList [VInt 90; VInt (-360); VInt (-90); VInt (-1)])].
(** Two threads ask the same grid; the second comes while the first has set the memo to False.  It
    is told that the grid is not global; with this answer the grid does not match a request that it
    matches for a thread alone. *)
Theorem C146_early_refuted : exists g h l,
  from_dict world = Ok g /\ from_dict shifted = Ok h /\ snd (is_global_ew 10 g) = Ok true /\
  (let s := run 10 g (start g (fun n => if Nat.ltb n 2 then 1 else 0)) l in results (threads s 0) = [Ok true] /\ results (threads s 1) = [Ok false] /\ memo s = Some true) /\
  snd (eq (fun _ => "") COMPARE_KEYS 10 g h) = Ok true /\ snd (eq (fun _ => "") COMPARE_KEYS 10 (set_ew g false) h) = Ok false.
Proof.
  eexists. eexists. exists [0; 0; 0; 1; 1; 0; 0; 0]%nat. split; [vm_compute; reflexivity|]. split; [vm_compute; reflexivity|]. split; [vm_compute; reflexivity|].
  split; [vm_compute; auto|]. split; vm_compute; reflexivity.
Qed.

(** ** The hypotheses are met *)
Example C146_met : exists g, from_dict world = Ok g /\ ew g = None /\ snd (is_global_ew 10 g) = Ok true /\
  let s := run 10 g (start g (fun n => if Nat.ltb n 2 then 1 else 0)) [0; 1; 0; 1; 0; 0; 0; 1; 1; 1; 1; 0]%nat in
  results (threads s 0) = [Ok true] /\ results (threads s 1) = [Ok true].
Proof. eexists. split; [vm_compute; reflexivity|]. split; [reflexivity|]. split; [vm_compute; reflexivity|vm_compute; auto]. Qed.
Example C146_locked_met : exists g, from_dict world = Ok g /\ snd (is_global_ew 10 g) = Ok true /\ exclusive 10 g (start g (fun n => if Nat.ltb n 2 then 1 else 0)) [0; 0; 0; 0; 0; 0; 1; 1]%nat.
Proof. eexists. split; [vm_compute; reflexivity|]. split; [vm_compute; reflexivity|]. cbn [exclusive]. repeat split; intros [|[|k]] N; try reflexivity; destruct (N eq_refl). Qed.
Example C146_not_global_met : exists g, from_dict [("grid", VList [VInt 1; VInt 1]); ("area", VList [VInt 70; VInt 0; VInt 20; VInt 40])] = Ok g /\ ew g = None /\ snd (is_global_ew 10 g) = Ok false.
Proof. eexists. split; [vm_compute; reflexivity|]. split; [reflexivity|vm_compute; reflexivity]. Qed.
Example C146_known_met : exists g, from_dict [("grid", VList [VInt 1; VInt 1])] = Ok g /\ ew g = Some true.
Proof. eexists. split; [vm_compute; reflexivity|reflexivity]. Qed.

Print Assumptions C146_alone.
Print Assumptions C146_answers.
Print Assumptions C146_known.
Print Assumptions C146_not_global.
Print Assumptions C146_settled.
Print Assumptions C146_locked.
Print Assumptions C146_ends.
Print Assumptions C146_early_refuted.
