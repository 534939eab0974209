(** Lemmas about threads looking up weights in one local inventory. *)
From Verif Require Import PyBase ListLemmas PyStr Float64 GridSpec GridVocab GridProofs GridProofs3 Index IndexSpec IndexProofs IndexProofs2 Db MemCache Inventory Regrid
  System SystemSpec SystemProofs DbConc.
Set Default Proof Using "Type".
Local Open Scope string_scope.
Local Open Scope list_scope.

Lemma put_length {T} k (x : T) l : List.length (put k x l) = List.length l.
Proof. revert k. induction l as [|y l IH]; intros [|k]; cbn; auto. Qed.
Lemma put_same {T} k (x d : T) l : (k < List.length l)%nat -> nth k (put k x l) d = x.
Proof. revert k. induction l as [|y l IH]; intros [|k] H; cbn in *; try lia; [reflexivity|apply IH; lia]. Qed.
Lemma put_other {T} k j (x d : T) l : j <> k -> nth j (put k x l) d = nth j l d.
Proof. revert j k. induction l as [|y l IH]; intros [|j] [|k] H; cbn in *; try reflexivity; try lia. apply IH. lia. Qed.
Lemma nth_app_left {T} k (l l' : list T) d : (k < List.length l)%nat -> nth k (l ++ l') d = nth k l d.
Proof. intros H. apply app_nth1. exact H. Qed.

Section Threads.
  Context {A rest : Type}.
  Variables (py_str : val -> string) (key_order : list string) (fuel : nat).
  Variable files : fs rest (csr A).
  Variable path : string.
  Notation first := (@IndexProofs.first rest py_str key_order fuel).
  Notation listed := (listed files path).
  Notation move := (move py_str key_order fuel files path).
  Notation step := (step py_str key_order fuel files path).
  Notation run := (run py_str key_order fuel files path).
  Notation thread := (@thread A rest).
  Notation shared := (@shared rest).
  Notation state := (@state A rest).
  Notation W := (weights A).
  Implicit Types (s : shared) (t : thread) (g : state) (c : call).

  Lemma local_listed : local_index path files = (l <- listed ;; Ok (fold_left load_item l [])).
  Proof.
    unfold local_index, DbConc.listed. destruct (read_index (join_path path "index.json") files) as [f|x|]; cbn [bind]; try reflexivity.
    unfold load. destruct (f_version f) as [v|]; [|reflexivity]. destruct (v =? VERSION)%Z; [|reflexivity]. destruct (f_matrix f); reflexivity.
  Qed.
  Lemma match_answer (e : entry rest) gi go m : snd (match_entry py_str key_order fuel e gi go m) = answer py_str key_order fuel e gi go m.
  Proof.
    pose proof (match_used py_str key_order fuel e e gi gi go go m (conj (used_refl fuel _) (conj (used_refl fuel _) (conj eq_refl eq_refl))) (used_refl fuel gi) (used_refl fuel go)) as M.
    destruct (match_entry py_str key_order fuel e gi go m) as [[[e' gi'] go'] r]. exact (proj1 M).
  Qed.
  Lemma first_app i j gi go m : first (i ++ j) gi go m = match first i gi go m with Ok None => first j gi go m | y => y end.
  Proof.
    induction i as [|[n e] i IH]; [reflexivity|]. cbn [app IndexProofs.first]. destruct (answer py_str key_order fuel e gi go m) as [[]|x|]; cbn [bind]; [reflexivity|exact IH|reflexivity|reflexivity].
  Qed.

  (** What a call gives when nobody else is there. *)
  Definition request_of c : result mreq := gi <- from_dict (c_in c) ;; go <- from_dict (c_out c) ;; Ok (gi, go, c_method c).
  Definition alone_req (r : mreq) : result (option W) :=
    let '(gi, go, m) := r in
    i <- local_index path files ;; o <- first i gi go (method_alias m) ;;
    match o with Some e => w <- load_weights files path e ;; Ok (Some w) | None => Ok None end.
  Definition alone c : result (option W) := r <- request_of c ;; alone_req r.
  Definition neat c : Prop := NoDup (akeys (c_in c)) /\ NoDup (akeys (c_out c)).
  Lemma again_ok c gi go m : neat c -> request_of c = Ok (gi, go, m) ->
    exists gi' go', from_dict (gd gi) = Ok gi' /\ from_dict (gd go) = Ok go' /\ same_spec gi' gi /\ same_spec go' go.
  Proof.
    intros [N1 N2] E. unfold request_of in E. destruct (from_dict (c_in c)) as [x|?|] eqn:E1; try discriminate E. destruct (from_dict (c_out c)) as [y|?|] eqn:E2; try discriminate E. injection E as -> -> <-.
    pose proof (idempotent _ _ N1 E1) as I1. pose proof (idempotent _ _ N2 E2) as I2. unfold same_result in I1, I2.
    destruct (from_dict (gd gi)) as [gi'|?|]; try contradiction. destruct (from_dict (gd go)) as [go'|?|]; try contradiction. exists gi', go'. auto.
  Qed.

  (** ** Every call is made once, in order *)
  Definition kept_book (p : list call) t : Prop :=
    map fst (results t) ++ match doing t with Some c => [c] | None => [] end ++ todo t = p /\ (at_ t = Idle -> doing t = None) /\ (at_ t <> Idle -> doing t <> None).
  Lemma move_book p s t : kept_book p t -> kept_book p (snd (move s t)).
  Proof.
    intros (E & I1 & I2). unfold DbConc.move. destruct (at_ t) as [|r|r b|r b|r b|r b k [|q l]|r b|[[gi go] m] b k|gi go [[x y] m] b k n i|e|y] eqn:AT;
      try (cbn; split; [exact E|]; split; [intros H; first [discriminate H|destruct (the_index s); discriminate H]|intros _; apply I2; discriminate]).
    - destruct (todo t) as [|c l] eqn:TD; [cbn; split; [rewrite TD; exact E|split; [intros _; exact (I1 eq_refl)|rewrite AT; intros H; exfalso; apply H; reflexivity]]|]. rewrite (I1 eq_refl) in E. cbn [app] in E.
      destruct (gi <- from_dict (c_in c) ;; go <- from_dict (c_out c) ;; Ok (gi, go, c_method c)) as [r|x|]; cbn; (split; [exact E|split; [intros H|intros _; discriminate]]); [destruct (c_locked c)|..]; discriminate H.
    - destruct (lock s); cbn; (split; [exact E|split; [|intros _; apply I2; discriminate]]); [rewrite AT|]; discriminate.
    - cbn. split; [exact E|]. split; [|intros _; apply I2; discriminate]. destruct listed; [destruct (the_index s)|..]; discriminate.
    - cbn. split; [exact E|]. split; [|intros _; apply I2; discriminate]. destruct (gi' <- from_dict (gd gi) ;; go' <- from_dict (gd go) ;; Ok (gi', go')) as [[a d]|?|]; discriminate.
    - cbn. split; [exact E|]. split; [|intros _; apply I2; discriminate]. destruct (Nat.eqb _ _); [|discriminate]. destruct (nth_error _ _) as [[q e]|]; [|destruct b; discriminate]. destruct (snd _) as [[]|?|]; discriminate.
    - cbn. split; [|split; [intros _; reflexivity|intros H; exfalso; apply H; reflexivity]]. destruct (doing t) as [c|] eqn:DO; [|exfalso; apply I2; [discriminate|reflexivity]]. cbn [results doing todo]. rewrite map_app, <- app_assoc. exact E.
  Qed.

  (** ** Nothing wrong is found *)
  Section Prefix.
    Hypothesis NL : forall l, listed = Ok l -> NoDup (akeys l).
    Definition items_ : list (string * raw rest) := match listed with Ok l => l | _ => [] end.
    Definition full : index rest := loaded items_.
    Lemma items_nodup : NoDup (akeys items_).
    Proof using NL. unfold items_. destruct listed as [l|x|]; [exact (NL l eq_refl)|constructor..]. Qed.
    Lemma full_listed l : listed = Ok l -> local_index path files = Ok full.
    Proof using NL.
      intros E. rewrite local_listed, E. cbn [bind]. unfold full, items_. rewrite E. rewrite (fold_load l [] (NL l E) (fun _ _ x => x)). reflexivity.
    Qed.
    Lemma loaded_prefix n : full = loaded (firstn n items_) ++ loaded (skipn n items_).
    Proof using Type. clear NL. unfold full. rewrite <- (firstn_skipn n items_) at 1. unfold loaded. apply flat_map_app. Qed.
    Lemma nodup_app_l {T} (l1 l2 : list T) : NoDup (l1 ++ l2) -> NoDup l1.
    Proof using Type. clear. induction l1 as [|a l1 IH]; [constructor|]. cbn. intros D. inversion D as [|? ? NI D']; subst. constructor; [intros J; apply NI, in_or_app; left; exact J|exact (IH D')]. Qed.
    (** Putting the next entry: one entry further, or nothing new. *)
    Lemma put_next (C : nat) pre p rem : items_ = pre ++ p :: rem -> (List.length pre <= C)%nat -> (C <= List.length items_)%nat ->
      load_item (loaded (firstn C items_)) p = loaded (firstn (Nat.max C (S (List.length pre))) items_).
    Proof using NL.
      clear py_str key_order fuel. intros E L1 L2. pose proof items_nodup as ND.
      assert (K : forall n, (n <= List.length items_)%nat -> loaded (firstn n items_) = fold_left load_item (firstn n items_) []).
      { intros n _. rewrite (fold_load (firstn n items_) []); [reflexivity| |intros k _ []]. rewrite <- (firstn_skipn n items_), akeys_app in ND. exact (nodup_app_l _ _ ND). }
      destruct (Nat.eq_dec (List.length pre) C) as [<-|NE].
      - rewrite Nat.max_r by lia. rewrite (K _ L2), (K (S (List.length pre))) by (rewrite E, app_length; cbn; lia). rewrite E.
        replace (S (List.length pre)) with (List.length (pre ++ [p]))%nat by (rewrite app_length; cbn; lia).
        replace (pre ++ p :: rem) with ((pre ++ [p]) ++ rem) by (rewrite <- app_assoc; reflexivity).
        rewrite (firstn_app (List.length (pre ++ [p]))), Nat.sub_diag, firstn_O, app_nil_r, firstn_all. rewrite <- app_assoc, firstn_app, Nat.sub_diag, firstn_O, app_nil_r, firstn_all. rewrite fold_left_app. reflexivity.
      - rewrite Nat.max_l by lia.
        assert (EF : exists r2, firstn C items_ = pre ++ p :: r2).
        { exists (firstn (C - S (List.length pre)) rem). rewrite E, firstn_app. rewrite firstn_all2 by lia. f_equal. destruct (C - List.length pre)%nat as [|q] eqn:Q; [lia|]. cbn [firstn]. f_equal. f_equal. lia. }
        destruct EF as [r2 EF]. rewrite EF. unfold load_item. destruct p as [nm rw]. cbn [fst snd]. destruct (load_entry nm rw) as [e|x|] eqn:LE; try reflexivity.
        assert (NP : ~ In nm (akeys pre)). { intros J. rewrite E, akeys_app in ND. cbn in ND. apply NoDup_remove_2 in ND. apply ND, in_or_app. left. exact J. }
        unfold loaded. rewrite flat_map_app. cbn [flat_map fst snd]. rewrite LE. cbn [app]. fold (loaded pre) (loaded r2).
        assert (NQ : ~ In nm (akeys (loaded pre))) by (intros J; exact (NP (loaded_keys pre nm J))). clear -NQ.
        induction (loaded pre) as [|[k v] l IH]; cbn [app aset akeys] in *.
        + unfold aset. cbn. rewrite String.eqb_refl. reflexivity.
        + cbn. destruct (String.eqb_spec nm k) as [<-|NE]; [exfalso; apply NQ; left; reflexivity|]. f_equal. apply IH. intros J. apply NQ. right. exact J.
    Qed.

    Definition fine c (y : result (option W)) : Prop := y = alone c \/ y = Ok None \/ y = Raise RuntimeError.
    Definition thread_fine (C : nat -> nat) s t : Prop :=
      match at_ t with
      | Idle => True
      | Done y => exists c, doing t = Some c /\ fine c y
      | Load e => exists c, doing t = Some c /\ alone c = (w <- load_weights files path e ;; Ok (Some w))
      | Want r | Enter r _ | New r _ => exists c, doing t = Some c /\ neat c /\ request_of c = Ok r
      | Open r _ | Got r _ => the_index s <> None /\ exists c, doing t = Some c /\ neat c /\ request_of c = Ok r
      | Fill r _ k rem => (k < List.length (heap s))%nat /\ (exists pre, items_ = pre ++ rem /\ (List.length pre <= C k)%nat) /\ exists c, doing t = Some c /\ neat c /\ request_of c = Ok r
      | Have r _ k => (k < List.length (heap s))%nat /\ exists c, doing t = Some c /\ neat c /\ request_of c = Ok r
      | Scan gi go r _ k n i => (k < List.length (heap s))%nat /\ let '(gi0, go0, m) := r in same_spec gi gi0 /\ same_spec go go0 /\ first (firstn i full) gi go (method_alias m) = Ok None /\
          exists c, doing t = Some c /\ neat c /\ request_of c = Ok r
      end.
    Definition heap_fine (C : nat -> nat) s : Prop :=
      (forall k, (k < List.length (heap s))%nat -> (C k <= List.length items_)%nat /\ object k s = loaded (firstn (C k) items_)) /\
      (forall k, the_index s = Some k -> (k < List.length (heap s))%nat).
    Definition more (C C' : nat -> nat) s s' : Prop :=
      (forall k, (k < List.length (heap s))%nat -> (C k <= C' k)%nat) /\ (List.length (heap s) <= List.length (heap s'))%nat /\ (the_index s <> None -> the_index s' <> None).
    Lemma more_same C s s' : heap s' = heap s -> the_index s' = the_index s -> more C C s s'.
    Proof using Type. clear NL. intros E1 E2. clear py_str key_order fuel. split; [intros; lia|]. rewrite E1, E2. split; [lia|auto]. Qed.
    Lemma more_fine C C' s s' t : more C C' s s' -> thread_fine C s t -> thread_fine C' s' t.
    Proof using Type.
      clear NL. intros (M1 & M2 & M3) H. unfold thread_fine in *. destruct (at_ t) as [|r|r b|r b|r b|r b k l|r b|[[gi go] m] b k|gi go [[x y] m] b k n i|e|y]; try exact H.
      - destruct H as [H1 H2]. auto.
      - destruct H as (K & (pre & E & L) & H). split; [lia|]. split; [exists pre; split; [exact E|specialize (M1 k K); lia]|exact H].
      - destruct H as [H1 H2]. auto.
      - destruct H as [K H]. split; [lia|exact H].
      - destruct H as [K H]. split; [lia|exact H].
    Qed.
    Lemma firstn_S {T} i (l : list T) x : nth_error l i = Some x -> firstn (S i) l = firstn i l ++ [x].
    Proof using Type. clear. revert l. induction i as [|i IH]; intros [|y l] E; try discriminate E; cbn in *; [injection E as ->; reflexivity|]. f_equal. exact (IH l E). Qed.
    Lemma first_decided i gi go m x nm e : nth_error full i = Some (nm, e) -> first (firstn i full) gi go m = Ok None ->
      answer py_str key_order fuel e gi go m = x -> first (firstn (S i) full) gi go m = (b <- x ;; if b then Ok (Some e) else Ok None).
    Proof using Type. clear NL. intros N F E. rewrite (firstn_S _ _ _ N), first_app, F. cbn. rewrite E. destruct x as [[]|?|]; reflexivity. Qed.
    Lemma first_stops i gi go m y : first (firstn i full) gi go m = y -> y <> Ok None -> first full gi go m = y.
    Proof using Type. clear NL. intros F N. rewrite <- (firstn_skipn i full), first_app, F. destruct y as [[e|]|x|]; try reflexivity. contradiction. Qed.
    Lemma found_listed (k : nat) s i nm e C : heap_fine C s -> (k < List.length (heap s))%nat -> nth_error (object k s) i = Some (nm, e) ->
      nth_error full i = Some (nm, e) /\ local_index path files = Ok full.
    Proof using NL.
      intros [HF _] K N. destruct (HF k K) as [CK E]. rewrite E in N. split.
      - rewrite (loaded_prefix (C k)). rewrite nth_error_app1; [exact N|]. apply nth_error_Some. rewrite N. discriminate.
      - assert (D : (exists l, listed = Ok l) \/ items_ = []) by (clear; unfold items_; destruct listed; eauto).
        destruct D as [(l & L)|D]; [exact (full_listed l L)|]. exfalso. rewrite D, firstn_nil in N. destruct i; discriminate N.
    Qed.
    Lemma alone_is c r : request_of c = Ok r -> alone c = alone_req r.
    Proof using Type. clear NL. intros E. unfold alone. rewrite E. reflexivity. Qed.
    Lemma alone_found c gi go gi0 go0 m y : request_of c = Ok (gi0, go0, m) -> same_spec gi gi0 -> same_spec go go0 -> local_index path files = Ok full ->
      first full gi go (method_alias m) = y -> alone c = (o <- y ;; match o with Some e => w <- load_weights files path e ;; Ok (Some w) | None => Ok None end).
    Proof using Type. clear NL. intros R S1 S2 L F. rewrite (alone_is c _ R). cbn. rewrite L. cbn [bind]. rewrite <- (first_same py_str key_order fuel full gi gi0 go go0 _ S1 S2), F. reflexivity. Qed.

    Lemma move_fine C s t s' t' : heap_fine C s -> thread_fine C s t -> Forall neat (todo t) -> move s t = (s', t') ->
      exists C', heap_fine C' s' /\ thread_fine C' s' t' /\ more C C' s s'.
    Proof using NL.
      intros HF TF NT E. unfold DbConc.move in E. unfold thread_fine in TF. destruct (at_ t) as [|r|r b|r b|r b|r b k [|q l]|r b|[[gi go] m] b k|gi go [[gi0 go0] m] b k n i|e|y] eqn:AT.
      - destruct (todo t) as [|c l]; [injection E as <- <-; exists C; split; [exact HF|split; [unfold thread_fine; rewrite AT; exact I|apply more_same; reflexivity]]|].
        inversion NT as [|? ? NC _]; subst. fold (request_of c) in E.
        destruct (request_of c) as [r|x|] eqn:RQ; injection E as <- <-; exists C; (split; [exact HF|split; [|apply more_same; reflexivity]]); unfold thread_fine; cbn.
        + destruct (c_locked c); exists c; auto.
        + exists c. split; [reflexivity|]. left. unfold alone. rewrite RQ. reflexivity.
        + exists c. split; [reflexivity|]. left. unfold alone. rewrite RQ. reflexivity.
      - destruct (lock s); injection E as <- <-; exists C; [split; [exact HF|split; [unfold thread_fine; rewrite AT; exact TF|apply more_same; reflexivity]]|].
        split; [exact HF|]. split; [exact TF|apply more_same; reflexivity].
      - injection E as <- <-. exists C. split; [exact HF|]. split; [|apply more_same; reflexivity]. unfold thread_fine. cbn. destruct (the_index s) eqn:TI; [split; [congruence|exact TF]|exact TF].
      - injection E as <- <-. exists (fun k => if Nat.eqb k (List.length (heap s)) then 0%nat else C k). split; [|split].
        + destruct HF as [HF1 HF2]. split; unfold object; cbn [heap the_index].
          * intros k K. rewrite app_length in K. cbn in K. destruct (Nat.eqb_spec k (List.length (heap s))) as [->|NE]; [split; [lia|]; rewrite app_nth2, Nat.sub_diag by lia; reflexivity|].
            assert (K' : (k < List.length (heap s))%nat) by lia. rewrite app_nth1 by exact K'. exact (HF1 k K').
          * intros k [= <-]. rewrite app_length. cbn. lia.
        + unfold thread_fine. cbn. split; [discriminate|exact TF].
        + split; cbn; [|split; [rewrite app_length; lia|discriminate]]. intros k K. destruct (Nat.eqb_spec k (List.length (heap s))); lia.
      - injection E as <- <-. exists C. split; [exact HF|]. split; [|apply more_same; reflexivity]. unfold thread_fine. cbn. destruct TF as [TN (c & D & NC & RQ)].
        destruct listed as [l|x|] eqn:L.
        + destruct (the_index s) as [k|] eqn:TI; [|contradiction]. split; [exact (proj2 HF k TI)|]. split; [|eauto]. exists []. unfold items_. rewrite L. cbn. split; [reflexivity|lia].
        + exists c. split; [exact D|]. left. rewrite (alone_is c r RQ). destruct r as [[gi go] m]. cbn. rewrite local_listed, L. reflexivity.
        + exists c. split; [exact D|]. left. rewrite (alone_is c r RQ). destruct r as [[gi go] m]. cbn. rewrite local_listed, L. reflexivity.
      - injection E as <- <-. exists C. split; [exact HF|]. split; [|apply more_same; reflexivity]. exact (proj2 (proj2 TF)).
      - injection E as <- <-. destruct TF as (K & (pre & EI & LP) & TC). pose proof HF as [HF1 HF2]. destruct (HF1 k K) as [CK OK].
        exists (fun j => if Nat.eqb j k then Nat.max (C k) (S (List.length pre)) else C j).
        assert (LI : (S (List.length pre) <= List.length items_)%nat) by (rewrite EI, app_length; cbn; lia). split; [|split].
        + split; unfold object; cbn [heap the_index]; [|intros j TJ; rewrite put_length; exact (HF2 j TJ)].
          intros j J. rewrite put_length in J. destruct (Nat.eqb_spec j k) as [->|NE]; [|rewrite put_other by exact NE; exact (HF1 j J)].
          split; [lia|]. rewrite put_same by exact K. unfold object in OK. rewrite OK. exact (put_next (C k) pre q l EI LP CK).
        + unfold thread_fine. cbn. rewrite put_length, Nat.eqb_refl. split; [exact K|]. split; [|exact TC]. exists (pre ++ [q]). rewrite <- app_assoc. split; [exact EI|]. rewrite app_length. cbn. lia.
        + split; cbn; [|split; [rewrite put_length; lia|auto]]. intros j J. destruct (Nat.eqb_spec j k) as [->|NE]; lia.
      - injection E as <- <-. exists C. split; [exact HF|]. split; [|apply more_same; reflexivity]. unfold thread_fine. cbn. destruct TF as [TN TC]. destruct (the_index s) as [k|] eqn:TI; [|contradiction]. split; [exact (proj2 HF k TI)|exact TC].
      - injection E as <- <-. exists C. split; [exact HF|]. split; [|apply more_same; reflexivity]. unfold thread_fine. cbn. destruct TF as [K (c & D & NC & RQ)].
        destruct (again_ok c gi go m NC RQ) as (gi' & go' & -> & -> & S1 & S2). cbn [bind]. split; [exact K|]. split; [exact S1|]. split; [exact S2|]. split; [reflexivity|eauto].
      - injection E as <- <-. exists C. split; [exact HF|]. split; [|apply more_same; reflexivity]. unfold thread_fine. cbn. destruct TF as (K & S1 & S2 & F & c & D & NC & RQ).
        destruct (Nat.eqb _ n); [|exists c; split; [exact D|right; right; reflexivity]]. destruct (nth_error (object k s) i) as [[nm e]|] eqn:N.
        + destruct (found_listed k s i nm e C HF K N) as [NF LF]. rewrite match_answer. pose proof (first_decided i gi go (method_alias m) _ nm e NF F eq_refl) as FD.
          destruct (answer py_str key_order fuel e gi go (method_alias m)) as [[]|x|]; cbn [bind] in FD.
          * exists c. split; [exact D|]. exact (alone_found c gi go gi0 go0 m _ RQ S1 S2 LF (first_stops _ _ _ _ _ FD ltac:(discriminate))).
          * split; [exact K|]. split; [exact S1|]. split; [exact S2|]. split; [exact FD|eauto].
          * exists c. split; [exact D|]. left. rewrite (alone_found c gi go gi0 go0 m _ RQ S1 S2 LF (first_stops _ _ _ _ _ FD ltac:(discriminate))). reflexivity.
          * exists c. split; [exact D|]. left. rewrite (alone_found c gi go gi0 go0 m _ RQ S1 S2 LF (first_stops _ _ _ _ _ FD ltac:(discriminate))). reflexivity.
        + destruct b; [exists c; split; [exact D|right; left; reflexivity]|exists c; auto].
      - injection E as <- <-. exists C. split; [exact HF|]. split; [|apply more_same; reflexivity]. unfold thread_fine. cbn. destruct TF as (c & D & AL). exists c. split; [exact D|]. left. symmetry. exact AL.
      - injection E as <- <-. exists C. destruct (holds t); (split; [exact HF|split; [exact I|apply more_same; reflexivity]]).
    Qed.
  End Prefix.
End Threads.
