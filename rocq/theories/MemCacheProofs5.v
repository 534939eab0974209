(** The size kept beside cached weights is the size of these weights. *)
From Verif Require Import PyBase ListLemmas MemCache MemCacheSpec MemCacheProofs MemCacheProofs2.
Set Default Proof Using "Type".
Local Open Scope string_scope.
Local Open Scope list_scope.
Local Open Scope Z_scope.

Section Sizes.
  Context {Req Ent W : Type} (key_of : Req -> string) (est_size : Ent -> Z) (size_of : W -> Z).
  Implicit Types (s : state W) (l : list (string * item W)).
  Definition sized s : Prop := forall k it, In (k, it) (items s) -> it_size it = size_of (it_data it).

  Lemma lru_sub l c t l' c' p : lru_reduce l c t = (l', c') -> In p l' -> In p l.
  Proof.
    revert c. induction l as [|[k it] l IH]; intros c H I; cbn in H; [injection H as <- <-; exact I|].
    destruct (c >=? t); [right; exact (IH _ H I)|]. injection H as <- <-. exact I.
  Qed.
  Lemma largest_sub n l c t l' c' p : largest_reduce n l c t = (l', c') -> In p l' -> In p l.
  Proof.
    revert l c. induction n as [|n IH]; intros l c H I; cbn in H; [injection H as <- <-; exact I|].
    destruct (largest l) as [[sz k]|]; [|injection H as <- <-; exact I]. destruct (c >=? t); [|injection H as <- <-; exact I].
    pose proof (IH _ _ H I) as J. destruct p as [x a]. apply aremove_In in J. exact (proj1 J).
  Qed.
  Lemma check_items p s : items (fst (check p s)) = items s.
  Proof. destruct p; reflexivity. Qed.
  Lemma reduce_sub t s p : In p (items (fst (reduce_ t s))) -> In p (items s).
  Proof.
    unfold reduce_. pose proof (check_items (pol s) s) as E. destruct (check (pol s) s) as [s1 [[]|e|]]; cbn [fst] in *; try (rewrite E; auto).
    destruct (negb (has_cache (pol s1))); [intros []|]. rewrite <- E. destruct (pol s1) eqn:P, (match t with None => max_mem s1 | Some t => Some t end) as [m|]; cbn [fst set_items items]; auto.
    - destruct (lru_reduce _ _ _) as [l' c'] eqn:R. cbn. exact (lru_sub _ _ _ _ _ _ R).
    - destruct (largest_reduce _ _ _ _) as [l' c'] eqn:R. cbn. exact (largest_sub _ _ _ _ _ _ _ R).
  Qed.
  Lemma reduce_sized t s : sized s -> sized (fst (reduce_ t s)).
  Proof. intros S k it I. exact (S k it (reduce_sub t s _ I)). Qed.
  Lemma pre_sized (i : inventory Req Ent W) (r : Req) s : sized s -> sized (fst (fst (create_with_pre_check est_size i r s))).
  Proof.
    intros S. unfold create_with_pre_check. destruct (i_find i r) as [[e|]|e|]; try exact S. destruct (max_mem s) as [m|]; [|exact S].
    destruct (_ && _); [|destruct (_ && _); exact S]. pose proof (reduce_sized (Some (m - est_size e)) s S) as R. destruct (reduce_ _ s) as [s1 [[]|x|]]; try exact R. destruct (_ && _); exact R.
  Qed.
  Lemma aset_sub k (v : item W) l p : In p (aset k v l) -> p = (k, v) \/ In p l.
  Proof.
    induction l as [|[k' a] l IH]; cbn; [intros [<-|[]]; auto|]. destruct (String.eqb k k') eqn:E; cbn.
    - apply String.eqb_eq in E. subst k'. intros [<-|I]; auto.
    - intros [<-|I]; auto. destruct (IH I); auto.
  Qed.
  Lemma get_sized (i : inventory Req Ent W) (r : Req) s : sized s -> sized (fst (fst (get key_of est_size size_of i r s))).
  Proof.
    intros S. unfold get. destruct (negb _); [exact S|]. destruct (alookup _ (items s)) as [it|] eqn:L.
    - intros k j I. cbn [fst items] in I. unfold move_to_end in I. apply in_app_or in I. destruct I as [I|[I|[]]]; [apply aremove_In in I; exact (S _ _ (proj1 I))|]. injection I as <- <-. apply (S (key_of r)). exact (alookup_In _ _ _ L).
    - assert (X : sized (fst (fst (if has_limit (pol s) then create_with_pre_check est_size i r s else (s, create_calls i r, create i r))))) by (destruct (has_limit _); [apply pre_sized; exact S|exact S]).
      destruct (if has_limit (pol s) then _ else _) as [[s1 calls] d]. cbn [fst] in X. destruct d as [[w|]|e|]; try exact X.
      match goal with |- context [reduce_ None ?s2] => assert (Y : sized s2) end.
      { intros k j I. cbn [items] in I. apply aset_sub in I. destruct I as [I|I]; [injection I as -> ->; reflexivity|exact (X _ _ I)]. }
      match goal with |- context [reduce_ None ?s2] => pose proof (reduce_sized None s2 Y) as Z; destruct (reduce_ None s2) as [s3 [[]|e|]]; exact Z end.
  Qed.
  Lemma update_sized c s : sized s -> sized (fst (update c s)).
  Proof.
    intros S. unfold update. cbv zeta.
    match goal with |- context [mkState (items ?s0) (max_mem ?s0) _ _ _ ?b _] => set (s2 := mkState (items s0) (max_mem s0) (curr_mem s0) (hits s0) (misses s0) b (pol s0)) end.
    assert (S2 : sized s2) by exact S.
    destruct (String.eqb _ _).
    - destruct (_ || _ || _); [apply reduce_sized; exact S2|exact S2].
    - destruct (make_policy (c_policy c)) as [p|]; [|exact S2]. pose proof (check_items p s2) as CI. destruct (check p s2) as [s' [[]|e|]]; cbn [fst] in CI.
      + match goal with |- context [reduce_ None ?s3] => assert (S3 : sized s3) by (unfold sized; cbn [items]; rewrite CI; exact S2) end.
        destruct (_ || _ || _); [apply reduce_sized; exact S3|exact S3].
      + cbn [fst]. unfold sized. rewrite CI. exact S2.
      + cbn [fst]. unfold sized. rewrite CI. exact S2.
  Qed.
  Lemma step_sized s (o : op Req Ent W) : sized s -> sized (fst (step key_of est_size size_of s o)).
  Proof.
    intros S. destruct o as [i r|c| |]; cbn.
    - pose proof (get_sized i r s S) as G. destruct (get _ _ _ i r s) as [[s' cl] d]. exact G.
    - pose proof (update_sized c s S) as G. destruct (update c s). exact G.
    - intros k it [].
    - exact S.
  Qed.
  Lemma fresh_sized : sized fresh.
  Proof. intros k it []. Qed.
  Lemma init_sized c : sized (fst (@init W c)).
  Proof. apply update_sized, fresh_sized. Qed.
  Lemma run_sized s (ops : list (op Req Ent W)) : sized s -> sized (fst (run key_of est_size size_of s ops)).
  Proof.
    revert s. induction ops as [|o ops IH]; intros s S; cbn; [exact S|]. pose proof (step_sized s o S) as X. destruct (step _ _ _ s o) as [s1 x]. cbn in X.
    specialize (IH s1 X). destruct (run _ _ _ s1 ops). exact IH.
  Qed.
  Lemma after_sized c (ops : list (op Req Ent W)) : sized (after key_of est_size size_of c ops).
  Proof. unfold after. apply run_sized, init_sized. Qed.
  (** The total of the sizes kept is that of the weights. *)
  Lemma total_sized s : sized s -> curr_mem_of (items s) = zsum (map (fun p => size_of (it_data (snd p))) (items s)).
  Proof.
    unfold sized, curr_mem_of. induction (items s) as [|[k it] l IH]; intros S; cbn; [reflexivity|]. rewrite (S k it) by (left; reflexivity). f_equal. apply IH. intros k' it' I. apply (S k'). right. exact I.
  Qed.
End Sizes.
