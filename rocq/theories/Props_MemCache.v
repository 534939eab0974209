(** Properties C01-C12 and C65: the memory cache (utils/memcache.py).
    Vocabulary: MemCacheSpec.v.  Model: MemCache.v.
    In every statement [key_of] is the cache key of a request, [est_size] the size
    announced by an index entry, [size_of] the size of loaded weights. *)
From Verif Require Import PyBase ListLemmas MemCache MemCacheSpec.
From Verif Require Import MemCacheProofs MemCacheProofs2 MemCacheProofs3 MemCacheProofs4 MemCacheProofs5 MemCacheDemo.
From Coq Require Import Permutation.

Local Open Scope string_scope.
Local Open Scope list_scope.
Local Open Scope Z_scope.

(** Witnesses computed from the model. *)
Ltac witness t := let v := eval vm_compute in t in match v with (?s, ?c, Ok ?x) => exists s, c, x end.
Ltac witness1 t := let v := eval vm_compute in t in match v with (?s, ?c, Ok (Some ?x)) => exists s, c, x end.

Section Statements.
Context {Req Ent W : Type} (key_of : Req -> string) (est_size : Ent -> Z) (size_of : W -> Z).
Context (size_nonneg : forall w, 0 <= size_of w).
Notation after := (after key_of est_size size_of).
Notation trace := (trace key_of est_size size_of).
Notation updates_ok := (updates_ok key_of est_size size_of).
Notation get := (get key_of est_size size_of).

(** C01: the reported size is that of the weights held and the count is exact, after any history
    whatsoever, including operations that raise. *)
Theorem C01_accounting_exact : forall c (ops : list (op Req Ent W)),
  f_currsize (info (after c ops)) = zsum (map (fun p => size_of (it_data (snd p))) (items (after c ops))) /\
  f_currsize (info (after c ops)) = total_held (after c ops) /\
  f_count (info (after c ops)) = Z.of_nat (List.length (akeys (items (after c ops)))) /\
  NoDup (akeys (items (after c ops))).
Proof.
  intros c ops. destruct (after_inv _ _ _ key_of est_size size_of size_nonneg c ops) as (A & B & C).
  split; [cbn [info f_currsize]; rewrite A; apply total_sized, after_sized|]. split; [exact A|]. split; [|exact B].
  rewrite akeys_map, map_length. reflexivity.
Qed.

(** C02: whatever the history, as long as no configuration change raised, a limited
    cache is strictly below its maximum (or empty). *)
Theorem C02_bound : forall c (ops : list (op Req Ent W)) m,
  updates_ok c ops -> limited (after c ops) -> f_maxsize (info (after c ops)) = Some m ->
  f_currsize (info (after c ops)) < m \/ f_count (info (after c ops)) = 0.
Proof.
  intros c ops m HU HL HM.
  destruct (after_ginv _ _ _ key_of est_size size_of size_nonneg c ops HU) as (_ & _ & HB).
  unfold bounded in HB. cbn in *.
  destruct HL as [HL|HL]; rewrite HL in HB; destruct (HB m HM) as [?|E]; auto; right; rewrite E; reflexivity.
Qed.

(** C03: with one inventory, whatever the history (failing operations included), a
    get that returns gives what the inventory gives for that request.  The
    hypothesis says that requests with the same key mean the same to the inventory. *)
Theorem C03_transparent : forall i c (ops : list (op Req Ent W)) r s' cl x,
  (forall r1 r2, key_of r1 = key_of r2 -> create i r1 = create i r2) ->
  only_inventory i ops ->
  get i r (after c ops) = (s', cl, Ok x) -> create i r = Ok x.
Proof.
  intros i c ops r s' cl x HK HO H.
  exact (transparent _ _ _ key_of est_size size_of size_nonneg i c ops r s' cl (Ok x) HK HO H x eq_refl).
Qed.

(** C03, failures: a get fails only if the inventory fails, or strict mode refuses. *)
Theorem C03_failures : forall i c (ops : list (op Req Ent W)) r s' cl e,
  updates_ok c ops -> get i r (after c ops) = (s', cl, Raise e) ->
  create i r = Raise e \/
  (e = WeightsTooLarge /\ limited (after c ops) /\ strict (after c ops) = true /\
   exists ent m, i_find i r = Ok (Some ent) /\ max_mem (after c ops) = Some m /\ est_size ent > m).
Proof.
  intros i c ops r s' cl e HU H.
  exact (proj1 (get_failures _ _ _ key_of est_size size_of size_nonneg i r _ _ _ _
    (after_ginv _ _ _ key_of est_size size_of size_nonneg c ops HU) H) e eq_refl).
Qed.

(** C04: lru evicts in order of last use. *)
Theorem C04_lru_order : forall c (ops : list (op Req Ent W)) i r s' cl d,
  updates_ok c ops -> pol (after c ops) = PLru ->
  get i r (after c ops) = (s', cl, Ok d) ->
  forall k k', held (after c ops) k -> ~ held s' k -> held s' k' ->
    earlier (last_use key_of k (trace c (ops ++ [OpGet i r])))
            (last_use key_of k' (trace c (ops ++ [OpGet i r]))).
Proof. exact (lru_order _ _ _ key_of est_size size_of size_nonneg). Qed.

(** C04, no more than needed: the items kept are a tail of (old items, new item) in
    recency order, and keeping one more would reach the limit.  The announced size
    must be the real one. *)
Theorem C04_lru_minimal : forall c (ops : list (op Req Ent W)) i r m s' cl w e,
  updates_ok c ops -> pol (after c ops) = PLru -> max_mem (after c ops) = Some m ->
  ~ held (after c ops) (key_of r) ->
  get i r (after c ops) = (s', cl, Ok (Some w)) ->
  i_find i r = Ok (Some e) -> est_size e = size_of w ->
  exists evicted, items (after c ops) ++ [(key_of r, mkItem w (size_of w))] = evicted ++ items s' /\
    forall evicted' k it, evicted = evicted' ++ [(k, it)] -> it_size it + total_held s' >= m.
Proof.
  intros c ops i r m s' cl w e HU HP HM HK H HF HE.
  pose proof (after_ginv _ _ _ key_of est_size size_of size_nonneg c ops HU) as HG.
  destruct (lru_minimal _ _ _ key_of est_size size_of size_nonneg i r (after c ops) m s' cl w e HG HP HM
           (proj2 (alookup_None _ _) HK) H HF HE) as (pre & A & B).
  exists pre. split; [exact A|]. intros ev' k it E. specialize (B ev' k it E).
  pose proof (get_inv _ _ _ key_of est_size size_of _ _ _ _ _ _ size_nonneg (proj1 HG) H) as [(X & _) _].
  change (total_held s') with (curr_mem_of (items s')). rewrite <- X. exact B.
Qed.

(** C05: largest evicts in decreasing order of size (ties by key). *)
Theorem C05_largest_order : forall c (ops : list (op Req Ent W)) i r m s' cl w,
  updates_ok c ops -> pol (after c ops) = PLargest -> max_mem (after c ops) = Some m ->
  get i r (after c ops) = (s', cl, Ok (Some w)) ->
  (forall k z k' z', holds (after c ops) k z -> ~ held s' k ->
     holds (after c ops) k' z' -> held s' k' -> z' < z \/ (z' = z /\ str_leb k' k = true)) /\
  (~ held s' (key_of r) -> forall k' z', holds s' k' z' -> z' <= size_of w).
Proof.
  intros c ops i r m s' cl w HU.
  exact (largest_order _ _ _ key_of est_size size_of size_nonneg i r _ m s' cl w
    (after_ginv _ _ _ key_of est_size size_of size_nonneg c ops HU)).
Qed.

(** C05, no more than needed: any evicted item put back would reach the limit.
    Holds when the announced size is the real one and is not exactly the maximum
    (see C65_exact_fit_refuted for that case). *)
Theorem C05_largest_minimal_partial : forall c (ops : list (op Req Ent W)) i r m s' cl w e,
  updates_ok c ops -> pol (after c ops) = PLargest -> max_mem (after c ops) = Some m ->
  ~ held (after c ops) (key_of r) ->
  get i r (after c ops) = (s', cl, Ok (Some w)) ->
  i_find i r = Ok (Some e) -> est_size e = size_of w -> est_size e <> m ->
  (forall k z, holds (after c ops) k z -> ~ held s' k -> z + total_held s' >= m) /\
  (~ held s' (key_of r) -> size_of w + total_held s' >= m).
Proof.
  intros c ops i r m s' cl w e HU HP HM HK H HF HE HNE.
  pose proof (after_ginv _ _ _ key_of est_size size_of size_nonneg c ops HU) as HG.
  pose proof (get_inv _ _ _ key_of est_size size_of _ _ _ _ _ _ size_nonneg (proj1 HG) H) as [(X & _) _].
  change (total_held s') with (curr_mem_of (items s')). rewrite <- X.
  exact (largest_minimal _ _ _ key_of est_size size_of size_nonneg i r _ m s' cl w e HG HP HM
           (proj2 (alookup_None _ _) HK) H HF HE HNE).
Qed.

(** C06: strict mode refuses, without loading and without touching anything, exactly
    the weights whose announced size exceeds the maximum. *)
Theorem C06_strict : forall c (ops : list (op Req Ent W)) i r m e s' cl d,
  updates_ok c ops -> limited (after c ops) -> strict (after c ops) = true ->
  max_mem (after c ops) = Some m -> ~ held (after c ops) (key_of r) ->
  i_find i r = Ok (Some e) -> get i r (after c ops) = (s', cl, d) ->
  (est_size e > m -> s' = after c ops /\ cl = [CFind r] /\ d = Raise WeightsTooLarge) /\
  (est_size e <= m -> cl = [CFind r; CLoad e] /\ d = create i r).
Proof.
  intros c ops i r m e s' cl d HU.
  exact (strict_refuses _ _ _ key_of est_size size_of size_nonneg i r _ m e s' cl d
    (after_ginv _ _ _ key_of est_size size_of size_nonneg c ops HU)).
Qed.

(** C07: the statistics are the tally of the history. *)
Theorem C07_statistics : forall c (ops : list (op Req Ent W)), updates_ok c ops ->
  tally c (trace c ops) =
    (has_cache (pol (after c ops)), f_hits (info (after c ops)), f_misses (info (after c ops))).
Proof. exact (stats _ _ _ key_of est_size size_of size_nonneg). Qed.

(** C08: off keeps nothing and always consults the inventory. *)
Theorem C08_off : forall c (ops : list (op Req Ent W)),
  updates_ok c ops -> pol (after c ops) = POff ->
  items (after c ops) = [] /\ curr_mem (after c ops) = 0 /\
  forall i r, get i r (after c ops) = (after c ops, create_calls i r, create i r).
Proof. exact (off_nothing _ _ _ key_of est_size size_of size_nonneg). Qed.

(** C08: unlimited keeps everything it is given, until a clear or a policy change. *)
Theorem C08_unlimited : forall c (ops1 ops2 : list (op Req Ent W)),
  pol (after c ops1) = PUnlimited ->
  (forall o, In o ops2 -> match o with
     | OpClear => False | OpUpdate c' => c_policy c' = "unlimited"%string | _ => True end) ->
  (forall k z, holds (after c ops1) k z -> holds (after c (ops1 ++ ops2)) k z) /\
  (forall i r s' cl w, get i r (after c ops1) = (s', cl, Ok (Some w)) -> held s' (key_of r)).
Proof.
  intros c ops1 ops2 HP HK. split.
  - exact (unlimited_keeps _ _ _ key_of est_size size_of size_nonneg c ops1 ops2 HP HK).
  - intros i r s' cl w. exact (unlimited_adds _ _ _ key_of est_size size_of i r _ s' cl w HP).
Qed.

(** C09: after a configuration change that does not raise, the cache is as configured. *)
Theorem C09_follows_config : forall c0 c (ops : list (op Req Ent W)),
  updates_ok c0 (ops ++ [OpUpdate c]) ->
  let s := after c0 (ops ++ [OpUpdate c]) in
  f_policy (info s) = c_policy c /\
  match c_policy c with
  | "off"%string => f_maxsize (info s) = Some 0
  | "unlimited"%string => f_maxsize (info s) = None
  | _ => f_maxsize (info s) = c_max c /\ strict s = c_strict c
  end.
Proof. exact (follows_config _ _ _ key_of est_size size_of size_nonneg). Qed.

(** C09, and the usable configurations are accepted in every reachable state. *)
Theorem C09_accepts : forall c0 c (ops : list (op Req Ent W)),
  (c_policy c = "off" \/ c_policy c = "unlimited" \/
   (exists m, c_max c = Some m /\ 0 < m /\ (c_policy c = "lru" \/ c_policy c = "largest")))%string ->
  snd (update c (after c0 ops)) = Ok tt.
Proof.
  intros c0 c ops. apply good_limit. exact (after_inv _ _ _ key_of est_size size_of size_nonneg c0 ops).
Qed.

(** C10, the part that holds: after a clear, the inventory used alone since is the
    one that answers. *)
Theorem C10_isolated_after_clear_partial : forall i c (ops1 ops2 : list (op Req Ent W)) r s' cl x,
  (forall r1 r2, key_of r1 = key_of r2 -> create i r1 = create i r2) ->
  only_inventory i ops2 ->
  get i r (after c (ops1 ++ OpClear :: ops2)) = (s', cl, Ok x) -> create i r = Ok x.
Proof.
  intros i c ops1 ops2 r s' cl x HK HO H.
  exact (isolated_after_clear _ _ _ key_of est_size size_of size_nonneg i c ops1 ops2 r s' cl (Ok x) HK HO H x eq_refl).
Qed.

(** C11 holds for the largest policy. *)
Theorem C11_largest_oversize_partial : forall c (ops : list (op Req Ent W)) i r m e s' cl w,
  updates_ok c ops -> pol (after c ops) = PLargest -> max_mem (after c ops) = Some m ->
  ~ held (after c ops) (key_of r) -> get i r (after c ops) = (s', cl, Ok (Some w)) ->
  i_find i r = Ok (Some e) -> est_size e > m -> size_of w > m ->
  Permutation (items s') (items (after c ops)) /\ curr_mem s' = curr_mem (after c ops).
Proof.
  intros c ops i r m e s' cl w HU HP HM HK H HF.
  exact (largest_oversize _ _ _ key_of est_size size_of size_nonneg i r _ m s' cl w e
    (after_ginv _ _ _ key_of est_size size_of size_nonneg c ops HU) HP HM
    (proj2 (alookup_None _ _) HK) H HF).
Qed.

(** C12, what happens: a maximum of 0 or less is a ValueError, None is a TypeError
    (not the ValueError that the code intends). *)
Theorem C12_unusable_limit_partial : forall c0 c (ops : list (op Req Ent W)),
  updates_ok c0 ops -> (c_policy c = "lru" \/ c_policy c = "largest")%string ->
  match c_max c with
  | None => snd (update c (after c0 ops)) = Raise TypeError
  | Some m => m <= 0 -> snd (update c (after c0 ops)) = Raise ValueError
  end.
Proof.
  intros c0 c ops HU. apply bad_limit.
  exact (after_ginv _ _ _ key_of est_size size_of size_nonneg c0 ops HU).
Qed.

(** C65: weights smaller than the maximum are kept (lru, announced size real). *)
Theorem C65_kept_partial : forall c (ops : list (op Req Ent W)) i r m s' cl w e,
  updates_ok c ops -> pol (after c ops) = PLru -> max_mem (after c ops) = Some m ->
  get i r (after c ops) = (s', cl, Ok (Some w)) ->
  i_find i r = Ok (Some e) -> est_size e = size_of w -> size_of w < m ->
  held s' (key_of r).
Proof.
  intros c ops i r m s' cl w e HU.
  exact (lru_keeps_new _ _ _ key_of est_size size_of size_nonneg i r _ m s' cl w e
    (after_ginv _ _ _ key_of est_size size_of size_nonneg c ops HU)).
Qed.
End Statements.

(** C10 refuted: weights of inventory A are returned for a request to inventory B. *)
Theorem C10_inventories_isolated_refuted :
  exists (c : mconf) (ops : list dop) r s' cl x,
    dupdates_ok c ops /\
    dget invB r (dafter c ops) = (s', cl, Ok x) /\ create invB r <> Ok x.
Proof.
  exists lru60, [g "a"], "a"%string. witness (dget invB "a" (dafter lru60 [g "a"])).
  split; [apply updates_okb; vm_compute; reflexivity|]. split; [vm_compute; reflexivity|].
  vm_compute. discriminate.
Qed.

(** C11 refuted for lru: an oversize matrix empties the cache. *)
Theorem C11_oversize_refuted :
  exists (ops : list dop) s' cl w,
    dupdates_ok lru60 ops /\ strict (dafter lru60 ops) = false /\
    items (dafter lru60 ops) <> [] /\
    dget invA "big" (dafter lru60 ops) = (s', cl, Ok (Some w)) /\ items s' = [].
Proof.
  exists [g "a"; g "b"]. witness1 (dget invA "big" (dafter lru60 [g "a"; g "b"])).
  split; [apply updates_okb; vm_compute; reflexivity|]. split; [vm_compute; reflexivity|].
  split; [vm_compute; discriminate|]. split; vm_compute; reflexivity.
Qed.

(** C12 refuted: None raises TypeError, and the next gets then fail with TypeError. *)
Theorem C12_unusable_limit_refuted :
  exists (ops : list dop) c',
    dupdates_ok lru60 ops /\ c_policy c' = "lru"%string /\
    snd (update c' (dafter lru60 ops)) = Raise TypeError /\
    snd (dget invA "a" (fst (update c' (dafter lru60 ops)))) = Raise TypeError.
Proof.
  exists [], (mkConf None false "lru"). split; [apply updates_okb; vm_compute; reflexivity|].
  repeat split; vm_compute; reflexivity.
Qed.

(** C02/C09 need the hypothesis that no update raised: after a refused change the
    refused maximum stays in force unnoticed. *)
Theorem C12_refused_limit_stays_refuted :
  exists (ops : list dop) c' s1,
    dupdates_ok lru60 ops /\
    update c' (dafter lru60 ops) = (s1, Raise ValueError) /\
    max_mem s1 = Some 0 /\ 0 < curr_mem s1 /\
    update c' s1 = (s1, Ok tt).
Proof.
  exists [g "a"], (mkConf (Some 0) false "lru").
  let v := eval vm_compute in (fst (update (mkConf (Some 0) false "lru") (dafter lru60 [g "a"]))) in exists v.
  split; [apply updates_okb; vm_compute; reflexivity|]. repeat split; vm_compute; reflexivity.
Qed.

(** C65 refuted at the boundary: weights exactly as large as the maximum are not kept
    and empty the cache, with both limited policies. *)
Theorem C65_exact_fit_refuted :
  forall c, c = lru60 \/ c = largest60 ->
  exists (ops : list dop) s' cl w,
    dupdates_ok c ops /\ dget invA "full" (dafter c ops) = (s', cl, Ok (Some w)) /\
    max_mem s' = Some (dsize w) /\ items (dafter c ops) <> [] /\ items s' = [].
Proof.
  intros c [->| ->]; exists [g "a"; g "b"].
  - witness1 (dget invA "full" (dafter lru60 [g "a"; g "b"])).
    split; [apply updates_okb; vm_compute; reflexivity|]. split; [vm_compute; reflexivity|].
    split; [vm_compute; reflexivity|]. split; [vm_compute; discriminate|vm_compute; reflexivity].
  - witness1 (dget invA "full" (dafter largest60 [g "a"; g "b"])).
    split; [apply updates_okb; vm_compute; reflexivity|]. split; [vm_compute; reflexivity|].
    split; [vm_compute; reflexivity|]. split; [vm_compute; discriminate|vm_compute; reflexivity].
Qed.

Print Assumptions C01_accounting_exact.
Print Assumptions C02_bound.
Print Assumptions C03_transparent.
Print Assumptions C03_failures.
Print Assumptions C04_lru_order.
Print Assumptions C04_lru_minimal.
Print Assumptions C05_largest_order.
Print Assumptions C05_largest_minimal_partial.
Print Assumptions C06_strict.
Print Assumptions C07_statistics.
Print Assumptions C08_off.
Print Assumptions C08_unlimited.
Print Assumptions C09_follows_config.
Print Assumptions C09_accepts.
Print Assumptions C10_isolated_after_clear_partial.
Print Assumptions C11_largest_oversize_partial.
Print Assumptions C12_unusable_limit_partial.
Print Assumptions C65_kept_partial.
Print Assumptions C10_inventories_isolated_refuted.
Print Assumptions C11_oversize_refuted.
Print Assumptions C12_unusable_limit_refuted.
Print Assumptions C12_refused_limit_stays_refuted.
Print Assumptions C65_exact_fit_refuted.

(** Concrete cases meeting the hypotheses. *)
Definition h1 : list dop := [g "a"; g "b"; g "a"; g "zz"].

(* C01, C02, C03, C07: a history with misses, a hit and a not-found. *)
Example ex_h1 : dupdates_ok lru60 h1 /\ limited (dafter lru60 h1) /\ only_inventory invA h1 /\
  info (dafter lru60 h1) = mkInfo 1 3 (Some 60) 30 2 "lru".
Proof.
  split; [apply updates_okb; vm_compute; reflexivity|]. split; [left; vm_compute; reflexivity|]. split; [|vm_compute; reflexivity].
  intros j r H. repeat (destruct H as [H|H]; [inversion H; reflexivity|]). destruct H.
Qed.
Example ex_keys : forall r1 r2, dkey r1 = dkey r2 -> create invA r1 = create invA r2.
Proof. unfold dkey. intros. congruence. Qed.
(* C03 failures, C06: strict mode, oversize matrix. *)
Example ex_strict : dupdates_ok lru60s h1 /\ strict (dafter lru60s h1) = true /\
  ~ held (dafter lru60s h1) (dkey "big") /\
  snd (dget invA "big" (dafter lru60s h1)) = Raise WeightsTooLarge /\
  snd (dget invA "c" (dafter lru60s h1)) = Ok (Some (1, 30%N)).
Proof.
  split; [apply updates_okb; vm_compute; reflexivity|]. repeat split; try (vm_compute; reflexivity).
  vm_compute. intuition discriminate.
Qed.
(* C04: loading "c" evicts "b", the least recently used, and keeps "a". *)
Example ex_lru : dupdates_ok lru60 h1 /\ pol (dafter lru60 h1) = PLru /\
  exists s' cl w, dget invA "c" (dafter lru60 h1) = (s', cl, Ok (Some w)) /\
    held (dafter lru60 h1) "b" /\ ~ held s' "b" /\ held s' "a" /\
    dest (1, 30%N) = dsize w.
Proof.
  split; [apply updates_okb; vm_compute; reflexivity|]. split; [vm_compute; reflexivity|].
  witness1 (dget invA "c" (dafter lru60 h1)).
  split; [vm_compute; reflexivity|]. vm_compute. intuition discriminate.
Qed.
(* C05: the same history under "largest" evicts "b" and keeps "a" and the new "d". *)
Example ex_largest : dupdates_ok largest60 h1 /\ pol (dafter largest60 h1) = PLargest /\
  exists s' cl w, dget invA "d" (dafter largest60 h1) = (s', cl, Ok (Some w)) /\
    held (dafter largest60 h1) "b" /\ ~ held s' "b" /\ held s' "a" /\ held s' "d" /\
    dest (1, 35%N) = dsize w /\ dest (1, 35%N) <> 60.
Proof.
  split; [apply updates_okb; vm_compute; reflexivity|]. split; [vm_compute; reflexivity|].
  witness1 (dget invA "d" (dafter largest60 h1)).
  split; [vm_compute; reflexivity|]. vm_compute. intuition discriminate.
Qed.
(* C08: off and unlimited are reached by configuration changes. *)
Example ex_off : dupdates_ok lru60 (h1 ++ [OpUpdate off_]) /\ pol (dafter lru60 (h1 ++ [OpUpdate off_])) = POff.
Proof. split; [apply updates_okb; vm_compute; reflexivity|vm_compute; reflexivity]. Qed.
Example ex_unlimited : pol (dafter lru60 (h1 ++ [OpUpdate unl; g "big"])) = PUnlimited /\
  curr_mem (dafter lru60 (h1 ++ [OpUpdate unl; g "big"])) = 230.
Proof. split; vm_compute; reflexivity. Qed.
(* C09 *)
Example ex_config : dupdates_ok unl ([g "big"; g "a"; g "b"] ++ [OpUpdate largest60s]) /\
  info (dafter unl ([g "big"; g "a"; g "b"] ++ [OpUpdate largest60s])) = mkInfo 0 3 (Some 60) 30 2 "largest".
Proof. split; [apply updates_okb; vm_compute; reflexivity|vm_compute; reflexivity]. Qed.
(* C10 positive part *)
Example ex_clear : snd (dget invB "a" (dafter lru60 (h1 ++ OpClear :: []))) = Ok (Some (2, 10%N)).
Proof. vm_compute. reflexivity. Qed.
(* C11 positive part *)
Example ex_oversize : dupdates_ok largest60 h1 /\ ~ held (dafter largest60 h1) (dkey "big") /\
  exists s' cl w, dget invA "big" (dafter largest60 h1) = (s', cl, Ok (Some w)) /\ dsize w = 200 /\
   curr_mem s' = 30.
Proof.
  split; [apply updates_okb; vm_compute; reflexivity|]. split; [vm_compute; intuition discriminate|].
  witness1 (dget invA "big" (dafter largest60 h1)). repeat split; vm_compute; reflexivity.
Qed.
