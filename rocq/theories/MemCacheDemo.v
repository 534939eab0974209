(** Concrete inventories and histories used by the Examples of Props_MemCache.v. *)
From Verif Require Import PyBase MemCache MemCacheSpec.

(** Requests are their own keys; an entry is the size of its weights; weights
    are a pair (inventory tag, size). *)
Definition dkey (r : string) : string := r.
Definition dest (e : Z * N) : Z := Z.of_N (snd e).
Definition dsize (w : Z * N) : Z := Z.of_N (snd w).
Lemma dsize_nonneg : forall w, 0 <= dsize w.
Proof. intros [t n]. unfold dsize. cbn. lia. Qed.

Definition dinv (tag : Z) (l : list (string * N)) : inventory string (Z * N) (Z * N) :=
  mkInv (fun r => Ok (match alookup r l with Some n => Some (tag, n) | None => None end))
        (fun e => Ok e).

Definition invA := dinv 1 [("a", 10%N); ("b", 20%N); ("c", 30%N); ("big", 200%N); ("full", 60%N); ("d", 35%N)]%string.
Definition invB := dinv 2 [("a", 10%N); ("b", 20%N)]%string.

Definition lru60 := mkConf (Some 60) false "lru".
Definition lru60s := mkConf (Some 60) true "lru".
Definition largest60 := mkConf (Some 60) false "largest".
Definition largest60s := mkConf (Some 60) true "largest".
Definition unl := mkConf (Some 60) false "unlimited".
Definition off_ := mkConf (Some 60) false "off".

Notation dop := (op string (Z * N) (Z * N)).
Definition g (r : string) : dop := OpGet invA r.
Notation dafter := (after dkey dest dsize).
Notation dtrace := (trace dkey dest dsize).
Notation dupdates_ok := (updates_ok dkey dest dsize).
Notation dget := (get dkey dest dsize).

(** Decide [updates_ok] on concrete histories. *)
Definition upd_okb (x : out string (Z * N) (Z * N)) : bool :=
  match x with OutUpdate (Ok _) => true | OutUpdate _ => false | _ => true end.
Lemma updates_okb c ops :
  snd (@init (Z * N) c) = Ok tt ->
  forallb (fun x => upd_okb (snd x)) (dtrace c ops) = true -> dupdates_ok c ops.
Proof.
  intros H1 H2. split; [exact H1|]. intros o r Hin.
  rewrite forallb_forall in H2. specialize (H2 _ Hin). cbn in H2.
  destruct r as [[]|e|]; [reflexivity|discriminate|discriminate].
Qed.
