(** C148: a module that cannot be imported skips the tests that need it, and no others. *)
From Coq Require Import Lia.
From Verif Require Import PyBase Installed.
Local Open Scope string_scope.
Local Open Scope list_scope.

(** The modules in order: all before the first one that is not imported are, and that one decides. *)
Theorem C148_first import modules r tried : modules_installed import modules = (r, tried) <->
  (r = Value true /\ tried = modules /\ (forall m, In m modules -> import m = Imported)) \/
  (exists before m after, modules = before ++ m :: after /\ tried = before ++ [m] /\ (forall b, In b before -> import b = Imported) /\
     ((import m = Missing /\ r = Value false) \/ (exists e, import m = Broken e /\ r = Fails e) \/ (import m = Leaves /\ r = Exits))).
Proof.
  revert r tried. induction modules as [|m l IH]; intros r tried; cbn [modules_installed].
  - split.
    + intros E. injection E as <- <-. left. split; [reflexivity|]. split; [reflexivity|]. intros m [].
    + intros [(-> & -> & _)|(before & m & after & E & _)]; [reflexivity|]. destruct before; discriminate.
  - destruct (import m) as [| |e|] eqn:M.
    + destruct (modules_installed import l) as [r0 t0]. split.
      * intros E. injection E as <- <-. destruct (proj1 (IH r0 t0) eq_refl) as [(-> & -> & H)|(before & m1 & after & -> & -> & H & D)].
        -- left. split; [reflexivity|]. split; [reflexivity|]. intros m1 [<-|I]; [exact M|apply H, I].
        -- right. exists (m :: before), m1, after. split; [reflexivity|]. split; [reflexivity|]. split; [|exact D]. intros b [<-|I]; [exact M|apply H, I].
      * intros [(-> & -> & H)|(before & m1 & after & E & -> & H & D)].
        -- assert (X : (r0, t0) = (Value true, l)) by (apply IH; left; split; [reflexivity|]; split; [reflexivity|]; intros m1 I; apply H; right; exact I).
           injection X as -> ->. reflexivity.
        -- destruct before as [|b before].
           ++ cbn in E. injection E as <- <-. destruct D as [[D _]|[[e [D _]]|[D _]]]; congruence.
           ++ cbn in E. injection E as <- ->.
              assert (X : (r0, t0) = (r, before ++ [m1])).
              { apply IH. right. exists before, m1, after. split; [reflexivity|]. split; [reflexivity|]. split; [|exact D]. intros b I. apply H. right. exact I. }
              injection X as -> ->. reflexivity.
    + split.
      * intros E. injection E as <- <-. right. exists [], m, l. split; [reflexivity|]. split; [reflexivity|]. split; [intros b []|]. left. auto.
      * intros [(-> & -> & H)|(before & m1 & after & E & -> & H & D)]; [rewrite (H m (or_introl eq_refl)) in M; discriminate|].
        destruct before as [|b before]; cbn in E; injection E as <- E; [|rewrite (H m (or_introl eq_refl)) in M; discriminate].
        destruct D as [[_ ->]|[[e [D _]]|[D _]]]; [reflexivity|congruence|congruence].
    + split.
      * intros E. injection E as <- <-. right. exists [], m, l. split; [reflexivity|]. split; [reflexivity|]. split; [intros b []|]. right. left. exists e. auto.
      * intros [(-> & -> & H)|(before & m1 & after & E & -> & H & D)]; [rewrite (H m (or_introl eq_refl)) in M; discriminate|].
        destruct before as [|b before]; cbn in E; injection E as <- E; [|rewrite (H m (or_introl eq_refl)) in M; discriminate].
        destruct D as [[D _]|[[e' [D ->]]|[D _]]]; [congruence| |congruence]. rewrite M in D. injection D as <-. reflexivity.
    + split.
      * intros E. injection E as <- <-. right. exists [], m, l. split; [reflexivity|]. split; [reflexivity|]. split; [intros b []|]. right. right. auto.
      * intros [(-> & -> & H)|(before & m1 & after & E & -> & H & D)]; [rewrite (H m (or_introl eq_refl)) in M; discriminate|].
        destruct before as [|b before]; cbn in E; injection E as <- E; [|rewrite (H m (or_introl eq_refl)) in M; discriminate].
        destruct D as [[D _]|[[e [D _]]|[_ ->]]]; [congruence|congruence|reflexivity].
Qed.
(** The answer is yes just if all can be imported. *)
Theorem C148_all import modules : fst (modules_installed import modules) = Value true <-> forall m, In m modules -> import m = Imported.
Proof.
  destruct (modules_installed import modules) as [r tried] eqn:E. pose proof (proj1 (C148_first _ _ _ _) E) as D. cbn [fst]. split.
  - intros ->. destruct D as [(_ & _ & H)|(b & m & a & _ & _ & _ & [[_ X]|[[e [_ X]]|[_ X]]])]; [exact H|discriminate|discriminate|discriminate].
  - intros H. destruct D as [(-> & _)|(b & m & a & -> & _ & _ & D)]; [reflexivity|].
    assert (M : import m = Imported) by (apply H, in_or_app; right; left; reflexivity). destruct D as [[X _]|[[e [X _]]|[X _]]]; congruence.
Qed.
(** Loading the helpers: they are there, with both flags right, just if earthkit.data is there or
    missing and mir does not end the process; and a flag is up just if the module was not imported. *)
Theorem C148_load import a b : load import = Value (a, b) <->
  (import "earthkit.data" = Imported \/ import "earthkit.data" = Missing) /\ import "mir" <> Leaves /\
  (a = false <-> import "earthkit.data" = Imported) /\ (b = false <-> import "mir" = Imported).
Proof.
  unfold load, no_ekd, no_mir. cbn [modules_installed].
  destruct (import "earthkit.data") as [| |e|], (import "mir") as [| |e'|], a, b; cbn; intuition congruence.
Qed.
(** An earthkit.data that is there but cannot be imported breaks all tests that use the helpers,
    where the same with mir only skips those that need it. *)
Theorem C148_broken_refuted e : exists import import',
  import "earthkit.data" = Broken e /\ import "mir" = Imported /\ load import = Fails e /\
  import' "earthkit.data" = Imported /\ import' "mir" = Broken e /\ load import' = Value (false, true).
Proof.
  exists (fun m => if String.eqb m "mir" then Imported else Broken e), (fun m => if String.eqb m "mir" then Broken e else Imported).
  repeat split; reflexivity.
Qed.

(** ** The hypotheses are met *)
Example C148_met : load (fun m => if String.eqb m "mir" then Missing else Imported) = Value (false, true) /\
  modules_installed (fun m => if String.eqb m "b" then Missing else Imported) ["a"; "b"; "c"] = (Value false, ["a"; "b"]).
Proof. split; reflexivity. Qed.

Print Assumptions C148_first.
Print Assumptions C148_all.
Print Assumptions C148_load.
Print Assumptions C148_broken_refuted.
