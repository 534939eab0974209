(** Vocabulary for the statements about the disk cache. *)
From Verif Require Import PyBase Disk.
Local Open Scope string_scope.
Local Open Scope list_scope.
Local Open Scope Z_scope.

Section DiskSpec.
  Context {json : Type}.
  Notation row := (row json).
  Notation disk := (disk json).

  (** A path is a file of the directory itself. *)
  Definition inside (dir path : string) : Prop := exists name, path = (dir ++ "/" ++ name)%string /\ has_slash name = false /\ name <> "".
  (** [q] is a proper prefix of [p]. *)
  Definition extends (p q : string) : Prop := exists t, p = (q ++ t)%string /\ t <> "".

  (** An entry, its children, their children, ... *)
  Inductive below (rs : list row) (p : string) : string -> Prop :=
  | below_self : below rs p p
  | below_child r q : In r rs -> r_parent r = Some q -> below rs p q -> below rs p (r_path r).

  (** Tables and directories as the cache leaves them: one row per path, parents have shorter
      names, sizes are not negative, and everything is in the directory. *)
  Record tidy (dir : string) (d : disk) : Prop := {
    t_rows : NoDup (map r_path (rows d));
    t_files : NoDup (akeys (files d));
    t_parents : forall r q, In r (rows d) -> r_parent r = Some q -> extends (r_path r) q;
    t_sizes : forall r s, In r (rows d) -> r_size r = Some s -> 0 <= s;
    t_nodes : forall p n, In (p, n) (files d) -> 0 <= n_size n;
    t_inside : forall r, In r (rows d) -> inside dir (r_path r) }.

  (** Total size of the entries. *)
  Definition total_size (d : disk) : Z := zsum (map (fun r => match r_size r with Some s => s | None => 0 end) (rows d)).
  (** Bytes given back by going from [d] to [d']: entries that are gone and had a file. *)
  Definition gone (d' : disk) (r : row) : bool := negb (existsb (fun r' => String.eqb (r_path r') (r_path r)) (rows d')).
  Definition freed (d d' : disk) : Z :=
    zsum (map (fun r => match r_size r with Some s => s | None => 0 end)
      (filter (fun r => gone d' r && match alookup (r_path r) (files d) with Some _ => true | None => false end) (rows d))).

  (** [d'] is [d] without the entries [ps] and everything below them; their files are deleted
      too, and nothing else is touched. *)
  Record without (cannot : string -> bool) (d : disk) (ps : list string) (d' : disk) : Prop := {
    w_rows : exists f, rows d' = filter f (rows d);
    w_gone : forall r, In r (rows d) -> (~ In r (rows d') <-> exists p, In p ps /\ below (rows d) p (r_path r));
    w_files : exists g, files d' = filter g (files d);
    w_deleted : forall x, In x (akeys (files d)) -> ~ In x (akeys (files d')) ->
      cannot x = false /\ exists p, In p ps /\ below (rows d) p x;
    w_removed : forall x, In x ps \/ (exists r, In r (rows d) /\ r_path r = x /\ ~ In r (rows d')) -> cannot x = false -> ~ In x (akeys (files d')) }.
End DiskSpec.
