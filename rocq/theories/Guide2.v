(** The examples in the guide to the memory cache that ask for its state
    (docs/guide/misc/memory_cache.rst), as histories of MemCache.v. *)
From Verif Require Import PyBase MemCache.

Section Guide2.
  Context {Req Ent W : Type}.
  (** docs/guide/misc/memory_cache.rst:176-190: the options are set (the cache is told, C09), and the
      same regrid is done twice, between three calls of memory_cache_info.  Of regrid() only the
      request to the cache. *)
  Definition twice_example (c : mconf) (i : inventory Req Ent W) (r : Req) : list (op Req Ent W) :=
    [OpUpdate c; OpInfo; OpGet i r; OpInfo; OpGet i r; OpInfo].
  (** memory_cache.rst:114-116: the output printed there is of ten regrids with the same grids. *)
  Definition info_example (n : nat) (i : inventory Req Ent W) (r : Req) : list (op Req Ent W) := repeat (OpGet i r) n ++ [OpInfo].
  (** memory_cache.rst:129-131 *)
  Definition clear_example : list (op Req Ent W) := [OpClear; OpInfo].
End Guide2.
