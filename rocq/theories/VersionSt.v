(** Model of the version word without synchronisation, src/nodeversion.rs:989-1134
    (SingleThreadedNodeVersion and its guard).  The word is the whole state; a guard borrows it. *)
From Verif Require Import Base Prog Version.

(** nodeversion.rs:1063-1066 *)
Definition st_new (is_leaf : bool) : N := if is_leaf then ISLEAF_BIT else 0%N.
(** nodeversion.rs:1071-1087 *)
Definition st_is_leaf (w : N) : bool := negb (N.land w ISLEAF_BIT =? 0)%N.
Definition st_is_root (w : N) : bool := negb (N.land w ROOT_BIT =? 0)%N.
Definition st_is_deleted (w : N) : bool := negb (N.land w DELETED_BIT =? 0)%N.
(** nodeversion.rs:1092-1094 *)
Definition st_stable (w : N) : N := w.
(** nodeversion.rs:1099-1108 *)
Definition st_has_changed (w old : N) : bool := (N.lor LOCK_BIT INSERTING_BIT <? N.lxor old w)%N.
Definition st_has_split (w old : N) : bool := (VSPLIT_LOWBIT <=? N.lxor old w)%N.
(** nodeversion.rs:1112-1114: the lock is the guard, the word stays as it is *)
Definition st_lock (w : N) : N := w.
(** nodeversion.rs:1118-1126 *)
Definition st_mark_root (w : N) : N := N.lor w ROOT_BIT.
Definition st_mark_nonroot (w : N) : N := N.land w (wnot 32 ROOT_BIT).
(** the guard, nodeversion.rs:1036-1056 *)
Definition st_guard_mark_insert (w : N) : N := w.
Definition st_guard_mark_split (w : N) : N := N.lor w SPLITTING_BIT.
Definition st_guard_mark_deleted (w : N) : N := N.lor w (N.lor DELETED_BIT SPLITTING_BIT).
Definition st_guard_mark_nonroot (w : N) : N := N.land w (wnot 32 ROOT_BIT).
(** nodeversion.rs:1018-1031: dropping the guard is [v_st_unlock] (Version.v) *)
Definition st_guard_drop (w : N) : N := v_st_unlock w.
