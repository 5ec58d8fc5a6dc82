(** Model of src/nodeversion.rs: the version word of a node (u32). *)
From Verif Require Import Base Prog.

(** nodeversion.rs:33-60 *)
Definition LOCK_BIT : N := 1.
Definition INSERTING_BIT : N := 2.
Definition SPLITTING_BIT : N := 4.
Definition DIRTY_MASK : N := 6.
Definition VINSERT_LOWBIT : N := 8.
Definition VSPLIT_LOWBIT : N := 512.
Definition UNUSED1_BIT : N := N.shiftl 1 28.
Definition DELETED_BIT : N := N.shiftl 1 29.
Definition ROOT_BIT : N := N.shiftl 1 30.
Definition ISLEAF_BIT : N := N.shiftl 1 31.
(** nodeversion.rs:63 and 66 *)
Definition SPLIT_UNLOCK_MASK : N := wnot 32 (N.lor (N.lor ROOT_BIT UNUSED1_BIT) (VSPLIT_LOWBIT - 1)).
Definition UNLOCK_MASK : N := wnot 32 (N.lor UNUSED1_BIT (VINSERT_LOWBIT - 1)).

(** nodeversion.rs:305-311 new *)
Definition v_new (is_leaf : bool) : N := if is_leaf then ISLEAF_BIT else 0%N.
Definition v_has (v bit : N) : bool := negb (N.land v bit =? 0)%N.
(** nodeversion.rs:331-375 flag accessors *)
Definition v_is_leaf (v : N) : bool := v_has v ISLEAF_BIT.
Definition v_is_root (v : N) : bool := v_has v ROOT_BIT.
Definition v_is_deleted (v : N) : bool := v_has v DELETED_BIT.
Definition v_is_locked (v : N) : bool := v_has v LOCK_BIT.
Definition v_is_inserting (v : N) : bool := v_has v INSERTING_BIT.
Definition v_is_splitting (v : N) : bool := v_has v SPLITTING_BIT.
Definition v_is_dirty (v : N) : bool := v_has v DIRTY_MASK.
(** nodeversion.rs:969-972 *)
Definition v_is_split_locked (v : N) : bool := (N.land v 5 =? 5)%N.
(** nodeversion.rs:493-510, 520-525 (and 541-543), 562-580: comparisons with an older word *)
Definition v_has_changed (old cur : N) : bool := (LOCK_BIT + INSERTING_BIT <? N.lxor old cur)%N.
Definition v_has_split (old cur : N) : bool := (VSPLIT_LOWBIT <=? N.lxor old cur)%N.
Definition v_has_changed_or_locked (old cur : N) : bool := v_has_changed old cur || v_is_dirty cur.
(** nodeversion.rs:622-628: the value installed by lock *)
Definition v_can_lock (v : N) : bool := (N.land v (N.lor LOCK_BIT DIRTY_MASK) =? 0)%N.
Definition v_locked (v : N) : N := N.lor (N.lor v LOCK_BIT) INSERTING_BIT.
(** nodeversion.rs:177-183: the value stored by dropping a guard; [+] is u32 addition *)
Definition v_unlock (lv : N) : N :=
  if v_is_splitting lv then N.land (wadd 32 lv VSPLIT_LOWBIT) SPLIT_UNLOCK_MASK
  else N.land (wadd 32 lv (wshl 32 (N.land lv INSERTING_BIT) 2)) UNLOCK_MASK.
(** nodeversion.rs:841-855 *)
Definition v_mark_root (v : N) : N := N.lor v ROOT_BIT.
Definition v_mark_nonroot (v : N) : N := N.land v (wnot 32 ROOT_BIT).
(** nodeversion.rs:891-913 *)
Definition v_new_for_split (src : N) : N := N.lor (N.lor (N.land src ISLEAF_BIT) LOCK_BIT) SPLITTING_BIT.
(** nodeversion.rs:951 *)
Definition v_unlock_for_split (lv : N) : N := N.land (wadd 32 lv VSPLIT_LOWBIT) SPLIT_UNLOCK_MASK.

(** nodeversion.rs:1018-1031, SingleThreadedLockGuard::drop *)
Definition v_st_unlock (v : N) : N :=
  if v_is_splitting v then N.land (wadd 32 v VSPLIT_LOWBIT) SPLIT_UNLOCK_MASK
  else N.land (wadd 32 v VINSERT_LOWBIT) UNLOCK_MASK.

(** The atomic operations, over a memory [M] in which the word can be read and
    written ([rd m = None]: the node does not exist). *)
Section Ops.
Context {M : Type} (rd : M -> option N) (wr : N -> M -> M).

Definition ver_load : prog M N :=
  atomic (fun m => match rd m with Some v => Ok (v, m) | None => Er UB end).
Definition ver_store (v : N) : prog M unit :=
  atomic (fun m => match rd m with Some _ => Ok (tt, wr v m) | None => Er UB end).
(** read-modify-write (fetch_or, fetch_and) *)
Definition ver_update (f : N -> N) : prog M unit :=
  atomic (fun m => match rd m with Some v => Ok (tt, wr (f v) m) | None => Er UB end).
Definition ver_cas (old new : N) : prog M bool :=
  atomic (fun m => match rd m with
                   | Some v => if (v =? old)%N then Ok (true, wr new m) else Ok (false, m)
                   | None => Er UB end).

(** nodeversion.rs:415-455 *)
Fixpoint ver_stable (fuel : nat) : prog M N :=
  match fuel with
  | 0 => Fail Fuel
  | S fuel => v <- ver_load ;; if v_is_dirty v then ver_stable fuel else Ret v
  end.
(** nodeversion.rs:605-674; the result is the guard's [locked_value].
    [compare_exchange_weak] may also fail spuriously, which only repeats the loop. *)
Fixpoint ver_lock (fuel : nat) : prog M N :=
  match fuel with
  | 0 => Fail Fuel
  | S fuel =>
      v <- ver_load ;;
      if v_can_lock v then
        ok <- ver_cas v (v_locked v) ;;
        if ok : bool then Ret (v_locked v) else ver_lock fuel
      else ver_lock fuel
  end.
(** nodeversion.rs:687-712 *)
Definition ver_try_lock : prog M (option N) :=
  v <- ver_load ;;
  if v_can_lock v then
    ok <- ver_cas v (v_locked v) ;;
    Ret (if ok : bool then Some (v_locked v) else None)
  else Ret None.
(** nodeversion.rs:216-232 *)
Definition guard_mark_insert (lv : N) : prog M N :=
  if v_is_inserting lv then Ret lv
  else v <- ver_load ;; ver_store (N.lor v INSERTING_BIT) ;;; Ret (N.lor lv INSERTING_BIT).
(** nodeversion.rs:249-262 *)
Definition guard_mark_split (lv : N) : prog M N :=
  v <- ver_load ;; ver_store (N.lor v SPLITTING_BIT) ;;; Ret (N.lor lv SPLITTING_BIT).
(** nodeversion.rs:271-283 *)
Definition guard_mark_deleted (lv : N) : prog M N :=
  v <- ver_load ;;
  let nv := N.lor (N.lor v DELETED_BIT) SPLITTING_BIT in
  ver_store nv ;;; Ret nv.
(** nodeversion.rs:287-295 *)
Definition guard_mark_nonroot (lv : N) : prog M N :=
  v <- ver_load ;; ver_store (v_mark_nonroot v) ;;; Ret (v_mark_nonroot lv).
(** nodeversion.rs:169-190 drop *)
Definition guard_drop (lv : N) : prog M unit := ver_store (v_unlock lv).
(** nodeversion.rs:841-855 *)
Definition ver_mark_root : prog M unit := ver_update v_mark_root.
Definition ver_mark_nonroot : prog M unit := ver_update v_mark_nonroot.
(** nodeversion.rs:936-961, with its two debug assertions *)
Definition ver_unlock_for_split : prog M unit :=
  lv <- ver_load ;;
  if v_is_locked lv && v_is_splitting lv then ver_store (v_unlock_for_split lv) else Fail Panic.
(** nodeversion.rs:493-525: one load, then compare *)
Definition ver_has_changed (old : N) : prog M bool := v <- ver_load ;; Ret (v_has_changed old v).
Definition ver_has_split (old : N) : prog M bool := v <- ver_load ;; Ret (v_has_split old v).
End Ops.
