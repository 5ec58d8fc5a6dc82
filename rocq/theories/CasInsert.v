(** Model of the lock-free insertion (src/tree/generic.rs:930-1266, which nothing calls: "CAS
    path disabled") and of the leaf methods it uses. *)
From Verif Require Import Base Perm Key Prog Version VersionTry Mem Tree Freeze.

(** generic.rs:38-43: the address of a static, which no allocation has; allocated addresses are
    even *)
Definition CLAIMING : N := 1.
(** leaf24.rs:698-712 ([None]: exchanged, [Some x]: the pointer found instead) *)
Definition cas_slot_value (p : N) (s : nat) (expected new : N) : P (option N) :=
  leaf_up p (fun l => o ← l_val l !! s;
    if (o =? expected)%N then x ← list_set (l_val l) s new; Some (None, with_val x l) else Some (Some o, l)).
(** leaf24.rs:733-740 *)
Definition store_key_data_for_cas (p : N) (s : nat) (ik kx : N) : P unit :=
  set_ikey p s ik ;;; set_keylenx p s kx.
Definition has_changed_or_locked (p old : N) : P bool := ver_has_changed_or_locked (rd_ver p) old.
(** slot.rs:281-286, 392-397: the handle is dropped at once *)
Definition cleanup_value_ptr (h : N) : P unit :=
  atomic (fun m => res_bind (reclaim1 (GVal h) m) (fun m => Ok (tt, m))).
(** generic.rs:93-125 pick_free_slot_avoiding_reserved, and the same loop at 1036-1052;
    [offs]: the offsets still to try *)
Fixpoint pick_free_slot (p perm ik : N) (offs : list nat) : P (option (nat * nat)) :=
  match offs with
  | [] => Ret None
  | off :: offs =>
      let s := perm_back_at_offset perm off in
      usable <- (if Nat.eqb s 0 then can_reuse_slot0 p ik else Ret true) ;;
      if usable : bool then
        vp <- val_ptr p s ;;
        if (vp =? 0)%N then Ret (Some (s, off)) else pick_free_slot p perm ik offs
      else pick_free_slot p perm ik offs
  end.

(** tree.rs:198-211 CasInsertResultGeneric *)
Inductive cas_res := CSuccess (old : option N) | CExists (s : nat) | CFull | CLayer (s : nat) | CSlot0 | CFallback.
(** generic.rs:933 MAX_CAS_RETRIES_GENERIC *)
Definition MAX_CAS_RETRIES : nat := 3.

(** generic.rs:964-1255, the loop of try_cas_insert_generic.  [at_]: the leaf to go on from
    ([None]: descend from the root; no parent is followed there, whatever the comment says);
    [k] has no suffix.  [backoff_generic] only spins. *)
Fixpoint cas_loop (F n : nat) (k : key) (v : N) (retries : nat) (at_ : option N) : P cas_res :=
  match n with
  | 0 => Fail Fuel
  | S n =>
      let again := if Nat.ltb MAX_CAS_RETRIES (S retries) then Ret CFallback else cas_loop F n k v (S retries) None in
      p <- match at_ with
           | Some p => Ret p
           | None => r <- load_root ;; reach_leaf F F r r (k_ikey k)
           end ;;
      '(q, exceeded) <- advance_by_bound F p (k_ikey k) ;;
      if exceeded : bool then Ret CFallback
      else if negb (q =? p)%N then cas_loop F n k v retries (Some q)
      else
      ver <- version p ;;
      dirty <- flag p v_is_dirty ;;
      if dirty : bool then Ret CFallback
      else
      pt <- permutation_try p ;;
      match pt with
      | None => stable F p ;;; Ret CFallback
      | Some perm =>
      sr <- search_for_insert p perm k ;;
      match sr with
      | Found s => Ret (CExists s)
      | Layer s | Conflict s => Ret (CLayer s)
      | NotFound pos =>
          if Nat.leb WIDTH (perm_size perm) then Ret CFull
          else
          fs <- pick_free_slot p perm (k_ikey k) (seq 0 (WIDTH - perm_size perm)) ;;
          match fs with
          | None => Ret CFallback
          | Some (s, off) =>
              let '(np, al) :=
                if Nat.eqb off 0 then perm_insert_from_back perm pos
                else perm_insert_from_back (perm_swap_free_slots perm (WIDTH - 1) (WIDTH - 1 - off)) pos in
              (if Nat.eqb al s then Ret tt else Fail Panic) ;;;
              c <- cas_slot_value p s 0 CLAIMING ;;
              match c with
              | Some _ => again
              | None =>
              ch <- has_changed_or_locked p ver ;;
              if ch : bool then cas_slot_value p s CLAIMING 0 ;;; again
              else
              store_key_data_for_cas p s (k_ikey k) (N.of_nat (key_current_len k)) ;;;
              ch <- has_changed_or_locked p ver ;;
              if ch : bool then cas_slot_value p s CLAIMING 0 ;;; again
              else
              h <- output_to_raw v ;;
              c <- cas_slot_value p s CLAIMING h ;;
              match c with
              | Some _ => Fail Panic (* the debug assertion *)
              | None =>
              vp <- val_ptr p s ;;
              if negb (vp =? h)%N then cleanup_value_ptr h ;;; again
              else
              ch <- has_changed_or_locked p ver ;;
              if ch : bool then cas_slot_value p s h 0 ;;; cleanup_value_ptr h ;;; again
              else
              c <- cas_permutation_raw p perm np ;;
              match c with
              | None => inc_count ;;; Ret (CSuccess None)
              | Some raw =>
                  cas_slot_value p s h 0 ;;; cleanup_value_ptr h ;;;
                  if is_frozen raw then Ret CFallback else again
              end
              end
              end
          end
      end
      end
  end.
(** generic.rs:941-962 try_cas_insert_generic *)
Definition try_cas_insert (F : nat) (kb : bytes) (v : N) : P cas_res :=
  match key_new kb with
  | None => Fail Panic
  | Some k => if key_has_suffix k then Ret CFallback else cas_loop F F k v 0 None
  end.
(** generic.rs:1543 "CAS fast path and locked fallback": how the two insertions are meant to be
    put together.  There is no such code; the locked insertion (Tree.v) is all of it today. *)
Definition insert_fast (F : nat) (kb : bytes) (v : N) : P ins_res :=
  r <- try_cas_insert F kb v ;;
  match r with
  | CSuccess old => Ret (IOk old)
  | _ => insert F kb v
  end.
