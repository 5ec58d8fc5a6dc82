(** Model of leaf and internode methods that are public but not called by the tree: key
    matching and suffix compaction of a leaf, the insert position of an internode. *)
From Verif Require Import Base Perm Suffix Prog Version Mem Tree.

(** leaf24.rs:503-521 ksuf_compare, trait forwarding 1524-1526 *)
Definition ksuf_compare (p : N) (s : nat) (suf : bytes) : P (option comparison) :=
  kx <- keylenx p s ;;
  if (kx =? KSUF_KEYLENX)%N then
    b <- ksuf_ptr p ;;
    if (b =? 0)%N then Ret None else bag_ld b (fun bg => bag_compare bg s suf)
  else Ret None.
(** leaf24.rs:523-541 ksuf_matches, trait forwarding 1534-1536 *)
Definition ksuf_matches (p : N) (s : nat) (ik : N) (suf : bytes) : P bool :=
  r <- ikey p s ;;
  if (r =? ik)%N then
    match suf with
    | [] => kx <- keylenx p s ;; Ret (negb (kx =? KSUF_KEYLENX)%N)
    | _ => ksuf_equals p s suf
    end
  else Ret false.
(** leaf24.rs:543-581 ksuf_match_result, trait forwarding 1539-1541; the length class is
    loaded again by [has_ksuf] (326-328) *)
Definition ksuf_match_result (p : N) (s : nat) (kx : N) (suf : bytes) : P Z :=
  st <- keylenx p s ;;
  if (LAYER_KEYLENX <=? st)%N then Ret (-8)%Z
  else
    st2 <- keylenx p s ;;
    if negb (st2 =? KSUF_KEYLENX)%N then
      Ret (if (st =? kx)%N && match suf with [] => true | _ => false end then 1 else 0)%Z
    else
      match suf with
      | [] => Ret 0%Z
      | _ => eq <- ksuf_equals p s suf ;; Ret (if eq : bool then 1 else 0)%Z
      end.
(** leaf24.rs:583-611 compact_ksuf; copying and compacting the private new bag is one step *)
Definition compact_ksuf (p : N) (exclude : option nat) : P nat :=
  old <- ksuf_ptr p ;;
  if (old =? 0)%N then Ret 0
  else
    perm <- permutation p ;;
    r <- bag_ld old (fun bg => bag_compact_with (bag_clone bg) (active_slots perm) exclude) ;;
    np <- alloc_bag r.2 ;;
    set_ksuf_ptr p np ;;;
    retire (GBag old) ;;;
    Ret r.1.

(** leaf24.rs:1355-1414 split_all_to_right_preallocated ([q]: the freshly boxed leaf) *)
Definition split_all_to_right (F : nat) (p q : N) : P N :=
  src <- version p ;;
  (if v_is_locked src then leaf_up q (fun l => Some (tt, with_ver (v_new_for_split src) l))
   else Fail Panic) ;;;
  perm <- freeze_permutation F p ;;
  let size := perm_size perm in
  if Nat.ltb 0 size then
    for_each (seq 0 size) (move_entry p q perm 0) ;;;
    set_permutation q (perm_make_sorted size) ;;;
    set_permutation p perm_empty ;;;
    ikey q (perm_get (perm_make_sorted size) 0)
  else Fail Panic.

(** internode.rs:731-733 compare_key *)
Definition compare_key (p ik : N) (j : nat) : P comparison :=
  x <- inode_ikey p j ;; Ret (ik ?= x)%N.
(** internode.rs:746-763 find_insert_position; at most [n] rounds of the loop *)
Fixpoint insert_position_loop (n : nat) (p ik : N) (lo hi : nat) : P nat :=
  if Nat.ltb lo hi then
    match n with
    | 0 => Fail Fuel
    | S n =>
        let mid := (lo + hi) / 2 in
        x <- inode_ikey p mid ;;
        if (x <? ik)%N then insert_position_loop n p ik (mid + 1) hi
        else insert_position_loop n p ik lo mid
    end
  else Ret lo.
Definition find_insert_position (p ik : N) : P nat :=
  n <- nkeys p ;; insert_position_loop n p ik 0 n.
