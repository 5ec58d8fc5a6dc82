(** Descents without validation (reach_leaf_generic, reach_leaf_mut_generic) and the bulk
    slice comparison of a leaf. *)
From Verif Require Import Base Search Prog Version Mem Tree.

(** generic.rs:318-350 reach_leaf_via_internode_generic (prefetching left out) *)
Fixpoint reach_via_internode (n : nat) (p ik : N) : P N :=
  match n with
  | 0 => Fail Fuel
  | S n =>
      ci <- upper_bound_internode p ik ;;
      c <- child p ci ;;
      is_leaf <- flag c v_is_leaf ;;
      if is_leaf : bool then Ret c else reach_via_internode n c ik
  end.
(** generic.rs:289-309 reach_leaf_generic; [ik] is the current slice of the key *)
Definition reach_leaf_shared (F : nat) (ik : N) : P N :=
  r <- load_root ;;
  is_leaf <- flag r v_is_leaf ;;
  if is_leaf : bool then Ret r else reach_via_internode F r ik.

(** internode.rs:318-320 children_are_leaves *)
Definition children_are_leaves (p : N) : P bool := h <- height p ;; Ret (Nat.eqb h 0).
(** generic.rs:405-426 reach_leaf_mut_iterative_generic (prefetching left out) *)
Fixpoint reach_mut_iterative (n : nat) (p ik : N) : P N :=
  match n with
  | 0 => Fail Fuel
  | S n =>
      ci <- upper_bound_internode p ik ;;
      c <- child p ci ;;
      cl <- children_are_leaves p ;;
      if cl : bool then Ret c else reach_mut_iterative n c ik
  end.
(** generic.rs:358-398 reach_leaf_mut_generic *)
Definition reach_leaf_mut (F : nat) (ik : N) : P N :=
  r <- load_root ;;
  is_leaf <- flag r v_is_leaf ;;
  if is_leaf : bool then Ret r
  else
    ci <- upper_bound_internode r ik ;;
    c <- child r ci ;;
    cl <- children_are_leaves r ;;
    if cl : bool then Ret c else reach_mut_iterative F c ik.

(** leaf24.rs:264-272 load_all_ikeys: one load per slot, in order *)
Fixpoint load_ikeys_from (n i : nat) (p : N) : P (list N) :=
  match n with
  | 0 => Ret []
  | S n => x <- ikey p i ;; l <- load_ikeys_from n (i + 1) p ;; Ret (x :: l)
  end.
Definition load_all_ikeys (p : N) : P (list N) := load_ikeys_from WIDTH 0 p.
(** ksearch/simd_search.rs:55-61 find_ikey_matches_leaf24, on a processor with AVX2, with SSE2
    only, and with neither (simd.rs find_all_matches_u64) *)
Inductive cpu := Avx2 | Sse2 | Plain.
Definition find_all_matches (u : cpu) (ks : list N) (len : nat) (t : N) : N :=
  match u with Avx2 => find_all_avx2 ks len t | Sse2 => find_all_sse2 ks len t | Plain => find_all_scalar ks len t end.
Definition find_ikey_matches (u : cpu) (p t : N) : P N :=
  ks <- load_all_ikeys p ;; Ret (find_all_matches u ks WIDTH t).
