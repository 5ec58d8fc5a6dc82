(** Properties C13, C14, C15, C16. *)
From Verif Require Import Base Perm PermFacts PermList SpecPerm PermLaws.

Theorem C13_always_permutation : forall start ops,
  (start = p_empty P24 \/ exists n, n <= 24 /\ start = p_make_sorted P24 n) ->
  ops_pre P24 start ops ->
  is_permutation P24 (fold_left (op_apply P24) ops start).
Proof. exact (ops_permutation P24 P24_ok). Qed.
Print Assumptions C13_always_permutation.

Example C13_example :
  ops_pre P24 (p_empty P24)
    [OInsert 0; OInsert 0; OInsert 1; ORemove 1; OSwapFree 22 23; OInsert 2; ORotate 1 3;
     OExchange 0 23; ORemoveToBack 0; OSetSize 7].
Proof. vm_compute. repeat split; lia. Qed.

(** the code's own validity check accepts exactly the permutations *)
Theorem C13_debug_valid_exact : forall v, p_valid P24 v = true <-> is_permutation P24 v.
Proof. exact (valid_iff P24). Qed.
Print Assumptions C13_debug_valid_exact.

Theorem C14_empty : empty_law P24.
Proof. exact (empty_law_holds P24 P24_ok). Qed.
Print Assumptions C14_empty.
Theorem C14_make_sorted : make_sorted_law P24 (p_make_sorted P24).
Proof. exact (make_sorted_law_holds P24 P24_ok). Qed.
Print Assumptions C14_make_sorted.
Theorem C14_insert_from_back : insert_law P24.
Proof. exact (insert_law_holds P24 P24_ok). Qed.
Print Assumptions C14_insert_from_back.
Theorem C14_remove : remove_law P24.
Proof. exact (remove_law_holds P24 P24_ok). Qed.
Print Assumptions C14_remove.
Theorem C14_remove_to_back : remove_to_back_law P24.
Proof. exact (remove_to_back_law_holds P24 P24_ok). Qed.
Print Assumptions C14_remove_to_back.
Theorem C14_exchange : exchange_law P24.
Proof. exact (exchange_law_holds P24 P24_ok). Qed.
Print Assumptions C14_exchange.
Theorem C14_swap_free_slots : swap_free_law P24.
Proof. exact (swap_free_law_holds P24 P24_ok). Qed.
Print Assumptions C14_swap_free_slots.
Theorem C14_rotate : rotate_law P24.
Proof. exact (rotate_law_holds P24 P24_ok). Qed.
Print Assumptions C14_rotate.
Theorem C14_set_size : set_size_law P24.
Proof. exact (set_size_law_holds P24 P24_ok). Qed.
Print Assumptions C14_set_size.

Theorem C14_accessors : accessor_law P24 /\ set_law P24.
Proof. exact (conj (accessor_law_holds P24 P24_ok) (set_law_holds P24 P24_ok)). Qed.
Print Assumptions C14_accessors.

Example C14_example :
  let v := (p_insert_from_back P24 (p_make_sorted P24 5) 2).1 in
  active P24 v = [0; 1; 5; 2; 3; 4] /\ active P24 (p_remove P24 v 1) = [0; 5; 2; 3; 4] /\
  p_size P24 v < 24.
Proof. vm_compute. repeat split; lia. Qed.

Theorem C15_generic_permuter : forall w, 1 <= w <= 15 ->
  empty_law (P15 w) /\ make_sorted_law (P15 w) (p15_make_sorted (P15 w)) /\
  insert_law (P15 w) /\ remove_law (P15 w) /\ remove_to_back_law (P15 w) /\
  exchange_law (P15 w) /\ swap_free_law (P15 w) /\ rotate_law (P15 w) /\ set_size_law (P15 w).
Proof.
  exact (fun w H => let K := P15_ok w H in
    conj (empty_law_holds _ K) (conj (p15_make_sorted_law_holds _ K)
    (conj (insert_law_holds _ K) (conj (remove_law_holds _ K) (conj (remove_to_back_law_holds _ K)
    (conj (exchange_law_holds _ K) (conj (swap_free_law_holds _ K)
    (conj (rotate_law_holds _ K) (set_size_law_holds _ K))))))))).
Qed.
Print Assumptions C15_generic_permuter.

Theorem C15_accessors : forall w, 1 <= w <= 15 -> accessor_law (P15 w) /\ set_law (P15 w).
Proof.
  exact (fun w H => conj (accessor_law_holds _ (P15_ok w H)) (set_law_holds _ (P15_ok w H))).
Qed.
Print Assumptions C15_accessors.

Theorem C15_always_permutation : forall w start ops, 1 <= w <= 15 ->
  (start = p_empty (P15 w) \/ exists n, n <= w /\ start = p_make_sorted (P15 w) n) ->
  ops_pre (P15 w) start ops ->
  is_permutation (P15 w) (fold_left (op_apply (P15 w)) ops start).
Proof. exact (fun w start ops H => ops_permutation (P15 w) (P15_ok w H) start ops). Qed.
Print Assumptions C15_always_permutation.

Example C15_example :
  active (P15 15) (p_remove_to_back (P15 15) (p15_make_sorted (P15 15) 15) 3)
  = [0; 1; 2; 4; 5; 6; 7; 8; 9; 10; 11; 12; 13; 14] /\
  ops_pre (P15 3) (p_empty (P15 3)) [OInsert 0; OInsert 1; OInsert 0; ORemove 1; OInsert 2].
Proof. vm_compute. repeat split; lia. Qed.

Example C15_accessor_example :
  SpecPerm.free (P15 5) (p15_make_sorted (P15 5) 2) = [4; 3; 2] /\
  p_back_at_offset (P15 5) (p15_make_sorted (P15 5) 2) 1 = 3 /\
  slots_of P24 (p_set P24 (p_make_sorted P24 3) 1 9) !! 1 = Some 9.
Proof. vm_compute. repeat split. Qed.

(** C16: [perm_word] = valid permutation stored in 128 bits *)
Theorem C16_freeze_detectable_and_reversible : forall v,
  perm_word P24 v ->
  is_frozen v = false /\
  is_frozen (freeze_raw v) = true /\
  p_size P24 (freeze_raw v) = p_size P24 v /\
  (forall j, j < 23 -> p_get P24 (freeze_raw v) j = p_get P24 v j) /\
  unfreeze_raw (freeze_raw v) (get_slot23 v) = v.
Proof.
  exact (fun v H => let W := proj1 (perm_word_wf P24 v) H in
    conj (wf_not_frozen v W) (conj (freeze_is_frozen v) (conj (freeze_size v)
      (conj (freeze_get v) (unfreeze_freeze v (wf_lt P24 v W)))))).
Qed.
Print Assumptions C16_freeze_detectable_and_reversible.

Example C16_example : perm_word P24 (p_make_sorted P24 17) /\ is_frozen (p_make_sorted P24 24) = false.
Proof.
  exact (conj (proj1 (C14_make_sorted 17 ltac:(cbn; lia)))
              (proj1 (C16_freeze_detectable_and_reversible _ (proj1 (C14_make_sorted 24 ltac:(cbn; lia)))))).
Qed.

(** The same detection for the one-word permuter of widths 14 and 15.  Its freeze field
    (bits 56-59) is logical position 13, so every other position stays readable. *)
Theorem C16_generic_freeze : forall w v, 14 <= w <= 15 -> perm_word (P15 w) v ->
  p15_is_frozen_raw v = false /\
  p15_is_frozen_raw (p15_freeze_raw v) = true /\
  p_size (P15 w) (p15_freeze_raw v) = p_size (P15 w) v /\
  (forall j, j < w -> j <> 13 -> p_get (P15 w) (p15_freeze_raw v) j = p_get (P15 w) v j).
Proof. exact p15_freeze. Qed.
Print Assumptions C16_generic_freeze.
Example C16_generic_example : perm_word (P15 15) (p15_make_sorted (P15 15) 7).
Proof. exact (proj1 (proj1 (proj2 (C15_generic_permuter 15 ltac:(lia))) 7 ltac:(cbn; lia))). Qed.
