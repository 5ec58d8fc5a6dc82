(** Properties C23, C24. *)
From Verif Require Import Base Perm Search SpecSearch SearchFacts.

(** [get] is any permutation lookup and [cmp] any comparator that orders the search key
    [t] against the keys [ks] (in logical order). *)
Theorem C23_binary_and_linear_search : forall ks t get cmp,
  ascending ks -> (forall i x, ks !! i = Some x -> cmp (get i) = (t ?= x)%N) ->
  (exists r, lower_bound_by get cmp (length ks) = Some r /\
     match r with
     | KFound i p => i = n_below ks t /\ ks !! i = Some t /\ p = get i
     | KNotFound i => i = n_below ks t /\ t ∉ ks
     end) /\
  upper_bound_by get cmp (length ks) = Some (n_not_above ks t) /\
  match lower_bound_linear_by get cmp (length ks) with
  | KFound i p => i = n_below ks t /\ ks !! i = Some t /\ p = get i
  | KNotFound i => i = n_below ks t /\ t ∉ ks
  end /\
  upper_bound_linear_by get cmp (length ks) = n_not_above ks t.
Proof.
  exact (fun ks t get cmp H1 H2 =>
    conj (lower_correct ks t get cmp H1 H2) (conj (upper_correct ks t get cmp H1 H2)
      (conj (lower_linear_correct ks t get cmp H1 H2) (upper_linear_correct ks t get cmp H1 H2)))).
Qed.
Print Assumptions C23_binary_and_linear_search.

Theorem C23_internode_search : forall ks t ik,
  length ks <= 15 -> ascending ks -> (forall i x, ks !! i = Some x -> ik i = x) ->
  upper_bound_internode_direct t ik (length ks) = Some (n_not_above ks t) /\
  upper_bound_internode_perm t ik (length ks) = Some (n_not_above ks t).
Proof.
  exact (fun ks t ik H0 H1 H2 =>
    conj (upper_internode_direct ks t ik H1 H2) (upper_internode_perm ks t ik H0 H1 H2)).
Qed.
Print Assumptions C23_internode_search.

Example C23_example :
  let ks := [3; 7; 20; 21; 1000]%N in
  ascending ks /\ upper_bound_internode_direct 20 (fun i => nth i ks 0%N) (length ks) = Some 3 /\
  upper_bound_internode_perm 19 (fun i => nth i ks 0%N) (length ks) = Some 2 /\
  lower_bound_by (fun i => 4 - i) (fun p => N.compare 21 (nth (4 - p) ks 0%N)) (length ks) = Some (KFound 3 1).
Proof.
  split; [|vm_compute; repeat split].
  intros i j a b Hij Hi Hj. destruct i as [|[|[|[|[|i]]]]]; try (cbn in Hi; discriminate);
  destruct j as [|[|[|[|[|j]]]]]; try (cbn in Hj; discriminate); try lia;
  cbn in Hi, Hj; injection Hi as <-; injection Hj as <-; reflexivity.
Qed.

Theorem C24_find_exact : forall ks t,
  find_exact_avx2 ks t = find_exact_scalar ks t /\ find_exact_sse2 ks t = find_exact_scalar ks t /\
  match find_exact_scalar ks t with
  | Some i => ks !! i = Some t /\ forall j, j < i -> ks !! j <> Some t
  | None => t ∉ ks
  end.
Proof.
  exact (fun ks t => conj (proj1 (exact_all_equal ks t)) (conj (proj2 (exact_all_equal ks t)) (find_exact_spec ks t))).
Qed.
Print Assumptions C24_find_exact.

(** (masks have 32 bits: at most 32 keys, as documented) *)
Theorem C24_find_all_matches : forall ks len t, Nat.min len (length ks) <= 32 ->
  find_all_avx2 ks len t = find_all_scalar ks len t /\ find_all_sse2 ks len t = find_all_scalar ks len t /\
  forall j, j < 32 ->
    N.testbit (find_all_scalar ks len t) (N.of_nat j) = bool_decide (j < len /\ ks !! j = Some t).
Proof.
  exact (fun ks len t H => conj (proj1 (matches_all_equal ks len t H))
    (conj (proj2 (matches_all_equal ks len t H)) (fun j Hj => matches_spec ks len t j H Hj))).
Qed.
Print Assumptions C24_find_all_matches.

(** count_le: the full statement (equality for all u64 keys and targets) is false: the AVX2
    version compares as signed numbers. *)
Theorem C24_count_le_refuted : exists ks size t,
  Forall u64 ks /\ u64 t /\ size <= length ks /\
  count_le_avx2 ks size t <> count_le_scalar ks size t.
Proof.
  exact count_le_differs.
Qed.
Print Assumptions C24_count_le_refuted.
(** missing: keys or targets at or above 2^63 *)
Theorem C24_count_le_partial : forall ks size t,
  (t < 2 ^ 63)%N -> Forall (fun k => k < 2 ^ 63)%N (take size ks) ->
  count_le_avx2 ks size t = count_le_scalar ks size t /\
  count_le_scalar ks size t = n_not_above (take size ks) t.
Proof.
  exact (fun ks size t H1 H2 => conj (count_equal_small ks size t H1 H2) (count_scalar_spec ks size t)).
Qed.
Print Assumptions C24_count_le_partial.

Example C24_example :
  find_exact_avx2 [9; 8; 7; 6; 5; 4]%N 4 = Some 5 /\ find_all_avx2 [1; 2; 1; 2; 1; 2; 1]%N 7 1 = 85%N /\
  count_le_avx2 [1; 2; 3; 4; 5; 6]%N 6 4 = 4.
Proof. vm_compute. repeat split. Qed.
