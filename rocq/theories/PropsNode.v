(** Properties of the operations on single nodes: internode insertion and split (C22),
    leaf split (C25). *)
From Verif Require Import Base Perm SpecPerm PropsPerm Suffix SpecSuffix SpecSearch Prog Version Mem Tree SpecNode NodeOps LeafOps.

(** the child the descent picks is the one [routes] names *)
Theorem C22_descent_follows_routes : forall m p i x,
  heap m !! p = Some (NInode i) -> is_internode i ->
  run (bind (upper_bound_internode p x) (child p)) m =
    match routes i x with Some c => Ok (c, m) | None => Er Panic end.
Proof. exact descent_routes. Qed.
Print Assumptions C22_descent_follows_routes.

Theorem C22_insertion_routes : forall m p i pos k c,
  heap m !! p = Some (NInode i) -> is_internode i -> i_nkeys i < 15 -> within i pos k ->
  exists i', run (insert_key_and_child p pos k c) m = Ok (tt, mwith_heap (<[p := NInode i']> (heap m)) m) /\
    is_internode i' /\ i_nkeys i' = i_nkeys i + 1 /\
    (forall x, x ∈ separators i' <-> x = k \/ x ∈ separators i) /\
    i_height i' = i_height i /\ i_parent i' = i_parent i /\
    forall x, routes i' x = rerouted i pos k c x.
Proof. exact insert_routes. Qed.
Print Assumptions C22_insertion_routes.

(** [q] is the new right node; keys below the separator handed up go left, the others right *)
Theorem C22_split_routes : forall m p q i iq pos k c, p <> q ->
  heap m !! p = Some (NInode i) -> heap m !! q = Some (NInode iq) ->
  is_internode i -> i_nkeys i = 15 -> length (i_keys iq) = 15 -> length (i_child iq) = 16 ->
  within i pos k ->
  (0 < i_height i -> forall x, x ∈ c :: i_child i -> x = 0%N \/ exists ix, heap m !! x = Some (NInode ix)) ->
  exists popup left m', run (split_into p q pos k c) m = Ok ((popup, left), m') /\
  exists il ir, heap m' !! p = Some (NInode il) /\ heap m' !! q = Some (NInode ir) /\
    is_internode il /\ is_internode ir /\ i_nkeys il = 8 /\ i_nkeys ir = 7 /\
    i_height il = i_height i /\ i_height ir = i_height i /\
    left = (k <? popup)%N /\
    (forall x, x ∈ separators il \/ x = popup \/ x ∈ separators ir <-> x = k \/ x ∈ separators i) /\
    (forall x, routes (if (x <? popup)%N then il else ir) x = rerouted i pos k c x) /\
    (forall a, a <> p -> a <> q -> same_but_parent (heap m !! a) (heap m' !! a)) /\
    (0 < i_height i -> forall x, x ∈ take 8 (i_child ir) -> x <> 0%N ->
       exists ix, heap m' !! x = Some (NInode ix) /\ i_parent ix = q).
Proof.
  exact (fun m p q i iq pos k c H1 H2 H3 H4 H5 H6 H7 H8 H9 =>
    split_routes m p q H1 i iq pos k c H2 H3 H4 H5 H6 H7 H8 H9).
Qed.
Print Assumptions C22_split_routes.

Definition ex_inode : inode :=
  mk_inode 0 15 0 (map N.of_nat (seq 10 15)) (map N.of_nat (seq 100 16)) 0.
Definition ex_small : inode :=
  mk_inode 0 2 0 ([10; 20] ++ repeat 0%N 13)%N ([100; 101; 102] ++ repeat 0%N 13)%N 0.
Example C22_example_insertion : is_internode ex_small /\ within ex_small 1 15 /\
  routes ex_small 17 = Some 101%N /\ rerouted ex_small 1 15 77 17 = Some 77%N /\ rerouted ex_small 1 15 77 12 = Some 101%N.
Proof.
  split; [|split].
  - split; [done|]. split; [done|]. split; [cbn; lia|]. intros s t a b Hst Ha Hb.
    destruct s as [|[|s]], t as [|[|t]]; try lia; cbn in *; try done. by simplify_eq.
  - split; [cbn; lia|]. split; intros t x Ht Hx; destruct t as [|[|t]]; try lia; cbn in *; try done; by simplify_eq.
  - by vm_compute.
Qed.
Example C22_example_split : is_internode ex_inode /\ within ex_inode 15 99 /\ i_nkeys ex_inode = 15 /\
  rerouted ex_inode 15 99 77 1000 = Some 77%N /\ rerouted ex_inode 15 99 77 24 = Some 115%N.
Proof.
  assert (Hl : forall t x, separators ex_inode !! t = Some x -> x = N.of_nat (10 + t) /\ t < 15).
  { intros t x Hx. change (separators ex_inode) with (N.of_nat <$> seq 10 15) in Hx. rewrite list_lookup_fmap in Hx.
    destruct (seq 10 15 !! t) as [y|] eqn:E; [|done]. apply lookup_seq in E as [-> Ht]. injection Hx as <-. done. }
  split; [|split; [|done]].
  - split; [done|]. split; [done|]. split; [cbn; lia|]. intros s t a b Hst Ha Hb.
    apply Hl in Ha as [-> _]. apply Hl in Hb as [-> _]. lia.
  - split; [cbn; lia|]. split; intros t x Ht Hx; apply Hl in Hx as [-> ?]; lia.
Qed.

(** C25.  [entries]: the (slice, length class, suffix, value) of the slots in use, in
    logical order.  The position the code picks leaves both halves non-empty: *)
Theorem C25_split_position : forall m p l ik,
  heap m !! p = Some (NLeaf l) -> is_leaf_node m l ->
  exists r, run (calculate_split_point false p ik) m = Ok (r, m) /\
    forall pos, r = Some pos -> 0 < pos < length (entries m p).
Proof. exact (split_point_ok false). Qed.
Print Assumptions C25_split_position.

(** every position splits the entries without changing any; the returned separator and the
    new leaf's lower bound are the slice of its first entry *)
Theorem C25_split_keeps_entries : forall F m p q l pos, 0 < F -> p <> q ->
  heap m !! p = Some (NLeaf l) -> heap m !! q = Some (NLeaf leaf_new) ->
  is_leaf_node m l -> allocator_fresh m ->
  v_is_locked (l_ver l) = true -> v_is_splitting (l_ver l) = true ->
  0 < pos < length (entries m p) ->
  exists sk m', run (split_into_preallocated F p q pos) m = Ok (sk, m') /\
    entries m' p = take pos (entries m p) /\ entries m' q = drop pos (entries m p) /\
    (exists e, entries m p !! pos = Some e /\ e.1.1.1 = sk) /\ run (ikey_bound q) m' = Ok (sk, m') /\
    (forall a, a <> p -> a <> q -> heap m' !! a = heap m !! a) /\ vals m' = vals m.
Proof. exact split_entries. Qed.
Print Assumptions C25_split_keeps_entries.

Definition ex_ops : list bag_op := [BAssign 3 [7; 8]; BAssign 1 [9]]%N.
Definition ex_bag : bag := match bag_run (bag_with_capacity 24 0) (fun _ => None) ex_ops with Ok (b, _) => b | Er _ => bag_new 24 end.
(** slots 3, 1, 2, 0 in this order; 3 and 1 have suffixes *)
Definition ex_leaf : leaf :=
  mk_leaf 2147483653 (p_exchange P24 (p_make_sorted P24 4) 0 3)
    ([40; 20; 30; 10] ++ repeat 0%N 20)%N ([2; 64; 5; 64] ++ repeat 0%N 20)%N ([201; 202; 203; 204] ++ repeat 0%N 20)%N 6 0 0 0.
Definition ex_mem : mem :=
  mk_mem (<[2%N := NLeaf ex_leaf]> (<[4%N := NLeaf leaf_new]> ∅)) (<[6%N := ex_bag]> ∅) ∅ 2 4 8 [] [2%N].
Example C25_example :
  heap ex_mem !! 2%N = Some (NLeaf ex_leaf) /\ heap ex_mem !! 4%N = Some (NLeaf leaf_new) /\
  is_leaf_node ex_mem ex_leaf /\ allocator_fresh ex_mem /\
  v_is_locked (l_ver ex_leaf) = true /\ v_is_splitting (l_ver ex_leaf) = true /\
  entries ex_mem 2 = [(10, 64, Some [7; 8], 204); (20, 64, Some [9], 202); (30, 5, None, 203); (40, 2, None, 201)]%N.
Proof.
  split; [done|]. split; [done|]. split; [|split; [|split; [done|split; [done|by vm_compute]]]].
  - split; [done|]. split; [done|]. split; [done|]. split.
    + refine (proj1 (C14_exchange (p_make_sorted P24 4) 0 3 0 3 (proj1 (C14_make_sorted 4 ltac:(cbn; lia))) _ _)); by vm_compute.
    + right. exists ex_bag, 0, ex_ops. eexists. split; [done|]. split; [|split; [done|by vm_compute]].
      repeat constructor; cbn; lia.
  - split; [done|]. split; [done|]. intros a Ha. cbn in Ha. change (bags ex_mem) with (<[6%N := ex_bag]> ∅ : gmap N bag).
    rewrite lookup_insert_ne by lia. done.
Qed.
