(** Properties C59, C60 (matching a key against a leaf entry), C18 for a leaf, C23 for the insert
    position of an internode. *)
From Verif Require Import Base Perm SpecPerm PropsPerm Key SpecKey Suffix SpecSuffix SpecSearch Prog Version Mem Tree NodeMatch SpecNode SpecMatch MatchFacts PropsNode.

(** C59.  [k0]: the key of the entry in slot [s]; [k]: the key asked for, with the same slice *)
Theorem C59_match_result_is_exact : forall m p l s k0 k,
  heap m !! p = Some (NLeaf l) -> bags m !! 0%N = None ->
  is_bytes k0 -> is_bytes k -> holds_key m l s k0 -> slice k 0 = slice k0 0 ->
  run (ksuf_match_result p s (length_class k) (rest k)) m = Ok ((if bool_decide (k = k0) then 1 else 0)%Z, m).
Proof. exact (fun m p l s k0 k Hp H0 Hb0 Hb Hh Hs => match_key m p l Hp H0 s k0 k Hb Hb0 Hh Hs). Qed.
Print Assumptions C59_match_result_is_exact.

Theorem C59_match_result_of_a_layer : forall m p l s kx suf,
  heap m !! p = Some (NLeaf l) -> holds_layer m l s ->
  run (ksuf_match_result p s kx suf) m = Ok ((-8)%Z, m).
Proof. exact (fun m p l s kx suf Hp => match_layer m p l Hp s kx suf). Qed.
Print Assumptions C59_match_result_of_a_layer.

(** the order of the remaining bytes; an entry without such bytes has none *)
Theorem C59_suffix_order : forall m p l s k0 suf,
  heap m !! p = Some (NLeaf l) -> bags m !! 0%N = None -> holds_key m l s k0 ->
  run (ksuf_compare p s suf) m = Ok (if Nat.leb (length k0) 8 then None else Some (lex (rest k0) suf), m).
Proof. exact (fun m p l s k0 suf Hp H0 => compare_key_suf m p l Hp H0 s k0 suf). Qed.
Print Assumptions C59_suffix_order.

(** C60: ksuf_matches answers whether the entry's key is the given one: true of keys of more
    than eight bytes *)
Theorem C60_matches_long_keys_partial : forall m p l s k0 k,
  heap m !! p = Some (NLeaf l) -> bags m !! 0%N = None ->
  is_bytes k0 -> is_bytes k -> holds_key m l s k0 -> 8 < length k ->
  run (ksuf_matches p s (slice k 0) (rest k)) m = Ok (bool_decide (k = k0), m).
Proof. exact (fun m p l s k0 k Hp H0 Hb0 Hb Hh Hs => matches_long m p l Hp H0 s k0 k Hb Hb0 Hh Hs). Qed.
Print Assumptions C60_matches_long_keys_partial.
(** for the others it answers whether the padded slices agree and the entry has no suffix *)
Theorem C60_matches_short_keys : forall m p l s k0 k,
  heap m !! p = Some (NLeaf l) ->
  is_bytes k0 -> is_bytes k -> holds_key m l s k0 -> length k <= 8 ->
  run (ksuf_matches p s (slice k 0) (rest k)) m = Ok (bool_decide (slice k 0 = slice k0 0 /\ length k0 <= 8), m).
Proof. exact (fun m p l s k0 k Hp Hb0 Hb Hh Hs => matches_short m p l Hp s k0 k Hb Hb0 Hh Hs). Qed.
Print Assumptions C60_matches_short_keys.

(** slot 0: the key "a"; slot 1: "abcdefghXY"; slot 2: a layer below "12345678"; in use: 0, 1, 2 *)
Definition mt_ops : list bag_op := [BAssign 5 [1; 2; 3]; BAssign 1 [88; 89]]%N.
Definition mt_bag : bag := match bag_run (bag_with_capacity 24 0) (fun _ => None) mt_ops with Ok (b, _) => b | Er _ => bag_new 24 end.
Definition mt_leaf : leaf :=
  mk_leaf 2147483648 (p_make_sorted P24 3)
    ([slice [97] 0; slice [97; 98; 99; 100; 101; 102; 103; 104] 0; slice [49; 50; 51; 52; 53; 54; 55; 56] 0] ++ repeat 0%N 21)%N
    ([1; 64; 128] ++ repeat 0%N 21)%N ([201; 202; 204] ++ repeat 0%N 21)%N 6 0 0 0.
Definition mt_mem : mem :=
  mk_mem (<[2%N := NLeaf mt_leaf]> ∅) (<[6%N := mt_bag]> ∅) ∅ 2 4 8 [] [2%N].
Definition mt_long : bytes := [97; 98; 99; 100; 101; 102; 103; 104; 88; 89]%N.
Lemma mt_ok : heap mt_mem !! 2%N = Some (NLeaf mt_leaf) /\ is_leaf_node mt_mem mt_leaf /\ allocator_fresh mt_mem /\
  holds_key mt_mem mt_leaf 0 [97]%N /\ holds_key mt_mem mt_leaf 1 mt_long /\ holds_layer mt_mem mt_leaf 2.
Proof.
  split; [done|]. split; [|split; [|split; [|split]]].
  - split; [done|]. split; [done|]. split; [done|]. split; [exact (proj1 (C14_make_sorted 3 ltac:(cbn; lia)))|].
    right. exists mt_bag, 0, mt_ops. eexists. split; [done|]. split; [|split; [done|by vm_compute]].
    repeat constructor; cbn; lia.
  - split; [done|]. split; [done|]. intros a Ha. cbn in Ha. change (bags mt_mem) with (<[6%N := mt_bag]> ∅ : gmap N bag).
    rewrite lookup_insert_ne by lia. done.
  - exists 201%N. by vm_compute.
  - exists 202%N. by vm_compute.
  - exists (slice [49; 50; 51; 52; 53; 54; 55; 56] 0)%N, 128%N, None, 204%N. split; [by vm_compute|done].
Qed.
Example C59_example :
  run (ksuf_match_result 2 0 (length_class [97; 0]%N) []) mt_mem = Ok (0%Z, mt_mem) /\
  slice [97; 0]%N 0 = slice [97]%N 0 /\
  run (ksuf_match_result 2 1 64 [88; 89]%N) mt_mem = Ok (1%Z, mt_mem) /\
  run (ksuf_match_result 2 1 64 [88]%N) mt_mem = Ok (0%Z, mt_mem) /\
  run (ksuf_match_result 2 2 8 []) mt_mem = Ok ((-8)%Z, mt_mem) /\
  run (ksuf_compare 2 1 [88]%N) mt_mem = Ok (Some Gt, mt_mem).
Proof. by vm_compute. Qed.

(** C60 is false of keys of up to eight bytes: "a" followed by a zero byte "matches" the entry of
    "a", and a key "matches" an entry that is the pointer to a layer *)
Theorem C60_matches_short_keys_refuted : exists m p l,
  heap m !! p = Some (NLeaf l) /\ is_leaf_node m l /\ allocator_fresh m /\
  (exists s k0 k, is_bytes k0 /\ is_bytes k /\ holds_key m l s k0 /\ k <> k0 /\
     run (ksuf_matches p s (slice k 0) (rest k)) m = Ok (true, m)) /\
  (exists s k, is_bytes k /\ holds_layer m l s /\
     run (ksuf_matches p s (slice k 0) (rest k)) m = Ok (true, m)).
Proof.
  exists mt_mem, 2%N, mt_leaf. destruct mt_ok as (H1 & H2 & H3 & H4 & H5 & H6).
  split; [done|]. split; [done|]. split; [done|]. split.
  - exists 0, [97]%N, [97; 0]%N. split; [by repeat constructor|]. split; [by repeat constructor|]. split; [done|]. split; [done|]. by vm_compute.
  - exists 2, [49; 50; 51; 52; 53; 54; 55; 56]%N. split; [by repeat constructor|]. split; [done|]. by vm_compute.
Qed.
Print Assumptions C60_matches_short_keys_refuted.

(** C18 for a leaf.  The leaf gets a new storage at a fresh address holding exactly the suffixes
    of the slots in use other than the excluded one; nothing else of the memory changes, the old
    storage stays readable and is handed to the collector once, and the number returned is the
    number of bytes saved. *)
Theorem C18_leaf_compaction : forall m p l exclude,
  heap m !! p = Some (NLeaf l) -> is_leaf_node m l -> allocator_fresh m -> l_ksuf l <> 0%N ->
  exists n m' b b', let l' := with_ksuf (nxt m) l in run (compact_ksuf p exclude) m = Ok (n, m') /\
    heap m' = <[p := NLeaf l']> (heap m) /\ is_leaf_node m' l' /\
    (forall s, s < 24 -> stored m' l' s =
       if bool_decide (s ∈ active P24 (l_perm l) /\ exclude <> Some s) then stored m l s else None) /\
    bags m !! l_ksuf l = Some b /\ bags m' !! l_ksuf l' = Some b' /\ bag_used b = n + bag_used b' /\
    bag_used b' = sum_list (map (fun s => match stored m l s with Some x => length x | None => 0 end)
                     (filter (fun s => exclude <> Some s) (active P24 (l_perm l)))) /\
    (forall a, a <> nxt m -> bags m' !! a = bags m !! a) /\
    vals m' = vals m /\ retired m' = GBag (l_ksuf l) :: retired m.
Proof. exact compact_leaf. Qed.
Print Assumptions C18_leaf_compaction.

(** in particular no entry of the leaf changes unless a slot in use was excluded *)
Theorem C18_leaf_compaction_keeps_entries : forall m p l exclude,
  heap m !! p = Some (NLeaf l) -> is_leaf_node m l -> allocator_fresh m ->
  (forall s, exclude = Some s -> s ∉ active P24 (l_perm l)) ->
  exists n m', run (compact_ksuf p exclude) m = Ok (n, m') /\ entries m' p = entries m p.
Proof. exact compact_entries. Qed.
Print Assumptions C18_leaf_compaction_keeps_entries.

Example C18_leaf_example : l_ksuf mt_leaf <> 0%N /\
  match run (compact_ksuf 2 None) mt_mem with
  | Ok (n, m') => n = 3 /\ entries m' 2 = entries mt_mem 2 /\ retired m' = [GBag 6] /\
      stored mt_mem mt_leaf 5 = Some [1; 2; 3]%N /\ stored m' (with_ksuf 8 mt_leaf) 5 = None
  | Er _ => False
  end.
Proof. split; [done|]. by vm_compute. Qed.

(** C25: moving every entry to the new leaf keeps them all, in order; the returned separator and
    the new leaf's lower bound are the slice of the first one *)
Theorem C25_split_all_keeps_entries : forall F m p q l, 0 < F -> p <> q ->
  heap m !! p = Some (NLeaf l) -> heap m !! q = Some (NLeaf leaf_new) ->
  is_leaf_node m l -> allocator_fresh m ->
  v_is_locked (l_ver l) = true -> v_is_splitting (l_ver l) = true -> entries m p <> [] ->
  exists sk m', run (split_all_to_right F p q) m = Ok (sk, m') /\
    entries m' p = [] /\ entries m' q = entries m p /\
    (exists e, entries m p !! 0 = Some e /\ e.1.1.1 = sk) /\ run (ikey_bound q) m' = Ok (sk, m') /\
    (forall a, a <> p -> a <> q -> heap m' !! a = heap m !! a) /\ vals m' = vals m.
Proof. exact split_all_entries. Qed.
Print Assumptions C25_split_all_keeps_entries.
(** the leaf of [C25_example] *)
Example C25_split_all_example : entries ex_mem 2 <> [] /\
  match run (split_all_to_right 1 2 4) ex_mem with
  | Ok (sk, m') => sk = 10%N /\ entries m' 2 = [] /\ entries m' 4 = entries ex_mem 2
  | Er _ => False
  end.
Proof. by vm_compute. Qed.

(** C23: the insert position is behind the separators below the key *)
Theorem C23_internode_insert_position : forall m p i x,
  heap m !! p = Some (NInode i) -> is_internode i ->
  run (find_insert_position p x) m = Ok (n_below (separators i) x, m) /\
  forall j a, separators i !! j = Some a -> run (compare_key p x j) m = Ok ((x ?= a)%N, m).
Proof. exact insert_position. Qed.
Print Assumptions C23_internode_insert_position.
Example C23_insert_position_example : let m := mk_mem (<[2%N := NInode ex_small]> ∅) ∅ ∅ 2 0 4 [] [2%N] in
  is_internode ex_small /\ run (find_insert_position 2 20) m = Ok (1, m) /\ run (find_insert_position 2 21) m = Ok (2, m) /\
  run (compare_key 2 15 0) m = Ok (Gt, m).
Proof. cbv zeta. split; [exact (proj1 C22_example_insertion)|]. by vm_compute. Qed.
