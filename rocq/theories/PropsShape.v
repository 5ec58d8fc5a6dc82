(** Property theorems about the nodes in memory after a single-threaded history: no
    separated slices (C26), the leaf chain (C27), balance (C28), reclamation (C29). *)
From Verif Require Import Base Prog Mem Tree SpecTree SpecHist SpecShape TreeShape TreeDrop Samples.

(** C26 (false in general, see PropsRefuted.v): different leaves of a layer never hold the
    same slice.  Missing: histories with ambiguous keys. *)
Theorem C26_slices_not_separated_partial F ops m : 300 <= F -> history_ok ops -> unambiguous ops -> after F ops m ->
  forall p h ls q q' x, top m p -> leaves_at m h p = Some ls -> q ∈ ls -> q' ∈ ls ->
  x ∈ leaf_slices m q -> x ∈ leaf_slices m q' -> q = q'.
Proof. exact (slices_not_separated F ops m). Qed.
Print Assumptions C26_slices_not_separated_partial.

(** C27: below the root of every layer, the leaves from left to right are a doubly linked
    list without repetition and with ascending slices; every leaf in memory belongs to
    exactly one layer *)
Theorem C27_leaf_chain F ops m : 300 <= F -> history_ok ops -> after F ops m ->
  top m (root m) /\
  (forall p, top m p -> exists h ls, leaves_at m h p = Some ls /\ NoDup ls /\ linked m 0 ls /\
     StronglySorted N.le (slices m ls)) /\
  (forall q, is_Some (next_of m q) -> exists p h ls, top m p /\ leaves_at m h p = Some ls /\ q ∈ ls /\
     forall p' h' ls', top m p' -> leaves_at m h' p' = Some ls' -> q ∈ ls' -> p' = p).
Proof. exact (leaf_chain F ops m). Qed.
Print Assumptions C27_leaf_chain.

(** C28: all leaves of a layer are at the same depth [h]; internodes are filled; so a layer
    of depth [h] has at least 2 * 8^(h-1) leaves and about as many entries *)
Theorem C28_balanced F ops m : 300 <= F -> history_ok ops -> after F ops m ->
  (forall p, top m p -> exists h ls, leaves_at m h p = Some ls /\ h <= 22 /\
     (forall h', h = S h' -> 2 * 8 ^ h' <= length ls) /\ length ls <= 1 + length (slices m ls)) /\
  (forall p i, heap m !! p = Some (NInode i) -> 1 <= i_nkeys i <= 15 /\ (i_parent i <> 0%N -> 7 <= i_nkeys i)) /\
  (forall p x, heap m !! p = Some x -> parent_link x <> 0%N ->
     exists i, heap m !! parent_link x = Some (NInode i) /\ p ∈ children i).
Proof. exact (balanced F ops m). Qed.
Print Assumptions C28_balanced.
Example C26_C27_C28_sat : history_ok sample /\ unambiguous sample /\
  exists m ls, after 300 sample m /\ leaves_at m 1 (root m) = Some ls /\ 2 <= length ls /\ 3 <= size (heap m).
Proof. exact (conj sample_ok (conj sample_unambiguous sample_shape)). Qed.

(** C29: freeing an object that is not live is an error of the model ([Er UB]); after any
    history, with collections at any moment, dropping the tree succeeds and leaves nothing *)
Theorem C29_everything_freed_once F evs : 300 <= F -> history_ok (calls evs) -> exists l m m',
  run_events insert F evs tree_new = Ok (l, m) /\ drop_tree m = Ok m' /\
  vals m' = ∅ /\ bags m' = ∅ /\ heap m' = ∅ /\ retired m' = [].
Proof. exact (freed_once F evs). Qed.
Print Assumptions C29_everything_freed_once.
(** and no call can tell that the collector ran *)
Theorem C29_collection_safe F evs : 300 <= F -> history_ok (calls evs) ->
  exists l m, run_events insert F evs tree_new = Ok (l, m) /\ Forall2 answered (calls evs) l.
Proof. exact (collection_safe F evs). Qed.
Print Assumptions C29_collection_safe.
Theorem C29_collection_invisible_partial F evs : 300 <= F -> history_ok (calls evs) -> unambiguous (calls evs) ->
  exists m, run_events insert F evs tree_new = Ok ((map_run ∅ (calls evs)).1, m).
Proof. exact (collection_invisible F evs). Qed.
Print Assumptions C29_collection_invisible_partial.
Example C29_sat : history_ok (calls sample_events) /\ unambiguous (calls sample_events).
Proof. exact sample_events_ok. Qed.
