(** Property theorems about the descents without validation (C67) and about comparing all
    slices of a leaf at once (C68). *)
From Verif Require Import Base Search Prog Mem Tree SpecTree SpecHist SpecShape Descend DescendFacts Samples.

(** C67: after any single-threaded history, for every slice, the descents through a shared
    and through an exclusive reference succeed, change nothing, and reach the same leaf of
    the main layer as the validated descent of lookups and insertions; all entries of the
    leaves to its left have slices at most, and of those to its right at least, the one
    searched for *)
Theorem C67_descents_agree F ops m : 300 <= F -> history_ok ops -> after F ops m -> forall ik, (ik < 2 ^ 64)%N ->
  exists q h ls i, run (reach_leaf_shared F ik) m = Ok (q, m) /\ run (reach_leaf_mut F ik) m = Ok (q, m) /\
    run (reach_leaf F F (root m) (root m) ik) m = Ok (q, m) /\
    leaves_at m h (root m) = Some ls /\ ls !! i = Some q /\
    (forall j p x, j < i -> ls !! j = Some p -> x ∈ leaf_slices m p -> (x <= ik)%N) /\
    (forall j p x, i < j -> ls !! j = Some p -> x ∈ leaf_slices m p -> (ik <= x)%N).
Proof. exact (descents_agree F ops m). Qed.
Print Assumptions C67_descents_agree.
(** a tree with several leaves: the smallest and the greatest slice lead to different ones *)
Example C67_sat : history_ok sample /\ exists m q q', after 300 sample m /\ q <> q' /\
  run (reach_leaf_shared 300 0) m = Ok (q, m) /\ run (reach_leaf_shared 300 (2 ^ 64 - 1)) m = Ok (q', m).
Proof. exact descents_sample. Qed.

(** C68: on every processor (with AVX2, with SSE2 only, with neither), bit [i] of the mask
    says whether slot [i] of the leaf holds the slice searched for; the bits from 24 on are 0 *)
Theorem C68_slice_matches_exact u p t m l : heap m !! p = Some (NLeaf l) -> length (l_ikey l) = 24 ->
  exists w, run (find_ikey_matches u p t) m = Ok (w, m) /\
    forall i, i < 32 -> N.testbit w (N.of_nat i) = bool_decide (l_ikey l !! i = Some t).
Proof. exact (matches_exact u p t m l). Qed.
Print Assumptions C68_slice_matches_exact.
(** every leaf of a tree has 24 slots *)
Theorem C68_leaves_have_24_slots F ops m : 300 <= F -> history_ok ops -> after F ops m ->
  forall p l, heap m !! p = Some (NLeaf l) -> length (l_ikey l) = 24.
Proof. exact (leaf_slots F ops m). Qed.
Print Assumptions C68_leaves_have_24_slots.
Example C68_sat : exists m l w, after 300 sample m /\ heap m !! 2%N = Some (NLeaf l) /\
  run (find_ikey_matches Avx2 2 (nth 3 (l_ikey l) 0%N)) m = Ok (w, m) /\ N.testbit w 3 = true /\ N.testbit w 2 = false.
Proof. exact matches_sample. Qed.
