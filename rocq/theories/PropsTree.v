(** Property theorems of the whole tree, single-threaded (C01-C07, C34) and for lookups
    under any schedule (C08-C10).  [F] bounds the iterations of each loop of the code: the
    theorems hold for every [F] from 300 on and the runs end with [Ok], so no loop ever
    exceeds 300 iterations. *)
From Verif Require Import Base Prog Mem Tree SpecTree SpecHist TreeLaws Samples.

(** C01 (false in general, see PropsRefuted.v).  Missing: histories with two keys that have
    the same zero-padded 8-byte slice where one of them ends. *)
Theorem C01_map_semantics_partial F ops : 300 <= F -> history_ok ops -> unambiguous ops ->
  exists m, run_calls insert F ops tree_new = Ok ((map_run ∅ ops).1, m).
Proof. exact (fun HF H Hu => map_semantics false F ops HF H (or_intror Hu)). Qed.
Print Assumptions C01_map_semantics_partial.
Example C01_sat : 300 <= 300 /\ history_ok sample /\ unambiguous sample.
Proof. exact (conj (le_n _) (conj sample_ok sample_unambiguous)). Qed.
(** in particular for keys of one length *)
Theorem C01_fixed_length_keys_partial F ops n : 300 <= F -> history_ok ops ->
  (forall k v, (k, v) ∈ inserts ops -> length k = n) ->
  exists m, run_calls insert F ops tree_new = Ok ((map_run ∅ ops).1, m).
Proof. exact (fun HF H Hn => map_semantics false F ops HF H (or_intror (fixed_length_unambiguous ops n Hn))). Qed.
Print Assumptions C01_fixed_length_keys_partial.
Example C01_fixed_sat : history_ok sample_fixed /\ forall k v, (k, v) ∈ inserts sample_fixed -> length k = 8.
Proof. exact sample_fixed_ok. Qed.
(** the same read as one lookup after a history *)
Theorem C01_get_returns_last_insert_partial F ops k : 300 <= F -> history_ok (ops ++ [Get k]) -> unambiguous ops ->
  exists l m, run_calls insert F (ops ++ [Get k]) tree_new = Ok (l ++ [AGet (last_value k (inserts ops))], m).
Proof. exact (fun HF H Hu => get_last false F ops k HF H (or_intror Hu)). Qed.
Print Assumptions C01_get_returns_last_insert_partial.
(** with the split point repaired the property holds for all keys *)
Theorem C01_map_semantics_repaired F ops : 300 <= F -> history_ok ops ->
  exists m, run_calls insert_repaired F ops tree_new = Ok ((map_run ∅ ops).1, m).
Proof. exact (fun HF H => map_semantics true F ops HF H (or_introl eq_refl)). Qed.
Print Assumptions C01_map_semantics_repaired.
Example C01_repaired_sat : history_ok sample_bad /\ ~ unambiguous sample_bad.
Proof. exact (conj sample_bad_ok sample_bad_ambiguous). Qed.

(** C02 (false in general).  What holds for all keys: the value was inserted under that
    same key.  Missing: that it is the last one. *)
Theorem C02_no_other_keys_value_partial F ops k : 300 <= F -> history_ok (ops ++ [Get k]) ->
  exists l m r, run_calls insert F (ops ++ [Get k]) tree_new = Ok (l ++ [AGet r], m) /\
  forall v, r = Some v -> (k, v) ∈ inserts ops.
Proof. exact (get_inserted false F ops k). Qed.
Print Assumptions C02_no_other_keys_value_partial.
Example C02_sat : history_ok (sample_bad ++ [Get []]).
Proof. exact sample_bad_get_ok. Qed.

(** C03 (false in general) *)
Theorem C03_insert_returns_previous_partial F ops k v : 300 <= F -> history_ok (ops ++ [Insert k v]) ->
  unambiguous (ops ++ [Insert k v]) ->
  exists l m, run_calls insert F (ops ++ [Insert k v]) tree_new = Ok (l ++ [AIns (last_value k (inserts ops))], m).
Proof. exact (fun HF H Hu => insert_previous false F ops k v HF H (or_intror Hu)). Qed.
Print Assumptions C03_insert_returns_previous_partial.
Example C03_sat : history_ok (sample ++ [Insert [97; 98]%N 9%N]) /\ unambiguous (sample ++ [Insert [97; 98]%N 9%N]) /\
  last_value [97; 98]%N (inserts sample) = Some 6%N.
Proof. exact sample_again. Qed.

(** C04 (false in general): len counts the distinct keys; and for all keys it counts the
    inserts that said the key was new *)
Theorem C04_len_counts_distinct_keys_partial F ops : 300 <= F -> history_ok ops -> unambiguous ops ->
  exists l m, run_calls insert F (ops ++ [Len]) tree_new = Ok (l ++ [ALen (distinct_keys (inserts ops))], m).
Proof. exact (fun HF H Hu => len_distinct false F ops HF H (or_intror Hu)). Qed.
Print Assumptions C04_len_counts_distinct_keys_partial.
Theorem C04_len_counts_new_keys_partial F ops : 300 <= F -> history_ok ops ->
  exists l m, run_calls insert F (ops ++ [Len]) tree_new = Ok (l ++ [ALen (new_keys l)], m).
Proof. exact (len_counts_new false F ops). Qed.
Print Assumptions C04_len_counts_new_keys_partial.
Example C04_sat : history_ok sample /\ unambiguous sample /\ distinct_keys (inserts sample) = 35%N.
Proof. exact (conj sample_ok (conj sample_unambiguous sample_size)). Qed.

(** C05 *)
Theorem C05_is_empty_exact F ops : 300 <= F -> history_ok ops ->
  exists l m, run_calls insert F (ops ++ [IsEmpty]) tree_new = Ok (l ++ [AEmpty (bool_decide (inserts ops = []))], m).
Proof. exact (is_empty_exact false F ops). Qed.
Print Assumptions C05_is_empty_exact.
Example C05_sat : history_ok [Get []] /\ inserts [Get []] = [] /\ history_ok sample_bad /\ inserts sample_bad <> [].
Proof. exact sample_empty. Qed.

(** C06, C34: every call of every history returns, an insert with Ok *)
Theorem C06_C34_calls_return F ops : 300 <= F -> history_ok ops ->
  exists l m, run_calls insert F ops tree_new = Ok (l, m) /\ Forall2 answered ops l.
Proof. exact (never_fails false F ops). Qed.
Print Assumptions C06_C34_calls_return.
Example C06_sat : history_ok sample_bad.
Proof. exact sample_bad_ok. Qed.

(** C07 (false in general) *)
Theorem C07_insert_leaves_other_keys_partial F ops k v k' : 300 <= F -> history_ok (ops ++ [Insert k v]) ->
  op_ok (Get k') -> k <> k' -> unambiguous (ops ++ [Insert k v]) ->
  exists l m old m' r, run_calls insert F ops tree_new = Ok (l, m) /\
    run (insert F k v) m = Ok (IOk old, m') /\ run (get F k') m = Ok (r, m) /\ run (get F k') m' = Ok (r, m').
Proof. exact (fun HF H Hk Hne Hu => insert_independent false F ops k v k' HF H Hk Hne (or_intror Hu)). Qed.
Print Assumptions C07_insert_leaves_other_keys_partial.
Example C07_sat : history_ok (sample ++ [Insert [97; 98]%N 9%N]) /\ op_ok (Get []) /\ unambiguous (sample ++ [Insert [97; 98]%N 9%N]).
Proof. exact (conj (proj1 sample_again) (conj get_nil_ok (proj1 (proj2 sample_again)))). Qed.

(** C08: in every state; a panic, not the loop bound, and no access before it *)
Theorem C08_long_keys_rejected F k v : 256 < length k ->
  get F k = Fail Panic /\ get_ref F k = Fail Panic /\ insert F k v = Fail Panic.
Proof. exact (long_key F k v). Qed.
Print Assumptions C08_long_keys_rejected.
(** keys of length 0..=256 are accepted *)
Theorem C08_short_keys_accepted F ops k v : 300 <= F -> history_ok (ops ++ [Insert k v]) ->
  exists l m old m' r, run_calls insert F ops tree_new = Ok (l, m) /\
    run (insert F k v) m = Ok (IOk old, m') /\ run (get F k) m = Ok (r, m).
Proof. exact (short_key F ops k v). Qed.
Print Assumptions C08_short_keys_accepted.
Example C08_sat : 256 < length (repeat 0%N 257) /\ history_ok ([] ++ [Insert (repeat 0%N 256) 1%N]).
Proof. exact long_short. Qed.

(** C09: in every state; also any number of concurrent lookups under any schedule *)
Theorem C09_lookups_read_only F k m r m' :
  run (get F k) m = Ok (r, m') \/ run (get_ref F k) m = Ok (r, m') -> m' = m.
Proof. exact (lookups_read_only F k m r m'). Qed.
Print Assumptions C09_lookups_read_only.
Theorem C09_concurrent_lookups_read_only F m ts sched :
  Forall (Forall lookup_call) ts -> (exec sched (start F m ts)).1 = m.
Proof. exact (concurrent_lookups_read_only F m ts sched). Qed.
Print Assumptions C09_concurrent_lookups_read_only.
Example C09_sat : exists m r, reachable m /\ run (get 300 [97; 98]%N) m = Ok (Some r, m).
Proof. exact sample_get. Qed.

(** C10: in every state; and among any other calls under any schedule *)
Theorem C10_get_ref_agrees F k m : run (get_ref F k) m = run (get F k) m.
Proof. exact (TreeTop.get_ref_run F k m). Qed.
Print Assumptions C10_get_ref_agrees.
Theorem C10_get_ref_agrees_concurrently F m ts ts' sched i l : Forall2 (Forall2 same_call) ts ts' ->
  finished (exec sched (start F m ts)) i l -> finished (exec sched (start F m ts')) i l.
Proof. exact (get_ref_agrees_concurrent F m ts ts' sched i l). Qed.
Print Assumptions C10_get_ref_agrees_concurrently.
Example C10_sat : Forall2 (Forall2 same_call) [[Get []; Len]; [Insert [] 1%N]] [[GetRef []; Len]; [Insert [] 1%N]].
Proof. exact same_call_sat. Qed.
