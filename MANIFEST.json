{
 "claims": [
  {
   "property": "C01",
   "status": "partial",
   "theorems": [
    "C01_map_semantics_refuted",
    "C01_map_semantics_partial",
    "C01_fixed_length_keys_partial",
    "C01_get_returns_last_insert_partial",
    "C01_map_semantics_repaired"
   ],
   "note": "REFUTED: false of the code; a leaf split may separate keys with equal 8-byte slices and hide one (proved counterexample). Proved: exact map semantics for every history in which no two keys have the same zero-padded slice where one of them ends (in particular keys of one length); and for all keys with the split point repaired"
  },
  {
   "property": "C02",
   "status": "partial",
   "theorems": [
    "C02_stale_value_refuted",
    "C02_no_other_keys_value_partial"
   ],
   "note": "REFUTED: get can return an overwritten value (proved counterexample). Proved for all keys: the value returned was inserted under that same key"
  },
  {
   "property": "C03",
   "status": "partial",
   "theorems": [
    "C03_C04_previous_value_and_len_refuted",
    "C03_insert_returns_previous_partial"
   ],
   "note": "REFUTED: proved counterexample. Proved for histories without ambiguous keys"
  },
  {
   "property": "C04",
   "status": "partial",
   "theorems": [
    "C03_C04_previous_value_and_len_refuted",
    "C04_len_counts_distinct_keys_partial",
    "C04_len_counts_new_keys_partial"
   ],
   "note": "REFUTED: proved counterexample. Proved for histories without ambiguous keys; for all keys len is the number of inserts that answered None"
  },
  {
   "property": "C05",
   "status": "proved",
   "theorems": [
    "C05_is_empty_exact"
   ],
   "note": "all histories with keys of at most 256 bytes, less than 4 GiB in total"
  },
  {
   "property": "C06",
   "status": "proved",
   "theorems": [
    "C06_C34_calls_return"
   ],
   "note": "all histories with keys of at most 256 bytes, less than 4 GiB in total"
  },
  {
   "property": "C07",
   "status": "partial",
   "theorems": [
    "C07_independence_refuted",
    "C07_insert_leaves_other_keys_partial"
   ],
   "note": "REFUTED: proved counterexample. Proved for histories without ambiguous keys"
  },
  {
   "property": "C08",
   "status": "proved",
   "theorems": [
    "C08_long_keys_rejected",
    "C08_short_keys_accepted"
   ],
   "note": "rejection in every state, acceptance after every history"
  },
  {
   "property": "C09",
   "status": "proved",
   "theorems": [
    "C09_lookups_read_only",
    "C09_concurrent_lookups_read_only"
   ],
   "note": "every state; any number of concurrent lookups under any schedule"
  },
  {
   "property": "C10",
   "status": "proved",
   "theorems": [
    "C10_get_ref_agrees",
    "C10_get_ref_agrees_concurrently"
   ],
   "note": "every state; any schedule with any other calls"
  },
  {
   "property": "C11",
   "status": "proved",
   "theorems": [
    "C11_slice_order_is_lexicographic",
    "C11_compare_ikey"
   ],
   "note": "all byte strings"
  },
  {
   "property": "C12",
   "status": "proved",
   "theorems": [
    "C12_slices_identify_the_key",
    "C12_slice_length_suffix_identify_the_rest",
    "C12_navigation",
    "C12_from_ikey"
   ],
   "note": "all byte strings up to 256 bytes"
  },
  {
   "property": "C13",
   "status": "proved",
   "theorems": [
    "C13_always_permutation",
    "C13_debug_valid_exact"
   ],
   "note": "all operation sequences, real u128 masks and shifts"
  },
  {
   "property": "C14",
   "status": "proved",
   "theorems": [
    "C14_empty",
    "C14_make_sorted",
    "C14_insert_from_back",
    "C14_remove",
    "C14_remove_to_back",
    "C14_exchange",
    "C14_swap_free_slots",
    "C14_rotate",
    "C14_set_size",
    "C14_accessors"
   ],
   "note": "each operation against its list specification"
  },
  {
   "property": "C15",
   "status": "proved",
   "theorems": [
    "C15_generic_permuter",
    "C15_always_permutation",
    "C15_accessors"
   ],
   "note": "all widths 1..=15"
  },
  {
   "property": "C16",
   "status": "proved",
   "theorems": [
    "C16_freeze_detectable_and_reversible",
    "C16_generic_freeze"
   ],
   "note": "24-slot words; detection also for the one-word permuter of widths 14 and 15"
  },
  {
   "property": "C17",
   "status": "proved",
   "theorems": [
    "C17_suffix_storage_faithful",
    "C17_accessors",
    "C17_try_assign_in_place"
   ],
   "note": "all widths, capacities and operation sequences writing fewer than 2^32-1 bytes"
  },
  {
   "property": "C18",
   "status": "proved",
   "theorems": [
    "C18_compaction",
    "C18_compaction_excluding",
    "C18_leaf_compaction",
    "C18_leaf_compaction_keeps_entries"
   ],
   "note": "all reachable bags; all leaves"
  },
  {
   "property": "C19",
   "status": "proved",
   "theorems": [
    "C19_mutual_exclusion"
   ],
   "note": "any number of threads, scripts (of all the ways to take the lock, with any number of attempts) and schedules over the real version word"
  },
  {
   "property": "C20",
   "status": "proved",
   "theorems": [
    "C20_unchanged_version_means_no_completed_section",
    "C20_no_split_detected_means_no_completed_split",
    "C20_not_changed_or_locked_means_undisturbed",
    "C20_simple_has_split"
   ],
   "note": "all schedules with fewer than 2^19 completed sections between the two readings (then the counter may have wrapped)"
  },
  {
   "property": "C21",
   "status": "proved",
   "theorems": [
    "C21_flags_survive_counter_overflow"
   ],
   "note": "all scripts, unbounded wraps"
  },
  {
   "property": "C22",
   "status": "proved",
   "theorems": [
    "C22_descent_follows_routes",
    "C22_insertion_routes",
    "C22_split_routes"
   ],
   "note": "any internode contents and position, any other memory; single-threaded execution of the operation (the node is locked)"
  },
  {
   "property": "C23",
   "status": "proved",
   "theorems": [
    "C23_binary_and_linear_search",
    "C23_internode_search",
    "C23_internode_insert_position"
   ],
   "note": "all sizes and keys"
  },
  {
   "property": "C24",
   "status": "partial",
   "theorems": [
    "C24_find_exact",
    "C24_find_all_matches",
    "C24_count_le_refuted",
    "C24_count_le_partial"
   ],
   "note": "REFUTED for count_le (AVX2 compares signed): proved counterexample, and equality below 2^63; find_exact and find_all_matches proved in full"
  },
  {
   "property": "C25",
   "status": "proved",
   "theorems": [
    "C25_split_position",
    "C25_split_keeps_entries",
    "C25_split_all_keeps_entries"
   ],
   "note": "any leaf contents, slot permutation, suffix storage and position; single-threaded execution of the operation (the leaf is locked)"
  },
  {
   "property": "C26",
   "status": "partial",
   "theorems": [
    "C26_equal_slices_separated_refuted",
    "C26_slices_not_separated_partial"
   ],
   "note": "REFUTED: proved counterexample. Proved: never happens in histories without ambiguous keys"
  },
  {
   "property": "C27",
   "status": "proved",
   "theorems": [
    "C27_leaf_chain"
   ],
   "note": "every layer, all histories (less than 4 GiB of keys), including those with ambiguous keys"
  },
  {
   "property": "C28",
   "status": "proved",
   "theorems": [
    "C28_balanced"
   ],
   "note": "every layer, all histories (less than 4 GiB of keys)"
  },
  {
   "property": "C29",
   "status": "proved",
   "theorems": [
    "C29_everything_freed_once",
    "C29_collection_safe",
    "C29_collection_invisible_partial"
   ],
   "note": "all histories with collections at any moment between calls, followed by drop; values, suffix bags and nodes; double free is an error of the model. (C29_collection_invisible_partial additionally shows that answers are unaffected, for unambiguous keys)"
  },
  {
   "property": "C30",
   "status": "partial",
   "theorems": [
    "C30_lookup_misses_refuted",
    "C30_lookup_misses_during_split_refuted",
    "C30_lookups_without_inserts_partial"
   ],
   "note": "REFUTED: two proved counterexample schedules (layer conversion; marked next link); positive part: lookups among lookups are exact"
  },
  {
   "property": "C31",
   "status": "partial",
   "theorems": [
    "C31_type_confusion_refuted",
    "C31_no_misinterpretation_partial"
   ],
   "note": "REFUTED: proved counterexample schedule; positive part: keys that need one layer only (see C38)"
  },
  {
   "property": "C32",
   "status": "partial",
   "theorems": [
    "C32_insert_lost_refuted",
    "C32_single_writer_partial"
   ],
   "note": "REFUTED: proved counterexample schedule; positive part: one inserting thread among lookups, keys of all lengths (C53: inserts that do not overlap each other, with collections)"
  },
  {
   "property": "C33",
   "status": "proved",
   "theorems": [
    "C33_linearizable_one_leaf",
    "C33_no_miss_after_insert"
   ],
   "note": "every thread count, script, schedule and loop bound; atomic accesses are interleaved sequentially consistently; len excluded from the linearizable calls (it is exact when no call is in progress)"
  },
  {
   "property": "C34",
   "status": "proved",
   "theorems": [
    "C06_C34_calls_return"
   ],
   "note": "every loop bound from 300 on suffices"
  },
  {
   "property": "C35",
   "status": "partial",
   "theorems": [
    "C35_restart_changes_key_refuted"
   ],
   "note": "REFUTED: proved counterexample schedule"
  },
  {
   "property": "C36",
   "status": "partial",
   "theorems": [
    "C36_suffix_offsets_refuted"
   ],
   "note": "REFUTED: the property is false of the code (u32 offsets of a never-compacted bag wrap); proved counterexample; C17 is the true part below the limit"
  },
  {
   "property": "C37",
   "status": "partial",
   "theorems": [
    "C37_is_empty_type_confusion_refuted",
    "C37_is_empty_without_inserts_partial"
   ],
   "note": "REFUTED: proved counterexample schedule (24 short keys in the root leaf, one thread asks is_empty while another inserts the 25th); positive part: exact and safe among lookups; also exact and safe among concurrent updates of existing keys (C55, C56)"
  },
  {
   "property": "C38",
   "status": "proved",
   "theorems": [
    "C38_concurrent_safety"
   ],
   "note": "whole tree, every thread count, script (inserted keys of up to 256 bytes of which no two different inserted keys of more than 8 bytes agree in their first 8 bytes; any key looked up), schedule, collection time and loop bound"
  },
  {
   "property": "C39",
   "status": "proved",
   "theorems": [
    "C39_lookup_sound"
   ],
   "note": "as C38; lookups spanning fewer than 2^19 atomic accesses (version counter wrap)"
  },
  {
   "property": "C40",
   "status": "proved",
   "theorems": [
    "C40_replaced_value_sound",
    "C40_insert_never_fails"
   ],
   "note": "as C38"
  },
  {
   "property": "C41",
   "status": "proved",
   "theorems": [
    "C41_no_lock_left",
    "C41_garbage_released",
    "C41_freed_exactly_once"
   ],
   "note": "as C38, when all calls have returned"
  },
  {
   "property": "C42",
   "status": "proved",
   "theorems": [
    "C42_len_at_rest",
    "C42_len_meanwhile"
   ],
   "note": "all keys, calls and schedules"
  },
  {
   "property": "C43",
   "status": "proved",
   "theorems": [
    "C43_handed_back_once",
    "C43_not_its_own"
   ],
   "note": "as C38; values pairwise different, which loses nothing since the code never looks at values"
  },
  {
   "property": "C44",
   "status": "proved",
   "theorems": [
    "C44_no_stale_lookup"
   ],
   "note": "as C43"
  },
  {
   "property": "C45",
   "status": "proved",
   "theorems": [
    "C45_values_conserved",
    "C45_nothing_else_kept"
   ],
   "note": "as C43; 'holds' means in a slot in use of some leaf: whether lookups reach that leaf is C30/C32"
  },
  {
   "property": "C46",
   "status": "proved",
   "theorems": [
    "C46_reference_valid",
    "C46_guards_safe",
    "C46_guards_change_nothing",
    "C46_guarded_values_conserved",
    "C46_garbage_released"
   ],
   "note": "as C38, with guards taken and dropped between calls in any way; C46_garbage_released for all keys"
  },
  {
   "property": "C47",
   "status": "proved",
   "theorems": [
    "C47_single_writer_undisturbed"
   ],
   "note": "starting in any state one thread can build; keys of all lengths, deeper layers included; nothing is freed meanwhile"
  },
  {
   "property": "C48",
   "status": "proved",
   "theorems": [
    "C48_never_goes_back"
   ],
   "note": "as C43; together with C30 (lookups may miss a value) this is what remains of linearizability for the values that are found"
  },
  {
   "property": "C49",
   "status": "proved",
   "theorems": [
    "C49_calls_are_atomic"
   ],
   "note": "as C43, for histories in which no lookup takes 2^19 or more accesses (`prompt`); an insertion may answer None although an entry with its key is there, and a lookup may miss: these are the refuted C01/C02 and C30"
  },
  {
   "property": "C50",
   "status": "proved",
   "theorems": [
    "C50_atomic_map_with_misses"
   ],
   "note": "as C49, at rest and when no key was twice answered to be new (`new_once`)"
  },
  {
   "property": "C51",
   "status": "proved",
   "theorems": [
    "C51_exclusive_inserts_linearizable",
    "C51_exclusive_inserts_safe",
    "C51_index_is_tree"
   ],
   "note": "keys of all lengths up to 256 bytes and all layers, collections at any moment; linearizability for scripts without ambiguous keys (those are C01), safety for all; MassTreeIndex makes exactly the accesses of the tree it wraps"
  },
  {
   "property": "C52",
   "status": "proved",
   "theorems": [
    "C52_exclusive_calls_complete"
   ],
   "note": "as C51, for all keys; the number of turns may depend on the state"
  },
  {
   "property": "C53",
   "status": "proved",
   "theorems": [
    "C53_serial_inserts_exact",
    "C53_insertions_undisturbed",
    "C53_serial_inserts_safe"
   ],
   "note": "keys of all lengths up to 256 bytes and all layers, lookups and collections at any moment; exact answers for scripts without ambiguous keys (C01), safety for all; nothing is said about lookups that an insertion overlaps (C30, C31; C38-C50 for one layer)"
  },
  {
   "property": "C54",
   "status": "proved",
   "theorems": [
    "C54_serial_inserts_complete"
   ],
   "note": "as C53, for all keys; the number of turns may depend on the state"
  },
  {
   "property": "C55",
   "status": "proved",
   "theorems": [
    "C55_updates_linearizable"
   ],
   "note": "keys of all lengths up to 256 bytes and all layers, all five operations, collections at any moment; the tree may have any shape one thread can build without ambiguous keys (those are C01); with inserts of new keys linearizability is refuted (C02, C30)"
  },
  {
   "property": "C56",
   "status": "proved",
   "theorems": [
    "C56_updates_safe"
   ],
   "note": "as C55; the model bounds the repetitions of loops by F, and reaching the bound is the only way a call can end early"
  },
  {
   "property": "C57",
   "status": "proved",
   "theorems": [
    "C57_freeze_protocol",
    "C57_asserting_exchange"
   ],
   "note": "the functions of leaf24/freeze.rs and leaf24/cas.rs on one leaf, under any schedule; compare-and-swap arguments are permutations; reaching the model's bound F is the only way a call can end early"
  },
  {
   "property": "C58",
   "status": "proved",
   "theorems": [
    "C58_updates_never_deadlock",
    "C58_no_lock_left_behind"
   ],
   "note": "as C55; waiting for ever is, in the model, being cut short by the bound F on repetitions: the theorem says that a call cut short holds no lock either. Fairness of the scheduler is not assumed and no bound on waiting times is claimed"
  },
  {
   "property": "C59",
   "status": "proved",
   "theorems": [
    "C59_match_result_is_exact",
    "C59_match_result_of_a_layer",
    "C59_suffix_order"
   ],
   "note": "all leaves, slots and keys; a quiescent leaf (the accesses of one call, no writer in between)"
  },
  {
   "property": "C60",
   "status": "partial",
   "theorems": [
    "C60_matches_short_keys_refuted",
    "C60_matches_long_keys_partial",
    "C60_matches_short_keys"
   ],
   "note": "REFUTED: false of keys of up to eight bytes (finding L); proved counterexamples, the true part (keys of more than eight bytes), and exactly what is answered for the others"
  },
  {
   "property": "C61",
   "status": "proved",
   "theorems": [
    "C61_lock_free_insertion",
    "C61_fast_path_map_semantics",
    "C61_fast_path_freed_once"
   ],
   "note": "the lock-free insertion (disabled in the code) run alone after any history; as first attempt before the locked insertion, any history"
  },
  {
   "property": "C62",
   "status": "partial",
   "theorems": [
    "C62_mixed_insertions_refuted"
   ],
   "note": "REFUTED: two threads that try the lock-free insertion first: both succeed and one key is lost; under another schedule a debug assertion fails (finding M)"
  },
  {
   "property": "C63",
   "status": "proved",
   "theorems": [
    "C63_concurrent_lock_free_insertions"
   ],
   "note": "any number of concurrent lock-free insertions (the path disabled in the code), any schedule, after any history; nothing else runs meanwhile (C62 refutes mixing them with locked insertions)"
  },
  {
   "property": "C64",
   "status": "proved",
   "theorems": [
    "C64_lookups_beside_lock_free_insertions"
   ],
   "note": "as C63, with any number of concurrent lookups of keys of all lengths; the locked API does not run meanwhile (C62)"
  },
  {
   "property": "C65",
   "status": "proved",
   "theorems": [
    "C65_single_threaded_version_agrees"
   ],
   "note": "all sequences of the calls both types have; equality of the words and of all answers"
  },
  {
   "property": "C66",
   "status": "proved",
   "theorems": [
    "C66_split_sibling_locked_until_unlocked"
   ],
   "note": "the clients of C19, any schedule, from the creation of the sibling to its unlock"
  },
  {
   "property": "C67",
   "status": "proved",
   "theorems": [
    "C67_descents_agree"
   ],
   "note": "all single-threaded histories and slices; the two descents without validation are not called by the public API at this commit"
  },
  {
   "property": "C68",
   "status": "proved",
   "theorems": [
    "C68_slice_matches_exact",
    "C68_leaves_have_24_slots"
   ],
   "note": "a quiescent leaf (the loads of one call, no writer in between)"
  }
 ]
}