{"id": "C01", "title": "Single-threaded map semantics", "statement": "Used from one thread, the tree is a map from byte strings (0..=256 bytes) to values: after any sequence of inserts, get(k) returns the value of the last insert of k, and None when k was never inserted.", "quantifier": "all finite sequences of insert/get calls, all keys of length 0..=256, all values", "why_tests_cant": "Needs every key set, every insertion order, every node split at every level and every layer depth; a unit test fixes one key set.", "anchors": ["src/tree/generic.rs: get_with_guard, get_concurrent_generic, insert_with_guard, insert_concurrent_generic, handle_leaf_split_generic, create_layer_concurrent_generic", "src/leaf24.rs: calculate_split_point, split_into_preallocated, link_sibling", "src/tree/split/propagation.rs", "src/tree/split/root_creation.rs"]}
{"id": "C02", "title": "get never returns a wrong value", "statement": "Used from one thread, whatever was inserted before, get(k) returns either None or exactly the value passed to the most recent insert of that same k - never another key's value, never an overwritten value.", "quantifier": "all finite sequences of insert/get calls over arbitrary keys of length 0..=256", "why_tests_cant": "Must hold for every key set including keys that differ only by trailing zero bytes or by length; the state space of splits and layers is unbounded.", "anchors": ["src/tree/generic.rs: get_concurrent_generic, search_for_insert_generic", "src/leaf24.rs: ksuf_equals"]}
{"id": "C03", "title": "insert reports the previous value", "statement": "Used from one thread, insert(k,v) returns Ok(Some(old)) with old the value previously stored under k when k was present, and Ok(None) when k was absent.", "quantifier": "all finite histories followed by one insert", "why_tests_cant": "Depends on the whole history and tree shape, not on one call.", "anchors": ["src/tree/generic.rs: insert_concurrent_generic, search_for_insert_generic"]}
{"id": "C04", "title": "len counts distinct keys", "statement": "Used from one thread, len() equals the number of distinct keys inserted so far.", "quantifier": "all finite histories of inserts and gets", "why_tests_cant": "A counter that is maintained separately from the structure must agree with it after every history.", "anchors": ["src/tree/generic.rs: len, insert_concurrent_generic (count.fetch_add)"]}
{"id": "C05", "title": "is_empty is exact", "statement": "Used from one thread, is_empty() is true exactly when no insert has been performed.", "quantifier": "all finite histories", "why_tests_cant": "is_empty looks only at the root node; that this agrees with the whole content is a global invariant.", "anchors": ["src/tree/generic.rs: is_empty"]}
{"id": "C06", "title": "Single-threaded insert never fails", "statement": "Used from one thread, insert of a key of at most 256 bytes always returns Ok: it never returns InsertError, never panics and never dereferences a null, dangling or wrongly typed pointer, as long as the keys inserted so far add up to less than 4 GiB (beyond that the suffix storage overflows, see C36).", "quantifier": "all finite histories of calls with keys of at most 256 bytes, less than 4 GiB in total", "why_tests_cant": "The failing branches (SplitFailed, the panics in propagation and root creation, value.expect) must be unreachable in every reachable state.", "anchors": ["src/tree/generic.rs: handle_leaf_split_generic", "src/tree/split/propagation.rs: propagation_loop", "src/tree/split/root_creation.rs", "src/leaf24.rs: assign_from_key_arc"]}
{"id": "C07", "title": "Inserting one key does not disturb the others", "statement": "Used from one thread, insert(k,v) leaves get(k') unchanged for every other key k'.", "quantifier": "all finite histories, all pairs of distinct keys", "why_tests_cant": "An insert can split leaves and internodes and convert entries to layers; all other keys must survive all of that.", "anchors": ["src/tree/generic.rs: handle_leaf_split_generic, create_layer_concurrent_generic", "src/internode.rs: split_into, insert_key_and_child"]}
{"id": "C08", "title": "Over-long keys are rejected without effect", "statement": "get and insert with a key longer than 256 bytes panic before touching the tree; every key of length 0..=256 is accepted.", "quantifier": "all keys of all lengths, all tree states", "why_tests_cant": "Boundary must hold for all keys and states, not only the tested lengths.", "anchors": ["src/key.rs: Key::new, MAX_KEY_LENGTH", "src/tree/generic.rs: get_with_guard, insert_with_guard"]}
{"id": "C09", "title": "Lookups are read-only", "statement": "get and get_ref change nothing: the tree state after a lookup is identical to the one before, whether or not the key is present.", "quantifier": "all reachable tree states and all keys", "why_tests_cant": "Must hold in every state and for every path a lookup can take.", "anchors": ["src/tree/generic.rs: get_concurrent_generic, get_ref_generic"]}
{"id": "C10", "title": "get_ref agrees with get", "statement": "In every reachable state get_ref(k) yields a reference exactly when get(k) yields a value, and to the same value.", "quantifier": "all reachable tree states and all keys", "why_tests_cant": "Two separate copies of the lookup loop have to agree everywhere.", "anchors": ["src/tree/generic.rs: get_ref_generic, get_concurrent_generic"]}
{"id": "C11", "title": "Slice order is byte-string order", "statement": "Comparing keys slice by slice, by the 64-bit big-endian value of each zero-padded 8-byte slice and then by length, gives exactly the lexicographic order of the byte strings.", "quantifier": "all pairs of byte strings", "why_tests_cant": "Infinite domain; padding makes short slices collide with slices that contain zero bytes.", "anchors": ["src/key.rs: read_ikey, compare, shift, suffix"]}
{"id": "C12", "title": "Slicing a key loses nothing", "statement": "Splitting a key into its slice, its remaining length and its suffix identifies the key: two keys with the same slices and the same remaining length are the same byte string, and shift/unshift navigate between slices without changing the key.", "quantifier": "all byte strings up to 256 bytes and all shift/unshift sequences", "why_tests_cant": "Infinite domain, boundary lengths at multiples of 8.", "anchors": ["src/key.rs: Key::new, from_suffix, shift, shift_by, unshift, unshift_all, suffix, has_suffix, current_len"]}
{"id": "C13", "title": "24-slot permutation word stays a permutation", "statement": "Every sequence of insert_from_back / remove / remove_to_back / exchange / rotate / swap_free_slots / set_size operations within bounds, starting from an empty or sorted permutation word, yields a word that contains each of the 24 slot numbers exactly once.", "quantifier": "all operation sequences and all positions", "why_tests_cant": "24! permutations times 25 sizes; tests sample a few.", "anchors": ["src/permuter24.rs"]}
{"id": "C14", "title": "24-slot permutation operations do the documented list operation", "statement": "insert_from_back(i) takes the last free slot and puts it at logical position i, shifting later entries by one and keeping their order; remove(i) and remove_to_back(i) delete position i; exchange and rotate act as documented; make_sorted(n) is the identity on n entries.", "quantifier": "all valid permutation words, all positions", "why_tests_cant": "24! states.", "anchors": ["src/permuter24.rs: insert_from_back, insert_from_back_immutable, remove, remove_to_back, exchange, rotate, make_sorted, back, back_at_offset, swap_free_slots, set_size"]}
{"id": "C15", "title": "The generic permuter is correct at every width", "statement": "For every WIDTH from 1 to 15 the u64 permutation word satisfies the same laws as the 24-slot one.", "quantifier": "all widths 1..=15, all valid words, all positions", "why_tests_cant": "15! states for each width.", "anchors": ["src/permuter.rs"]}
{"id": "C16", "title": "Freezing a permutation is detectable and reversible", "statement": "No valid permutation word is mistaken for a frozen one, freezing is always detected, freezing keeps the size and the first 23 positions, and unfreezing with the remembered slot restores the exact word.", "quantifier": "all valid 24-slot permutation words", "why_tests_cant": "24! states.", "anchors": ["src/freeze24.rs", "src/leaf24/freeze.rs"]}
{"id": "C17", "title": "Suffix storage is a faithful slot map", "statement": "After any sequence of assign / try_assign_in_place / clear / compact operations, get(slot) returns exactly the bytes last assigned to that slot (None if cleared or never assigned), regardless of how the underlying buffer grew, as long as fewer than 2^32-1 bytes are written in total.", "quantifier": "all operation sequences, slots and byte strings of up to 65535 bytes, all buffer capacities", "why_tests_cant": "Offsets into one shared byte buffer; aliasing between slots shows only in particular sequences.", "anchors": ["src/suffix.rs"]}
{"id": "C18", "title": "Compaction keeps live suffixes and drops the rest", "statement": "compact keeps the bytes of every slot named as active, removes all others, and leaves a buffer whose size is exactly the sum of the kept suffix lengths. Compacting the suffix storage of a leaf changes none of its entries unless an entry in use is excluded on purpose, hands the old storage to the collector exactly once, leaves it readable for others, and returns the number of bytes saved.", "quantifier": "all suffix bags, all active sets; all leaves and slot arrangements", "why_tests_cant": "All buffer layouts including dead gaps.", "anchors": ["src/suffix.rs: compact, compact_with_permuter", "src/leaf24.rs: compact_ksuf"]}
{"id": "C19", "title": "Node lock gives mutual exclusion", "statement": "However many threads call lock/lock_with_yield/try_lock/try_lock_for/mark/unlock on a node, at most one of them holds the lock at any time, and every unlock releases exactly the holder's lock.", "quantifier": "all numbers of threads and all interleavings of atomic accesses", "why_tests_cant": "Schedules are unbounded; a stress test samples a few.", "anchors": ["src/nodeversion.rs: lock, lock_with_yield, try_lock, try_lock_for, LockGuard"]}
{"id": "C20", "title": "Unchanged version means no completed modification", "statement": "If stable() returned v and a later has_changed(v) returns false then no critical section on that node was completed in between, provided fewer than 2^19 were. If has_changed_or_locked(v) returns false then, moreover, at no moment in between was the node locked or a thread inside a critical section.", "quantifier": "all interleavings of readers and writers, all initial version words", "why_tests_cant": "Depends on every interleaving and on counter arithmetic over the full range.", "anchors": ["src/nodeversion.rs: stable, has_changed, has_changed_or_locked, has_split, LockGuard::drop"]}
{"id": "C21", "title": "Version counter overflow never corrupts flags", "statement": "However often a node is locked and unlocked, its is-leaf and deleted flags never change because of counter overflow, no lock or dirty bit survives an unlock, and the addition never overflows 32 bits.", "quantifier": "all version words reachable by any number of lock/mark/unlock operations", "why_tests_cant": "Overflow happens after 2^25 operations on one node.", "anchors": ["src/nodeversion.rs: LockGuard::drop, unlock_for_split, SPLIT_UNLOCK_MASK, UNLOCK_MASK"]}
{"id": "C22", "title": "Internode insertion and split preserve routing", "statement": "Inserting a separator and child into an internode, or splitting a full one around an insertion, sends every search key to the same child as before, except that keys at or above the new separator within the split child's range go to the new child.", "quantifier": "all internode contents, all insert positions, all search keys", "why_tests_cant": "16 positions times all 64-bit keys and contents.", "anchors": ["src/internode.rs: insert_key_and_child, split_into, shift_from", "src/ksearch.rs: upper_bound_internode_generic"]}
{"id": "C23", "title": "Binary and linear searches agree with the specification", "statement": "Each lower/upper bound search returns the number of keys strictly below (or not above) the target, and reports a match exactly when the target is present, for every sorted key sequence of every length. The insert position of an internode is the number of its separators below the key.", "quantifier": "all sorted key sequences, all targets, all sizes", "why_tests_cant": "Unbounded inputs; off-by-one errors show at specific sizes.", "anchors": ["src/ksearch.rs", "src/internode.rs: find_insert_position, compare_key"]}
{"id": "C24", "title": "Vectorised searches equal the scalar ones", "statement": "find_exact, find_all_matches and count_le return the same result whichever of the AVX2, SSE2 or scalar implementation is selected at run time.", "quantifier": "all key arrays, sizes and targets", "why_tests_cant": "2^64 values per lane; signedness and tail handling show only on special values.", "anchors": ["src/ksearch/simd.rs", "src/ksearch/simd_search.rs"]}
{"id": "C25", "title": "Splitting a leaf keeps its entries", "statement": "A leaf split distributes the entries of the leaf over the two leaves without losing, duplicating, reordering or altering any (slice, length class, suffix, value) entry, both halves are non-empty, and the new leaf's lower bound is its first entry's slice. The variant that moves every entry to the new leaf likewise keeps them all and leaves the old leaf empty.", "quantifier": "all full leaves with all slot permutations and all split positions", "why_tests_cant": "24! slot arrangements and all suffix layouts.", "anchors": ["src/leaf24.rs: split_into_preallocated, calculate_split_point", "src/leaf24.rs: split_all_to_right_preallocated"]}
{"id": "C26", "title": "A split never separates keys that share a slice", "statement": "A leaf split never puts keys whose current 8-byte slices are equal into different leaves, so each of them stays reachable.", "quantifier": "all leaf contents and all inserted slices", "why_tests_cant": "Only special arrangements of equal slices around the middle position show it.", "anchors": ["src/leaf24.rs: calculate_split_point (Greater => break)"]}
{"id": "C27", "title": "Leaf chain is complete and ordered", "statement": "Following next links from the leftmost leaf of a layer visits every entry of that layer exactly once in ascending slice order, and the links are consistent with the tree above it.", "quantifier": "all finite histories", "why_tests_cant": "Global shape invariant over all histories.", "anchors": ["src/leaf24.rs: link_sibling, ikey_bound, can_reuse_slot0", "src/tree/generic.rs: advance_to_key_by_bound_generic"]}
{"id": "C28", "title": "Balanced depth", "statement": "All leaves of a layer are at the same depth, every internode has between 1 and 15 keys and every non-root internode at least 7, so lookup cost is logarithmic in the number of entries.", "quantifier": "all finite histories", "why_tests_cant": "Global shape invariant over all histories.", "anchors": ["src/internode.rs: split_into", "src/tree/split/propagation.rs"]}
{"id": "C29", "title": "Every value is freed exactly once", "statement": "For every history, when the tree is dropped every value ever stored has been released exactly once: replaced values by deferred reclamation, current ones by the drop; none leaks and none is freed twice.", "quantifier": "all finite single-threaded histories followed by drop", "why_tests_cant": "Ownership of each pointer over all histories.", "anchors": ["src/leaf24.rs: Drop", "src/tree.rs: Drop", "src/slot.rs: cleanup_value_ptr", "src/tree/generic.rs: defer_retire calls", "src/alloc24.rs: teardown_tree24"]}
{"id": "C30", "title": "Concurrent lookups never miss a present key", "statement": "If an insert of k completed before get(k) started, and keys are never removed, get(k) returns Some, whatever other threads insert meanwhile.", "quantifier": "all histories, all numbers of threads, all schedules", "why_tests_cant": "Only specific interleavings inside a node update show a violation.", "anchors": ["src/tree/generic.rs: reach_leaf_concurrent_generic, get_concurrent_generic", "src/nodeversion.rs: has_changed", "src/internode.rs: insert_key_and_child"]}
{"id": "C31", "title": "Concurrent lookups never misinterpret memory", "statement": "No schedule makes get(k) treat an internal node as a value or a value as a node.", "quantifier": "all histories, all numbers of threads, all schedules", "why_tests_cant": "Needs a specific interleaving between two stores of another thread.", "anchors": ["src/tree/generic.rs: get_concurrent_generic (match_snapshot), insert_concurrent_generic (Conflict branch)", "src/leaf24.rs: clear_ksuf"]}
{"id": "C32", "title": "Concurrent inserts are not lost", "statement": "If an insert of k completed, then (keys never being removed) every later get(k) returns a value, whatever the schedule of the inserts was.", "quantifier": "all histories, all numbers of threads, all schedules", "why_tests_cant": "Only specific interleavings show a violation.", "anchors": ["src/tree/generic.rs: insert_concurrent_generic (post-lock check), reach_leaf_concurrent_generic"]}
{"id": "C33", "title": "Linearizability on a single node", "statement": "While all keys in use fit in one leaf, have at most 8 bytes, and number at most 24, every concurrent execution of any number of get and insert calls is linearizable: each call's result is the one of a map operation taking effect at one instant within the call.", "quantifier": "all numbers of threads and operations, all schedules", "why_tests_cant": "Unbounded number of schedules.", "anchors": ["src/tree/generic.rs: get_concurrent_generic, insert_concurrent_generic, assign_slot_generic", "src/nodeversion.rs"]}
{"id": "C34", "title": "Single-threaded lookups and inserts terminate", "statement": "Used from one thread every get and insert finishes: no retry, wait, descent or search loop spins for ever in any reachable state; no loop of the code runs more than 300 times, whatever the number of entries.", "quantifier": "all finite histories of calls with keys of at most 256 bytes, less than 4 GiB in total", "why_tests_cant": "Wait loops depend on flag bits left behind by all previous operations.", "anchors": ["src/tree/generic.rs: loops", "src/nodeversion.rs: stable, lock", "src/leaf24.rs: wait_for_split"]}
{"id": "C35", "title": "Re-descent after too many sibling hops keeps the key", "statement": "When an insert gives up following sibling links and restarts from the main root, it still inserts the complete key.", "quantifier": "all keys and all states in which the hop limit is hit", "why_tests_cant": "Needs more than 128 sibling hops inside a sublayer.", "anchors": ["src/tree/generic.rs: insert_concurrent_generic lines 1587-1593, MAX_BLINK_HOPS"]}
{"id": "C36", "title": "Suffix storage works without a size limit", "statement": "The suffix storage keeps every assigned suffix however many bytes were written to it before (the storage of a long-lived leaf is never compacted by the tree).", "quantifier": "all operation sequences, without a bound on the bytes written", "why_tests_cant": "Needs more than 4 GiB of suffix bytes written to one leaf.", "anchors": ["src/suffix.rs: assign, try_assign_in_place (offsets are cast to u32)"]}
{"id": "C37", "title": "is_empty is safe while other threads insert", "statement": "is_empty() never interprets a node of another kind as a leaf, whatever other threads insert meanwhile, and answers.", "quantifier": "all states of the tree, all concurrent inserts, all schedules", "why_tests_cant": "Only a root split exactly between the two loads of the root pointer shows a violation.", "anchors": ["src/tree/generic.rs: is_empty, root_is_leaf_generic", "src/tree/split/root_creation.rs: create_root_from_leaves"]}
{"id": "C38", "title": "Concurrent calls are memory safe and do not panic", "statement": "While any number of threads insert keys that do not make the tree create a deeper layer (no two different inserted keys of more than 8 bytes agree in their first 8 bytes) and look up any keys, no call panics (other than the documented panic after 64 rounds of failing to lock a parent), reads a freed node or value, or takes one kind of node for another, even if retired values are freed at the earliest moment the guards allow; and nothing is freed twice.", "quantifier": "all numbers of threads, all sequences of insert/get/get_ref/len calls per thread, all interleavings of their atomic accesses and of the collector's frees", "why_tests_cant": "Splits of leaves, internodes and of the root race with each other and with lookups in unboundedly many ways.", "anchors": ["src/tree/generic.rs: insert_with_guard, get_with_guard, get_ref", "src/tree/split/propagation.rs", "src/tree/split/root_creation.rs", "src/leaf24.rs: split_into"]}
{"id": "C39", "title": "A concurrent lookup never invents a value", "statement": "If get or get_ref answers with a value v for key k while other threads insert (keys needing no deeper layer), then some thread had already called insert(k, v): never the value of another key, a half-written slot or a freed value.", "quantifier": "all threads, scripts and schedules, with fewer than 2^19 atomic accesses during the lookup", "why_tests_cant": "Needs a lookup overlapping slot reuse, splits and value replacement at the worst instants.", "anchors": ["src/tree/generic.rs: get_with_guard, search_leaf", "src/nodeversion.rs: stable, has_changed"]}
{"id": "C40", "title": "A concurrent insert answers soundly and does not fail", "statement": "If insert(k, _) answers with a replaced value v, some thread had called insert(k, v) before; insert never answers with an error; every answer belongs to the call its thread made last and is of its kind.", "quantifier": "all threads, scripts (inserted keys of up to 256 bytes of which no two different inserted keys of more than 8 bytes agree in their first 8 bytes; fewer than 16 million insertions if a key has more than 8 bytes) and schedules", "why_tests_cant": "Replacement races with splits that move the entry to another leaf.", "anchors": ["src/tree/generic.rs: insert_with_guard, search_for_insert_generic"]}
{"id": "C41", "title": "After concurrent use no lock is left behind and everything is freed exactly once", "statement": "When all calls have returned, no node is locked, every retired value can be freed, and dropping the tree frees every node and value exactly once and leaves nothing behind.", "quantifier": "all threads, scripts (inserted keys of up to 256 bytes of which no two different inserted keys of more than 8 bytes agree in their first 8 bytes; fewer than 16 million insertions if a key has more than 8 bytes), schedules and collection times", "why_tests_cant": "A lock or an allocation leaked on a rare retry path shows only under that schedule.", "anchors": ["src/tree/generic.rs: insert_with_guard, Drop", "src/tree/split/propagation.rs: lock hand-over", "src/tree.rs: drop"]}
{"id": "C42", "title": "len under concurrency", "statement": "When all calls have returned, len() is the number of insert calls that answered 'not there before'. A len() called meanwhile answers at least the number of those that had answered when it was called, and at most the number of inserts called before its answer less those that had answered otherwise when it was called.", "quantifier": "all threads, all scripts with arbitrary keys, all schedules", "why_tests_cant": "A missed or doubled count on one path of one retry is invisible until that schedule.", "anchors": ["src/tree/generic.rs: len, insert_with_guard (count)"]}
{"id": "C43", "title": "A replaced value is handed back exactly to one caller", "statement": "If the inserted values are pairwise different, no two insert calls answer with the same replaced value, and an insert never answers with the value it inserts itself.", "quantifier": "all threads, scripts (inserted keys of up to 256 bytes of which no two different inserted keys of more than 8 bytes agree in their first 8 bytes; fewer than 16 million insertions if a key has more than 8 bytes, values pairwise different), schedules and collection times", "why_tests_cant": "Two threads replacing the same entry would have to interleave inside the pointer exchange, or one of them meet a split, for a value to be handed out twice.", "anchors": ["src/tree/generic.rs: insert_with_guard (replacement of an existing value)", "src/leaf24.rs: take/swap of leaf values"]}
{"id": "C44", "title": "No stale lookups", "statement": "If an insert has answered with the replaced value v, no lookup called after that answer returns v.", "quantifier": "all threads, scripts (inserted keys of up to 256 bytes of which no two different inserted keys of more than 8 bytes agree in their first 8 bytes; fewer than 16 million insertions if a key has more than 8 bytes, values pairwise different), schedules and collection times", "why_tests_cant": "A reader may reach an old leaf, an old slot or an old pointer at any point of a split.", "anchors": ["src/tree/generic.rs: get_with_guard, insert_with_guard", "src/tree/split/: leaf split"]}
{"id": "C45", "title": "No value is lost or kept too long under concurrency", "statement": "When all calls have returned, the tree holds a value v under a key k if and only if insert(k, v) was called and v has not been handed back as a replaced value; besides these only values waiting for the collector are in memory.", "quantifier": "all threads, scripts (inserted keys of up to 256 bytes of which no two different inserted keys of more than 8 bytes agree in their first 8 bytes; fewer than 16 million insertions if a key has more than 8 bytes, values pairwise different), schedules and collection times", "why_tests_cant": "A value dropped or duplicated by a split racing with a replacement shows only under that schedule.", "anchors": ["src/tree/generic.rs: insert_with_guard", "src/tree/split/: leaf split", "src/leaf24.rs: split_into_preallocated"]}
{"id": "C46", "title": "A reference lives as long as its guard", "statement": "A caller who takes a guard and gets a reference from get_ref under it can read the value through that reference, unchanged, until they drop the guard, even if the value is replaced meanwhile and the collector runs; calls under a guard held across calls answer as calls under their own guard, none meets undefined behaviour or frees an object twice; and once all calls have returned and all guards are dropped nothing keeps replaced values from being freed.", "quantifier": "all threads, scripts (inserted keys of up to 256 bytes of which no two different inserted keys of more than 8 bytes agree in their first 8 bytes; fewer than 16 million insertions if a key has more than 8 bytes), ways of taking and dropping guards between calls, schedules and collection times", "why_tests_cant": "Whether a freed value is read through a reference depends on the moments of replacement, collection and guard release, and shows as silent memory corruption.", "anchors": ["src/tree/generic.rs: guard, get_ref, get_with_guard, insert_with_guard", "src/tree.rs: reclamation (seize collector)"]}
{"id": "C47", "title": "Lookups do not disturb the one thread that inserts", "statement": "If one thread inserts while any number of others only look up, the inserting thread never fails, finishes within a number of its own steps that the others cannot change (they can neither block it nor make it retry), gets the answers it would get alone and leaves the tree it would leave alone.", "quantifier": "all histories before, all keys of up to 256 bytes, all scripts of the inserting thread, all numbers of looking-up threads, all schedules", "why_tests_cant": "A lookup that wrote anything (a hint, a lock bit, a repaired link) would disturb the writer only in rare schedules.", "anchors": ["src/tree/generic.rs: get_concurrent_generic, insert_concurrent_generic", "src/nodeversion.rs: stable, lock", "src/tree/generic.rs: len, is_empty"]}
{"id": "C48", "title": "What callers see never goes back in time", "statement": "Once a returned call has told its caller of value v (a lookup found it, an insert handed it back, or it is the value of an insert that has returned), no call that begins afterwards, by any thread, finds or hands back a value that v replaced, directly or through a chain of replacements.", "quantifier": "all threads, scripts (inserted keys of up to 256 bytes of which no two different inserted keys of more than 8 bytes agree in their first 8 bytes; fewer than 16 million insertions if a key has more than 8 bytes, values pairwise different), schedules and collection times", "why_tests_cant": "A reader may hold an old leaf, slot or pointer at any point of a replacement or split while another reader already sees the new value; whether two readers can see new-then-old depends on the interleaving of single memory accesses.", "anchors": ["src/tree/generic.rs: get_with_guard, get_ref, insert_with_guard (order of storing the new pointer, unlocking and retiring the old value)", "src/leaf24.rs: leaf value slots"]}
{"id": "C49", "title": "Every call takes effect at one instant", "statement": "The answers of concurrent calls are those of a collection of (key, value) entries on which each call acts at one instant between its invocation and its return: an insert adds an entry and answers None, or replaces the value of an entry with the same key and answers that value; a lookup answers the value of an entry with its key, or None. Once all calls have returned, the tree holds exactly the entries of that collection.", "quantifier": "all threads, scripts (inserted keys of up to 256 bytes of which no two different inserted keys of more than 8 bytes agree in their first 8 bytes; fewer than 16 million insertions if a key has more than 8 bytes, values pairwise different), schedules and collection times, as long as no lookup takes 2^19 or more memory accesses of all threads together", "why_tests_cant": "Atomicity is a statement about every interleaving of single memory accesses: one schedule in which a lookup returns a value that was in the tree at no instant during the call, or in which an insert hands back a value another insert has handed back, refutes it.", "anchors": ["src/tree/generic.rs: get_with_guard, get_ref, insert_with_guard", "src/leaf24.rs: leaf value slots and permutation"]}
{"id": "C50", "title": "The tree is an atomic map but for missed lookups and repeated None", "statement": "If in a history no two inserts of the same key answered None, then the history is one of an atomic map from keys to values, except that a lookup may answer None; and once all calls have returned, the tree holds exactly that map.", "quantifier": "all threads, scripts (inserted keys of up to 256 bytes of which no two different inserted keys of more than 8 bytes agree in their first 8 bytes; fewer than 16 million insertions if a key has more than 8 bytes, values pairwise different), schedules and collection times, as long as no lookup takes 2^19 or more memory accesses of all threads together; histories in which no two inserts of one key answer None and all calls have returned", "why_tests_cant": "As C49; it says that the duplicate insertions of C01/C02 and the missed lookups of C30 are the only ways in which the tree deviates from a linearizable map, which no finite set of runs can show.", "anchors": ["src/tree/generic.rs: get_with_guard, get_ref, insert_with_guard"]}
{"id": "C51", "title": "With exclusive inserts the tree is a linearizable map", "statement": "If no insert overlaps another call (which the signatures of MassTreeIndex enforce, and a reader-writer lock around a tree) then get, get_ref, len, is_empty and insert behave like those of a map on which every call takes effect at one instant between its invocation and its return, whatever the overlap of the reading calls and whenever replaced values are freed; no call panics or touches freed memory. Between calls the tree holds exactly that map and len is its size.", "quantifier": "all threads, scripts (keys of up to 256 bytes, less than 4 GiB in total, no two inserted keys confusable in the sense of C01), schedules in which no insert overlaps another call, and collection times", "why_tests_cant": "Reading calls of many threads interleave access by access with each other and with the freeing of objects retired by earlier inserts; a reader that keeps a pointer across its steps to something freed would only show under particular schedules.", "anchors": ["src/tree/index.rs: MassTreeIndex::{get, insert, len, is_empty}", "src/tree/generic.rs: get_with_guard, get_ref, insert_with_guard, len, is_empty"]}
{"id": "C52", "title": "With exclusive inserts every call completes", "statement": "If no insert overlaps another call, then from every moment on each call in progress returns after its thread has made some number of further steps, no matter what the other threads and the collector do meanwhile: no call waits for another.", "quantifier": "all threads, scripts (keys of up to 256 bytes, less than 4 GiB in total), schedules in which no insert overlaps another call, collection times, and all continuations of these", "why_tests_cant": "Progress for every schedule and every continuation is a liveness statement; a lock or mark left behind by some history of inserts would make later calls spin.", "anchors": ["src/tree/index.rs: MassTreeIndex", "src/tree/generic.rs: get_with_guard, insert_with_guard", "src/nodeversion.rs: stable, lock", "src/leaf24.rs: wait_for_split"]}
{"id": "C53", "title": "Serialized inserts are exact whatever lookups do meanwhile", "statement": "If no insert overlaps another insert (one inserting thread, or a mutex around insert) while lookups run at any time, then every insert answers like a map that has received the inserts called before it, every other call that overlaps no insert answers exactly what that map holds, and whenever no insert is in progress the tree holds exactly that map and len is its size. No insert panics or touches freed memory, nothing is freed twice, and only a lookup that overlaps an insert can fail at all.", "quantifier": "all threads, scripts (keys of up to 256 bytes, less than 4 GiB in total; for the exact answers no two inserted keys confusable in the sense of C01), schedules in which no insert overlaps another insert, and collection times", "why_tests_cant": "Lookups interleave access by access with insertions, splits and new layers, and with the freeing of retired objects at every possible moment.", "anchors": ["src/tree/generic.rs: get_with_guard, get_ref, insert_with_guard, len, is_empty", "src/tree/locked24.rs"]}
{"id": "C54", "title": "Serialized inserts complete whatever lookups do", "statement": "If no insert overlaps another insert, then from every moment on the insert in progress returns after its thread has made some number of further steps, no matter what lookups and the collector do meanwhile: lookups never delay an insert.", "quantifier": "all threads, scripts (keys of up to 256 bytes, less than 4 GiB in total), schedules in which no insert overlaps another insert, collection times, and all continuations of these", "why_tests_cant": "Progress for every schedule and every continuation is a liveness statement.", "anchors": ["src/tree/generic.rs: insert_with_guard", "src/nodeversion.rs: stable, lock", "src/leaf24.rs: wait_for_split"]}
{"id": "C55", "title": "Concurrent updates of existing keys are linearizable", "statement": "Once calls made one after another have filled the tree, any number of threads may insert values for keys it already holds, look keys up, and ask for len and is_empty, all at the same time: every call takes effect atomically at one moment between its start and its return, and answers exactly as a map does at that moment (an insert hands back the value it replaced, a lookup the current value, keys not present are reported absent). When all calls have returned the tree holds exactly that map, and later calls answer as it does.", "quantifier": "all histories of calls that fill the tree (keys of up to 256 bytes, less than 4 GiB in total, no two inserted keys confusable in the sense of C01), all numbers of threads, scripts whose inserts use keys inserted before, schedules and collection times", "why_tests_cant": "Interleavings of single memory accesses of many updates and lookups, through splits and layers built by an arbitrary history, and with the freeing of replaced values at every possible moment.", "anchors": ["src/tree/generic.rs: get_with_guard, get_ref, insert_with_guard, search_for_insert_generic, len, is_empty", "src/tree/locked24.rs", "src/leaf24.rs", "src/nodeversion.rs"]}
{"id": "C56", "title": "Concurrent updates of existing keys are memory safe", "statement": "In the executions of C55 no call panics or reads memory that has been freed, no lookup receives a value that was freed, and nothing is freed twice.", "quantifier": "as C55", "why_tests_cant": "The freeing of replaced values interleaves with every access of every other call; a value freed one moment too early shows only in rare schedules.", "anchors": ["src/tree/generic.rs: get_with_guard, insert_with_guard", "src/tree/locked24.rs", "src/alloc24.rs"]}
{"id": "C57", "title": "Freezing a leaf excludes every other publication", "statement": "The permutation of a leaf behaves as one atomic object that is either open or frozen, whatever threads read it, wait for it, publish by compare-and-swap, freeze it and finish or abandon the freeze: while it is frozen every compare-and-swap is refused and reported as frozen, and readers are told it is frozen instead of getting a permutation; a freeze hands over exactly the permutation of that moment, and at most one freeze is in progress; finishing publishes exactly the new permutation; abandoning the freeze (a panic during the split) restores exactly the permutation from before; no publication is lost. The asserting compare-and-swap takes effect in one access: it panics on a frozen leaf without changing it, exchanges exactly when it finds the expected permutation, and otherwise hands over the one it found.", "quantifier": "all leaves nobody has locked, all permutations, all numbers of threads, scripts of these calls and schedules", "why_tests_cant": "A publication lost between the load and the store of a freeze, or a compare-and-swap that succeeds on a frozen word, needs a particular interleaving of single accesses; unwinding in the middle of a split is not exercised at all.", "anchors": ["src/leaf24/freeze.rs: permutation_try, permutation_wait, freeze_permutation, try_freeze_permutation, unfreeze_set_permutation, FreezeGuard24", "src/leaf24/cas.rs: cas_permutation_raw, CasPermutationFailure24", "src/freeze24.rs"]}
{"id": "C58", "title": "Concurrent updates never deadlock and leave no lock behind", "statement": "In the executions of C55, whatever the threads have done so far, the calls under way can always be brought to an end, one thread after the other, without starting any new call; then no node of the tree is locked, and the tree holds the map that all calls made so far explain: later calls of a single thread return, and answer as that map does. No call ends, however long it had to wait, with a lock still held.", "quantifier": "as C55: all histories that fill the tree, all numbers of threads, scripts that insert only keys the tree holds, all schedules and collection times, and every moment of them", "why_tests_cant": "A lock kept on one rare path, or two threads waiting for each other, blocks only the schedules that reach it, and a test that hangs says nothing about the others.", "anchors": ["src/tree/generic.rs: insert_with_guard, insert_concurrent_generic", "src/nodeversion.rs: lock, LockGuard", "src/tree/locked24.rs"]}
{"id": "C59", "title": "Matching an entry of a leaf is exact", "statement": "For an entry of a leaf and a key with the same first eight bytes (padded), the layer-aware match answers 1 exactly when the entry's key is that key, 0 when it is a different key, and -8 when the entry points to a deeper layer, whatever is asked for; comparing suffixes gives the byte-wise order of what follows the first eight bytes, and nothing for an entry that has no such bytes.", "quantifier": "all leaves, slots, stored keys and keys asked for, including zero bytes and keys of exactly 8 or 9 bytes", "why_tests_cant": "The confusions concern particular pairs of keys (zero padding, lengths around eight) out of all pairs.", "anchors": ["src/leaf24.rs: ksuf_match_result, ksuf_equals, ksuf_compare", "src/leaf_trait.rs: ksuf_match_result"]}
{"id": "C60", "title": "ksuf_matches tells whether an entry's key is the given key", "statement": "ksuf_matches(slot, first eight bytes, remaining bytes) returns true exactly when the entry's full key is the given key. (False for keys of up to eight bytes: see the refutation.)", "quantifier": "all leaves, slots, stored keys and keys asked for", "why_tests_cant": "Fails only for keys that differ in trailing zero bytes, or for an entry that has become a layer.", "anchors": ["src/leaf24.rs: ksuf_matches", "src/leaf_trait.rs: ksuf_matches"]}
{"id": "C61", "title": "A lock-free insertion running alone inserts exactly its key, or changes nothing and says why", "statement": "After any history of calls, a lock-free insertion (try_cas_insert_generic) that runs alone returns without panic or undefined behaviour. If it reports success, the key was absent, len grows by one and every lookup answers the last value inserted for its key. If it reports the key as existing, the key was present; if it reports a full leaf, the key was absent and a leaf is full; if it gives up, the key is longer than eight bytes; in these cases nothing changed. An insertion that tries it first and falls back to the locked insertion answers every history of calls as a map does, with garbage collected at any moment, and dropping the tree afterwards frees every value and node exactly once.", "quantifier": "all histories of calls (any number, any keys up to 256 bytes without the pairs of C01), all keys and values", "why_tests_cant": "The slot it picks, the place in the order, and the leaf depend on the whole history (splits, layers, removed reservations); a test covers a few shapes of the tree.", "anchors": ["src/tree/generic.rs: try_cas_insert_generic, pick_free_slot_avoiding_reserved", "src/leaf24.rs: cas_slot_value, store_key_data_for_cas", "src/leaf24/cas.rs: cas_permutation_raw"]}
{"id": "C62", "title": "Lock-free and locked insertions can run at the same time", "statement": "When threads insert different keys, each by trying the lock-free insertion first and falling back to the locked one, no insertion panics and every key whose insertion returned is found afterwards. (False: see the refutation; the code has this path switched off.)", "quantifier": "all keys, numbers of threads and schedules", "why_tests_cant": "The loss needs a lock taken between one particular version check and the store that follows it.", "anchors": ["src/tree/generic.rs: try_cas_insert_generic, insert_concurrent_generic"]}
{"id": "C63", "title": "Lock-free insertions running at the same time lose nothing", "statement": "After any history of calls, any number of lock-free insertions (try_cas_insert_generic), with equal or different keys, run at the same time and nothing else does. None of them panics or does anything undefined. When all are over: those that report success had keys that were absent and pairwise different; one that reports the key as existing has its key in the tree; one that reports a full leaf is right; one that gives up has a key longer than eight bytes or another call succeeded; and every later history of calls (lookups, len, locked insertions) is answered as by the map with the successful insertions added and with no trace of the others; dropping the tree after that frees everything exactly once, so no value of a failed call is leaked or freed twice.", "quantifier": "all histories of calls before and after (keys up to 256 bytes without the pairs of C01), all numbers of concurrent calls, keys and values, all schedules of their atomic steps", "why_tests_cant": "Slots are reserved, filled and published in separate steps; whether two calls share a slot, publish over each other or leave a reservation behind depends on the interleaving, and there are exponentially many.", "anchors": ["src/tree/generic.rs: try_cas_insert_generic, pick_free_slot_avoiding_reserved, CLAIMING_SENTINEL", "src/leaf24.rs: cas_slot_value, store_key_data_for_cas", "src/leaf24/cas.rs: cas_permutation_raw", "src/slot.rs: cleanup_value_ptr"]}
{"id": "C64", "title": "Lookups beside lock-free insertions miss nothing and disturb nothing", "statement": "After any history of calls, any number of lock-free insertions (try_cas_insert_generic) and of lookups (get) run at the same time and nothing else does. None of them panics or does anything undefined. A lookup that answers a value answers the value of its key in the earlier history, or that of an insertion of its key which has begun and which, if it is over, succeeded. A lookup that answers none is right about the earlier history, and when it began no insertion of its key had succeeded or reported the key as existing, and no lookup of the key had answered a value. When all calls are over, the insertions have had the same effect as without lookups (C63).", "quantifier": "all histories of calls before and after (keys up to 256 bytes without the pairs of C01), all numbers of concurrent insertions and lookups, all keys (also long ones in deeper layers for the lookups) and values, all schedules of their atomic steps", "why_tests_cant": "A lookup reads the permutation, the slices, the lengths, the suffixes and the pointers of a leaf in separate steps while slots of the same leaf are reserved, filled, published and given up; a stale or half-written entry shows only under particular interleavings.", "anchors": ["src/tree/generic.rs: try_cas_insert_generic, get_concurrent_generic", "src/leaf24.rs: cas_slot_value, store_key_data_for_cas, ksuf_equals", "src/leaf24/cas.rs: cas_permutation_raw"]}
{"id": "C65", "title": "The version word for single-threaded use agrees with the shared one", "statement": "For every sequence of calls from creation on (lock with any marks and drop of the guard, mark_root, mark_nonroot, stable, has_changed, has_split, is_leaf, is_root, is_deleted), SingleThreadedNodeVersion gives the same answers as NodeVersion used by one thread, and holds the same 32-bit value between calls.", "quantifier": "all sequences of calls of any length (so across overflow of both counters), all marks in a section, all old versions asked about, leaves and internodes", "why_tests_cant": "The two types update the word by different code (one sets and clears the lock and inserting bits, the other never does); their values could drift apart only after particular combinations of marks or when a counter overflows into a neighbouring field.", "anchors": ["src/nodeversion.rs: SingleThreadedNodeVersion, SingleThreadedLockGuard", "src/nodeversion.rs: NodeVersion, LockGuard"]}
{"id": "C66", "title": "A new split sibling stays locked until its creator unlocks it", "statement": "From its creation by new_for_split until its creator calls unlock_for_split, a node is locked and marked as splitting, so is_split_locked answers true and nobody else can lock it, whatever other threads that reach it do (try to lock, wait for a stable version, mark it as root or not).", "quantifier": "all numbers of other threads, all their scripts, all schedules, all versions of the node that is split", "why_tests_cant": "The sibling is reachable through its neighbour's link before it is unlocked; only particular interleavings let another thread touch its version word in that window.", "anchors": ["src/nodeversion.rs: new_for_split, unlock_for_split, is_split_locked"]}
{"id": "C67", "title": "All ways down the tree lead to the same leaf", "statement": "After any history of calls by one thread, and for every 8-byte slice, the descent through a shared reference (reach_leaf_generic), the one through an exclusive reference (reach_leaf_mut_generic) and the validated one of lookups and insertions all succeed, change nothing, and reach the same leaf; every entry of the layer in a leaf to the left of it has a slice not greater, and every entry to the right of it a slice not less, than the one searched for.", "quantifier": "all histories of calls (keys up to 256 bytes, ambiguous ones included), all slices", "why_tests_cant": "The descents decide by different means when they have arrived (a flag of the child, or the height kept in the parent); the two agree only if every split at every level keeps heights and flags consistent.", "anchors": ["src/tree/generic.rs: reach_leaf_generic, reach_leaf_via_internode_generic, reach_leaf_mut_generic, reach_leaf_mut_iterative_generic, reach_leaf_concurrent_generic", "src/internode.rs: children_are_leaves"]}
{"id": "C68", "title": "The slots found by the bulk comparison are exactly those with the slice", "statement": "find_ikey_matches_leaf24 answers, whichever instruction set the processor has, a mask whose bit i is set if and only if slot i of the leaf holds the slice searched for, with no bit set from 24 on; every leaf of a tree has 24 slots.", "quantifier": "all leaves, slices, instruction sets, and all histories for the number of slots", "why_tests_cant": "2^64 slices in each of 24 slots; the vector code treats blocks of four, blocks of two and the rest differently.", "anchors": ["src/ksearch/simd_search.rs: find_ikey_matches_leaf24", "src/leaf24.rs: load_all_ikeys, find_ikey_matches"]}
