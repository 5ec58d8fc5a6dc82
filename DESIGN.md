# Formal model of consistent-milk12/masstree in Coq 8.16

## 1. What is modelled

Model files (definitions only, each with the cited lines of /repo):

| Coq file | models | notes |
|---|---|---|
| `Base.v` | – | error type, small list/number helpers |
| `Key.v` | `src/key.rs` | keys as lists of bytes (`N`), slices as `N < 2^64` |
| `Perm.v` | `src/permuter24.rs`, `src/freeze24.rs`, `src/permuter.rs` | the packed word as `N` with the real shifts and masks; one definition with the word size and width as parameters (24 slots in a `u128`; 1..=15 slots in a `u64`) |
| `Suffix.v` | `src/suffix.rs` | offset/len table plus one byte buffer with a capacity |
| `Version.v` | `src/nodeversion.rs` | the `u32` word as `N` with the real masks; lock/try_lock/mark/unlock/stable/has_changed as programs |
| `VersionTry.v` | `src/nodeversion.rs` | the other ways to take the lock (`try_lock_for`, `lock_with_yield`) and the checks `simple_has_split`, `has_changed_or_locked` |
| `VersionSt.v` | `src/nodeversion.rs` 989-1134 | the version word without synchronisation, `SingleThreadedNodeVersion`, and its guard |
| `SpecVersionSt.v` | | specification of C65: the calls both version words have, and their answers |
| `Descend.v` | `src/tree/generic.rs` 289-426, `src/internode.rs` 318-320, `src/leaf24.rs` 264-272, `src/ksearch/simd_search.rs` 55-61 | the descents without validation, and the comparison of all slices of a leaf at once |
| `NodeMatch.v` | `src/leaf24.rs`, `src/internode.rs` | public methods the tree does not call: key matching and suffix compaction of a leaf, insert position of an internode |
| `Search.v` | `src/ksearch.rs`, `src/ksearch/simd.rs` | loops as fuel-free recursions on the interval / lane groups |
| `Prog.v` | – | programs = trees of atomic steps over shared memory; one sequential and one interleaving semantics |
| `Mem.v` | fields of `src/leaf24.rs`, `src/internode.rs`; `src/link.rs`, `src/alloc24.rs` | heap of leaves, internodes, suffix bags, value handles, retired list |
| `Tree.v` | `src/tree.rs`, `src/tree/generic.rs`, `src/tree/split/*.rs`, `src/leaf24.rs` (split, link, ksuf), `src/internode.rs` (insert, split), drop, deferred reclamation | `get`, `get_ref`, `insert`, `len`, `is_empty`, splits, layers, drop; one atomic step per atomic access of the code |
| `Freeze.v` | `src/leaf24/freeze.rs`, `src/leaf24/cas.rs` | reading, waiting for, freezing and publishing a leaf's permutation; the guard that undoes a freeze when dropped |
| `CasInsert.v` | `src/tree/generic.rs` 930-1266, the leaf methods it uses | the lock-free insertion (`try_cas_insert_generic`, called by nothing today) and the insertion that would try it first |
| `SpecCas.v` | | specification of C63 and C64: which of the concurrent calls succeeded, and their keys; the threads of C64 |
| `Index.v` | `src/tree/index.rs` | `MassTreeIndex`, the wrapper for copied values |

Specification files (vocabulary of the statements): `SpecKey`, `SpecPerm`,
`SpecSuffix`, `SpecVersion`, `SpecSearch`, `SpecTree`, `SpecHist`, `SpecShape`,
`SpecNode`, `SpecLin`, `SpecConc`, `SpecGuard`, `SpecSolo`, `SpecOrder`, `SpecAtomic`,
`SpecExcl`, `SpecSerial`, `SpecUpdate`, `SpecFreeze`, `SpecMatch`.

Theorems: the `Props*.v` files.  Every theorem there is closed by `exact` of a
lemma, is followed by `Print Assumptions`, and has an `Example` showing that its
hypotheses are met.  `Samples.v` holds concrete histories, `Counterexamples.v`
the executions behind the refutations.

Proof files: `*Facts`, `*Laws` (components), `TreeState` .. `TreeDrop`,
`TreeShape` (single-threaded tree), `NodeOps`, `LeafOps` (one operation on one
node in arbitrary memory), `Lin*` (concurrent executions on one leaf), `Conc*`
(concurrent executions on the whole tree), `Guard*` (explicit guards), `Solo`
(one inserting thread), `Excl*` (insertions that exclude other calls), `Serial` (that exclude each
other), `Upd*` (concurrent insertions of keys already there).

The tree code is written once, as a program whose every atomic load / store /
CAS of the Rust code is one step.  The single-threaded theorems are about
running that program alone; the concurrency theorems (and refutations) are
about interleavings of the very same programs.

### Simplifications (all stated again at the definitions)

* Memory model: sequential consistency.  The code uses acquire/release
  orderings; weaker behaviours are not modelled.
* Pointers are numbers (`0` = null, node addresses even so that the mark bit of
  `link.rs` exists).  Addresses are never reused, i.e. reclaimed memory is
  remembered as reclaimed; use-after-free is an explicit error.
* A value pointer is a handle naming one strong count of the stored value;
  `Arc` address sharing is not modelled.
* Seize guards/reclamation: `defer_retire` appends to a retired list.
  Single-threaded, a collection (`reclaim_old`) may free the whole list between
  two calls at any moment (C29).  In the concurrent executions of C38-C46, C48-C56 and C58 a
  collector may free a retired value at any moment once every call that was in
  progress when the value was retired has returned: this is what the guard held
  by each call guarantees, and it is assumed of seize, not proved.  In C46 threads
  also take and drop guards of their own between calls, and a retired object waits
  for every thread that had any guard when it was retired to be without one.  In
  C30-C33, C37 and C47 nothing is freed during the execution.
* Loops that can spin are bounded by a fuel argument `F` and end with the
  explicit error `Fuel` when it is spent.  An answer is therefore never produced
  by a loop that was cut short.  Single-threaded, `Fuel` does not occur for any
  `F >= 300` (C34); the concurrent theorems hold for every `F`.
* Suffix offsets are `u32`: single-threaded theorems assume less than 4 GiB of
  key bytes in the history (`key_bytes`), because of finding H.
* `tracing`, prefetching, back-off delays, `Debug` and statistics are omitted
  (no effect on results).  The counters of
  `tree/optimistic.rs` are not modelled.
* `usize` counters do not wrap; the version word does (real 32-bit masks).

## 2. Properties and plan

Shape of each proof: *component laws* by bit-level lemmas, *tree properties* by
an invariant (ghost map giving each node its layer, key range and height)
preserved by every operation, *concurrent properties* by a rely/guarantee
argument over all schedules, *false properties* by an explicit execution
checked by computation (suffix `_refuted`).

| id | plan |
|---|---|
| C01 | refinement of the heap program to a finite map.  The unrestricted statement is false (see finding A): `_refuted` by a concrete 25-key history, and `_partial` for all histories whose keys never collide on a slice with different lengths (e.g. all fixed-length keys) |
| C02 | refuted (finding J); same invariant, unrestricted keys: a lookup answers None or a value inserted under that very key |
| C03, C04, C07 | as C01 (false without the restriction, for the same reason) |
| C05, C06, C08, C09, C10, C34 | invariant of C02, unrestricted |
| C11, C12 | induction over byte lists |
| C13, C14, C15, C16 | the packed word decodes to a list of slots; each operation commutes with the list operation |
| C17, C18 | refinement to slot -> option bytes; for a leaf (`C18_leaf_*`) the same bag behind the leaf's pointer |
| C19, C20, C21 | transition system with any number of threads; decomposition of the word into flags and counter |
| C22 | `NodeOps`: the program of `insert_key_and_child` / `split_into` run on a heap with arbitrary other contents; its effect on the child chosen for every search key |
| C23, C24 | list induction; AVX2 `count_le` is refuted (signed comparison) |
| C25 | `LeafOps`: the program of the leaf split on a heap with arbitrary other contents; entries of the two leaves against those of the old one |
| C26, C27, C28 | tree invariant; C26 is refuted (finding A) |
| C29 | ownership invariant on handles |
| C30, C31, C32 | refuted by explicit schedules (findings B, D, E); |
| C33 | rely/guarantee proof for all schedules in the single-leaf regime.  The specification is an automaton: an atomic map whose calls take effect once between call and return.  For every thread the proof keeps the *set* of places its call may be in, so that the instant of a lookup can be chosen when its answer is known; the invariant says that every choice from these sets is the end of a run of the automaton with the history observed so far |
| C35 | refuted on the model state (finding C) |
| C36 | refuted (finding H); C17 is the true part |
| C37 | refuted (finding K) by an explicit schedule; `_partial`: safe and exact as long as nobody inserts |
| C38-C41 | rely/guarantee proof on the whole tree for all schedules, with splits of leaves and internodes at every level and new roots.  Ghost state: for every node its kind, level and key range at creation; who holds its lock; which thread owns what it has allocated and not yet published; for every value the key it was inserted for; for every retired value the calls it must outlive.  The invariant speaks about unlocked nodes; a locked one is described by its owner's assertion.  Keys with suffixes are included: a leaf's suffix bag is a further pointer slot of the leaf with the leaf as its home, bags only gain bytes while the leaf is locked, readers validate the leaf's version after reading one, and a replaced bag is retired like a value (`ConcBag`).  No two different inserted keys of more than 8 bytes may agree in their first 8 bytes: two such keys need a deeper layer, and there the properties are false (C30, C31) because layer conversion races with lookups.  If long keys are inserted there are fewer than 16 million insertions, so that no offset in a bag wraps (C36).  The proof is about a variant of the calls in which the two branches that create or enter a layer stop with a panic; the invariant shows that this panic does not happen, and a simulation (`ConcVar`) carries the result over to the calls of the model |
| C42 | induction over executions: each insert changes the counter at most once, exactly if it answers "not there before"; independent of the tree's shape, so for all keys |
| C43-C45 | two layers.  `ConcVal`: an analysis of the programs of the calls alone: each call brings its own value at most once, reads values only through pointers it has read from slots, gives up at most one value, and answers with it.  `ConcOnce`: an invariant over executions beside that of C38 with ghost maps from values to handles and from given-up values to the thread that has yet to answer with them.  Values are assumed pairwise different; the code never inspects a value, so this only serves to tell them apart |
| C48 | `ConcDeed` refines `ConcVal`: between bringing its value and giving up the replaced one, an insertion changes no slot except by the one store that puts the new pointer in place.  `ConcOrder`: an invariant beside those of C38 and C43 with ghost maps: which handle was put over which, which handles have been in place, and both as they were when each running call began.  A handle is put over another only before anyone has seen it, so what lies behind a handle in place never changes; a replaced handle is in no slot, because the thread that replaced it goes on to retire it (read off its weakest precondition) |
| C49 | `ConcAtomic`: an invariant beside those of C38 and C43 that keeps a record of the run: calls and answers, the access by which an insertion's value comes into place, and every entry a call sees in a slot.  A handle a lookup reads is in place and not replaced at that instant (as C48); the value an insertion replaces is in place, because the thread then holds it, and has the insertion's key (read off its weakest precondition).  `ConcItem`: from such a record to an atomic execution: insertions take effect when they put their value in place, lookups when they saw what they then answer |
| C50 | `ConcAtomic`: with the record of C49, two insertions adding the same key would both answer `None`, so each key is added at most once and the entries form a map |
| C51, C52 | `Excl`: between insertions the memory is one a single thread can build (`TreeTop`), reading calls leave it as it is, and an insertion runs alone.  `ExclGc`: freeing a retired object commutes with every access of every call, as long as the access succeeds with and without the object; as calls succeed after the object has been freed (C29), a call in progress goes on as if it had been freed before the call.  So each call in progress is some number of steps into its run on the state at its start.  `Index` models `MassTreeIndex` |
| C53, C54 | `Serial`: the same with one insertion at a time among lookups that may overlap it: lookups do not write (`ro`), so the insertion in progress is still some number of steps into its lone run; a lookup is tracked only while no insertion has overlapped it.  Nothing is claimed of the other lookups |
| C55, C56 | rely/guarantee (`Upd*`).  Replacing values changes only locks and value pointers (`same`), so everything a thread learns about the shape, the keys and the layers stays true, and each search ends at the one slot for its key.  The map changes in the store of the new pointer; a lookup takes effect when it reads the pointer, a lookup that misses at any moment, as the set of keys is fixed.  A handle read from a slot stays alive while the call runs, because it can only be retired by a replacement that then waits for this call.  At rest the memory is again one a single thread can build, so the sequential laws apply to what follows |
| C57 | rely/guarantee on one leaf (`FreezeFacts`): the word shows an object (permutation, frozen or not); it is frozen only while somebody holds the lock, the holder's guard remembers the permutation, and a compare-and-swap with permutations as arguments cannot succeed on a frozen word.  The executions are those of the functions alone, on any unlocked leaf |
| C58 | the proof of C55 with one more clause: a call can be cut short (give up at the model's bound on repetitions) only while it owns no lock and no unpublished value (`bare`), since the part of an insertion under the lock has no waiting loop.  A call under way ends after finitely many own accesses (structural induction on its program), so every reachable state has a continuation without new calls in which every call has ended; there no lock has an owner, hence none is held |
| C59, C60 | case analysis on the length classes of the entry and of the key asked for; C60 is refuted (finding L): `ksuf_matches` does not look at the length of a key of up to eight bytes, nor at whether the entry is a layer |
| C65, C66 | `VersionStFacts`: between calls the two words are equal; inside a section the shared one is the other with its two lowest bits set (`held_of`), which neither the marks nor the unlock arithmetic can carry out of.  C66: an invariant of the executions of C19 that follows the creator to its unlock (`young`) |
| C67, C68 | `DescendFacts`: induction over the height of the node with the invariant of the tree properties: all three descents take the same child at each internode, and a height of 0 means that the child is a leaf; position of the leaf from the leaf chain of C27.  C68: the loads return the slot array, then C24 |
| C61, C62 | `CasFacts`: run alone, claiming a slot and then filling it equals filling it at once (`claim_run`), so the steps of the lock-free insertion are, up to the order of stores to a slot nobody can see, those of the locked insertion, and its invariant proof is reused; `CasDrop` adds collections and the drop of the tree.  C62 is refuted by two schedules (finding M) |
| C63 | `CasConc`: a rely-guarantee proof.  A ghost world pairs the memory with the memory of a tree that has none of the reserved slots (`wt`), its abstract state (`ws`), the map it holds (`wmu`) and what each thread is doing (`wph`: reserved slot and what is written in it, value to drop, published, counted).  `CInv` relates them; `Rely` is what other threads guarantee (leaves only grow, the map only grows, the thread's own phase is untouched); `cwp` is the weakest precondition of a thread under interference, `sys_exec` puts the threads together.  `CasSteps` and `CasPub` prove each writing step (claim, key, value, publish, count, undo) against the invariant, the publication reusing the leaf insertion of the locked proof; `CasThread` and `CasRun` follow the code; `CasSys` reads off the end state.  Giving up is tied to progress by a monotone fact: once a slot was reserved, some slot is reserved or some key was published |
| C64 | `CasRead`: the proof of the single-threaded lookup (`wp_get_loop`) carried over to reading under interference (`rd`): a leaf read through one permutation is a snapshot whose entries never change, an entry or a path once there stays, so what is found is in the map at the end and what is not found was not in the map at the start.  `CasMix` puts insertions and lookups together; the schedule is cut in two so that a lookup begun after the cut is judged against the map at the cut |
| C46 | refinement (`GuardSys`, `GuardRef`): every execution with explicit guards is matched by one of C38 without them.  For the references, that execution has one further thread making the same `get_ref` call in lockstep with the caller, but putting off its last access, the one through the pointer it found; C38 says this access never meets undefined behaviour, so the pointer stays valid, and a value never changes while it exists |
| C47 | `Solo`: no access of a lookup changes the memory (every step of [get], [get_ref], [len], [is_empty] returns the memory it was given), so the steps of the one inserting thread are those of a sequential run, whose laws (`TreeTop`, `TreeLaws`) apply.  The same lemma gives the positive parts of C30, C32 and C37 |

## 3. Findings (defects of the code shown by the model)

* **A** `leaf24.rs` `calculate_split_point`, `Greater => break`: a split can
  separate two entries with equal slice; the one left behind becomes
  unreachable (lost key, wrong `len`).
* **B** `generic.rs` get: a marked `next` link makes get return None.
* **C** `generic.rs` 1590-1593: hop-limit restart does not unshift the key.
* **D** `nodeversion.rs` `has_changed` ignores the INSERTING bit, so a reader
  can combine a half-shifted internode into a wrong route; a concurrent get
  misses a present key, and an insert can store a key in the wrong leaf.
* **E** converting an entry into a layer: a reader that sees the cleared pointer
  returns None; a reader of the empty key that sees `keylenx = 0` between
  `clear_ksuf` and `set_keylenx` takes the layer pointer for a value.
* **F** `count_le_u64_avx2` compares signed.
* **G** `permuter.rs` `is_frozen_raw` looks at position 13, not 14 (harmless).
* **H** `suffix.rs`: offsets are `u32` and the storage of a leaf is never
  compacted by the tree, so after 4 GiB of suffix bytes offsets wrap.
* **J** consequence of A: an overwritten value can be returned again (two
  entries of one key, the newer one hidden by a split and the older one found
  again by a later split).
* **K** `generic.rs` `is_empty` loads the root pointer twice; if the root leaf splits
  in between, the new internode is cast to a leaf.
* **L** `leaf24.rs` `ksuf_matches`: asked for a key of at most eight bytes it answers
  yes for an entry whose key differs in trailing zero bytes, and for the pointer to
  a layer (the tree does not call it; `ksuf_match_result` is right: C59).
* **M** `generic.rs` `try_cas_insert_generic` (disabled): it cannot be used together with
  the locked insertion, as its fallback does.  The locked insertion takes the next free
  slot without looking whether a lock-free one has reserved it, and a lock-free one
  stores its key after a version check that may be out of date: a key that was inserted
  successfully is overwritten, or a debug assertion fails.
* `len` is updated after the entry is visible: concurrently it can be below the
  number of keys a `get` would find.  When no call is in progress it is exact
  (single-leaf regime, part of C33).

## 4. Trusted base

* Coq 8.16.1's kernel, including `vm_compute` (used for the concrete executions
  in `Counterexamples.v`, `Samples.v` and the examples).  The whole development
  is also accepted by `coqchk`.
* Axioms: `Print Assumptions` answers *Closed under the global context* for
  every theorem of the `Props*.v` files.  The checker run over the loaded
  libraries lists, besides, the abstract type `Coq.ssr.ssrunder.Under_rel` of
  the standard library's ssreflect, which no theorem here uses.
* std++ is used as a library of finite maps and list lemmas.
* The statement files (`Spec*.v`, `Props*.v`) and the claim that the definitions
  of the model match the Rust text as cited.

Not modelled: weak memory; the seize collector's internals; `Arc` counts (a
value pointer is a handle); the width-15 leaf (`src/leaf.rs` is not part of the
tree, `MassTree` and `MassTree24` both use 24-slot leaves here); hooks, counters, tracing, prefetch.

`MassTree24Inline` (`tree.rs:319-360`) is the same generic code with the slot type
`LeafValueIndex`, which stores each value in a `Box` of its own and copies it on
lookup (`slot.rs:317-430`).  A handle of the model (`output_to_raw`,
`output_from_raw`, `reclaim1`) is such a box as well as an `Arc` count, so the
theorems apply to both instances.

The deliberate panic after 64 propagation rounds (`propagation.rs:200-210`) is the
model's error `Limit`, distinct from `Panic` (an unintended panic), `UB` (undefined
behaviour in Rust: dangling or mistyped pointers, double free) and `Fuel` (a loop of
the model ran out of its bound; no behaviour of the code).

## 5. Tests of the theorems against wrong programs

`seeded/LOG.jsonl` records one line per experiment: a realistic bug is put into
the model in a scratch copy, every lemma whose proof stops is set aside, and the
theorems that depend on one of them are listed as failed.  Where a claim had
become false and its theorem still held, the theorem was tightened (listed in
the entry).
