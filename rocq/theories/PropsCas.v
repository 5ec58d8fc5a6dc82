(** Properties of the lock-free insertion and of the insertion that tries it first. *)
From Verif Require Import Base Perm Key Prog Version Mem Tree SpecTree SpecHist TreeLaws CasInsert CasFacts CasDrop.

(** C61.  After any history, a lock-free insertion that runs alone ends, without panic or
    undefined behaviour, in one of four ways.  It inserted the key: then no value is reported as
    replaced, [len] grows by one, and every lookup answers the last value inserted for its key.
    It found the key: then the key was present and nothing changed.  It found a full leaf: then the
    key was absent, some leaf really is full, and nothing changed.  It gave up: then the key is
    longer than eight bytes, and nothing changed.  ([unambiguous]: no two keys of the defect C01.) *)
Theorem C61_lock_free_insertion : forall F ops k v l m, 300 <= F -> history_ok (ops ++ [Insert k v]) ->
  run_calls insert F ops tree_new = Ok (l, m) ->
  exists r m', run (try_cas_insert F k v) m = Ok (r, m') /\
  match r with
  | CSuccess old => length k <= 8 /\ old = None /\ (forall n, run len m = Ok (n, m) -> run len m' = Ok ((n + 1)%N, m')) /\
      (unambiguous (ops ++ [Insert k v]) -> last_value k (inserts ops) = None /\
       forall k', op_ok (Get k') -> run (get F k') m' = Ok (last_value k' (inserts (ops ++ [Insert k v])), m'))
  | CExists _ => length k <= 8 /\ m' = m /\ (unambiguous (ops ++ [Insert k v]) -> is_Some (last_value k (inserts ops)))
  | CFull => length k <= 8 /\ m' = m /\ (exists p lf, heap m !! p = Some (NLeaf lf) /\ 24 <= perm_size (l_perm lf)) /\
      (unambiguous (ops ++ [Insert k v]) -> last_value k (inserts ops) = None)
  | CFallback => 8 < length k /\ m' = m
  | CLayer _ | CSlot0 => False
  end.
Proof. exact (fun F ops k v l m => cas_after F ops k v l m). Qed.
Print Assumptions C61_lock_free_insertion.

(** C61 for the two insertions together: with the lock-free one tried first and the locked one as
    its fallback, every history is answered as by a map. *)
Theorem C61_fast_path_map_semantics : forall F ops, 300 <= F -> history_ok ops -> unambiguous ops ->
  exists m, run_calls insert_fast F ops tree_new = Ok ((map_run ∅ ops).1, m).
Proof. exact fast_semantics. Qed.
Print Assumptions C61_fast_path_map_semantics.

(** the same with collections at any moment; and whatever the keys, dropping the tree then succeeds
    and frees everything: the two ways of inserting leak nothing and free nothing twice *)
Theorem C61_fast_path_freed_once : forall F evs, 300 <= F -> history_ok (calls evs) -> exists l m m',
  run_events insert_fast F evs tree_new = Ok (l, m) /\ (unambiguous (calls evs) -> l = (map_run ∅ (calls evs)).1) /\
  drop_tree m = Ok m' /\ vals m' = ∅ /\ bags m' = ∅ /\ heap m' = ∅ /\ retired m' = [].
Proof. exact fast_freed_once. Qed.
Print Assumptions C61_fast_path_freed_once.

(** 26 keys of two bytes *)
Definition cas_keys (n : nat) : list op := map (fun i => Insert [N.of_nat i; 7]%N (N.of_nat i)) (seq 0 n).
Definition cas_end (ops : list op) (k : bytes) (v : N) : option (cas_res * option N * option N) :=
  match run_calls insert 300 ops tree_new with
  | Ok (_, m) => match run (try_cas_insert 300 k v) m with
                 | Ok (r, m') => match run (get 300 k) m', run len m' with
                                 | Ok (o, _), Ok (n, _) => Some (r, o, Some n)
                                 | _, _ => None end
                 | _ => None end
  | _ => None
  end.
(** each of the four outcomes occurs *)
Example C61_example :
  cas_end (cas_keys 5) [2; 8]%N 99 = Some (CSuccess None, Some 99, Some 6)%N /\
  cas_end (cas_keys 5) [2; 7]%N 99 = Some (CExists 2, Some 2, Some 5)%N /\
  cas_end (cas_keys 24) [2; 8]%N 99 = Some (CFull, None, Some 24)%N /\
  cas_end (cas_keys 26) [2; 8]%N 99 = Some (CSuccess None, Some 99, Some 27)%N /\
  cas_end (cas_keys 26) [2; 8; 3; 4; 5; 6; 7; 8; 9]%N 99 = Some (CFallback, None, Some 26)%N.
Proof. repeat split; vm_compute; reflexivity. Qed.
Example C61_satisfiable : history_ok (cas_keys 5 ++ [Insert [2; 8]%N 99]) /\ unambiguous (cas_keys 5 ++ [Insert [2; 8]%N 99]) /\
  (exists l m, run_calls insert 300 (cas_keys 5) tree_new = Ok (l, m)).
Proof.
  split; [|split].
  - split; [|by vm_compute]. repeat constructor; cbn; lia.
  - apply unambb_ok. vm_compute. reflexivity.
  - do 2 eexists. by vm_compute.
Qed.

(** short keys (lock-free), one of nine bytes, a replaced value, a full leaf; collected midway *)
Definition cas_evs : list event := map Call (cas_keys 26) ++ [Call (Insert [2; 8; 3; 4; 5; 6; 7; 8; 9]%N 50); Call (Insert [3; 7]%N 51); Collect 0] ++ [Call (Get [3; 7]%N)].
Example C61_freed_satisfiable : history_ok (calls cas_evs) /\ unambiguous (calls cas_evs) /\
  (exists l m, run_events insert_fast 300 cas_evs tree_new = Ok (l, m) /\ size (vals m) = 27 /\ 3 <= size (heap m)).
Proof.
  split; [|split].
  - split; [|by vm_compute]. repeat constructor; cbn; lia.
  - apply unambb_ok. vm_compute. reflexivity.
  - assert (H : match run_events insert_fast 300 cas_evs tree_new with Ok (_, m) => Nat.eqb (size (vals m)) 27 && Nat.leb 3 (size (heap m)) | _ => false end = true)
      by (vm_compute; reflexivity).
    destruct (run_events insert_fast 300 cas_evs tree_new) as [[l m]|]; [|done]. exists l, m. split; [done|].
    apply andb_prop in H as [H1 H2]. split; [by apply Nat.eqb_eq|by apply Nat.leb_le].
Qed.

(** C62.  Lock-free and locked insertions do not mix: two threads call the insertion that tries the
    lock-free way first, one for a key of one byte and one for a key of nine bytes.  Both succeed,
    and one of the keys is not in the tree; under another schedule one of them panics (in a debug
    build). *)
Theorem C62_mixed_insertions_refuted : exists F k1 k2 v1 v2 sched sched', 
  op_ok (Insert k1 v1) /\ op_ok (Insert k2 v2) /\ unambiguous [Insert k1 v1; Insert k2 v2] /\
  (let c := exec sched (tree_new, [insert_fast F k1 v1; insert_fast F k2 v2]) in
   c.2 = [Ret (IOk None); Ret (IOk None)] /\ exists k, k ∈ [k1; k2] /\ answers c.1 k None) /\
  (let c := exec sched' (tree_new, [insert_fast F k1 v1; insert_fast F k2 v2]) in
   c.2 !! 0 = Some (Fail Panic)).
Proof.
  exists 60, [97]%N, [98; 98; 98; 98; 98; 98; 98; 98; 98]%N, 1%N, 2%N,
    (replicate 13 0 ++ replicate 60 1 ++ replicate 40 0), (replicate 15 0 ++ replicate 15 1 ++ replicate 20 0).
  split; [cbn; split; [lia|repeat constructor]|]. split; [cbn; split; [lia|repeat constructor]|].
  split; [apply unambb_ok; vm_compute; reflexivity|]. split; [split; [by vm_compute|]|by vm_compute].
  eexists. split; [right; left|]. exists 20. eexists. by vm_compute.
Qed.
Print Assumptions C62_mixed_insertions_refuted.
