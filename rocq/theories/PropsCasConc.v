(** Properties of lock-free insertions running at the same time. *)
From Verif Require Import Base Perm Key Prog Version Mem Tree SpecTree SpecHist TreeLaws CasInsert SpecCas PropsCas CasSys.

(** C63.  After any history of the locked API, any number of lock-free insertions, with equal or
    different keys, run at the same time under any schedule and nothing else runs.  No call ever
    panics or does anything undefined.  Whenever all calls are over:
    the calls that report success had keys that were absent before and that differ from one
    another, so of two calls with one key at most one succeeds;
    a call that reports success reports no value as replaced;
    a call that reports the key as existing is right at the end: its key is present;
    a call that reports a full leaf is right: some leaf is full;
    a call that gives up has a key longer than eight bytes, or some other call succeeded;
    and every later history of the locked API is answered as by the map that holds the earlier
    history and the successful insertions, and no trace of the others;
    and dropping the tree after that frees everything exactly once, so no value of a call that
    failed is leaked or freed twice. *)
Theorem C63_concurrent_lock_free_insertions : forall F ops calls ops2 sched l m, 300 <= F ->
  history_ok (ops ++ as_inserts calls ++ ops2) -> unambiguous (ops ++ as_inserts calls ++ ops2) ->
  run_calls insert F ops tree_new = Ok (l, m) ->
  let c := exec sched (m, map (fun kv => try_cas_insert F kv.1 kv.2) calls) in
  (forall e, Fail e ∉ c.2) /\
  forall rs, c.2 = map Ret rs ->
    NoDup (map fst (won calls rs)) /\ (forall k v, (k, v) ∈ won calls rs -> last_value k (inserts ops) = None) /\
    (forall i k v r, calls !! i = Some (k, v) -> rs !! i = Some r ->
      match r with
      | CSuccess old => old = None /\ length k <= 8
      | CExists _ => length k <= 8 /\ is_Some (last_value k (inserts ops ++ won calls rs))
      | CFull => length k <= 8 /\ exists p lf, heap c.1 !! p = Some (NLeaf lf) /\ 24 <= perm_size (l_perm lf)
      | CFallback => 8 < length k \/ won calls rs <> []
      | CLayer _ | CSlot0 => False
      end) /\
    exists m' m2, run_calls insert F ops2 c.1 = Ok ((map_run (map_run ∅ (ops ++ as_inserts (won calls rs))).2 ops2).1, m') /\
      drop_tree m' = Ok m2 /\ heap m2 = ∅ /\ vals m2 = ∅ /\ bags m2 = ∅ /\ retired m2 = [].
Proof. exact cas_together. Qed.
Print Assumptions C63_concurrent_lock_free_insertions.

(** the results of the calls, if all are over *)
Definition cas_results (ps : list (prog mem cas_res)) : option (list cas_res) := mapM (fun p => match p with Ret r => Some r | _ => None end) ps.
Definition cas_race (n : nat) (calls : list (bytes * N)) (sched : list nat) (ops2 : list op) : option (list cas_res * list ans) :=
  match run_calls insert 300 (cas_keys n) tree_new with
  | Ok (_, m) => let c := exec sched (m, map (fun kv => try_cas_insert 300 kv.1 kv.2) calls) in
      match cas_results c.2, run_calls insert 300 ops2 c.1 with
      | Some rs, Ok (a, _) => Some (rs, a)
      | _, _ => None
      end
  | _ => None
  end.
Definition in_turn (k n : nat) : list nat := concat (repeat (seq 0 k) n).
Definition race_calls : list (bytes * N) := [([2; 8], 100); ([2; 8], 200); ([3; 9], 300); ([2; 7], 400)]%N.
Definition race_after : list op := [Get [2; 8]; Get [3; 9]; Get [2; 7]; Len; Insert [2; 8] 5]%N.
(** four calls step by step in turn, two of them with one key: one of these wins, the other then
    finds the key; and six calls for the last two free places of a leaf, where two give up *)
Example C63_race :
  cas_race 5 race_calls (in_turn 4 150) race_after =
    Some ([CSuccess None; CExists 5; CSuccess None; CExists 2], [AGet (Some 100); AGet (Some 300); AGet (Some 2); ALen 7; AIns (Some 100)])%N /\
  cas_race 22 (race_calls ++ [([4; 4], 7); ([5; 5], 8)])%N (in_turn 6 150) race_after =
    Some ([CSuccess None; CExists 22; CSuccess None; CExists 2; CFallback; CFallback], [AGet (Some 100); AGet (Some 300); AGet (Some 2); ALen 24; AIns (Some 100)])%N.
Proof. repeat split; vm_compute; reflexivity. Qed.
Example C63_satisfiable : history_ok (cas_keys 5 ++ as_inserts race_calls ++ race_after) /\
  unambiguous (cas_keys 5 ++ as_inserts race_calls ++ race_after) /\ (exists l m, run_calls insert 300 (cas_keys 5) tree_new = Ok (l, m)).
Proof.
  split; [|split].
  - split; [|by vm_compute]. repeat constructor; cbn; lia.
  - apply unambb_ok. vm_compute. reflexivity.
  - do 2 eexists. by vm_compute.
Qed.
