(** Properties of lookups running at the same time as lock-free insertions. *)
From Verif Require Import Base Perm Key Prog Version Mem Tree SpecTree SpecHist TreeLaws CasInsert SpecCas PropsCas PropsCasConc CasMix.

(** C64.  After any history of the locked API, any number of lock-free insertions and of lookups
    run at the same time under any schedule [sched1 ++ sched2] ([c1]: the state between its two
    parts; thread [i] is insertion [i], thread [length calls + j] is lookup [j]) and nothing else
    runs.  No call ever panics or does anything undefined.
    A lookup that answers a value answers the one of the history, or the one of an insertion of
    its key that has begun and that, if it is over, succeeded.
    A lookup that answers that there is none is right about the history; and if it began after
    [c1], then up to [c1] no insertion of its key had succeeded or found the key, and no
    lookup of the key had answered a value.
    And whenever all calls are over, the insertions have had the effect of C63: the lookups
    disturb nothing. *)
Theorem C64_lookups_beside_lock_free_insertions : forall F ops calls keys ops2 sched1 sched2 l m, 300 <= F ->
  history_ok (ops ++ as_inserts calls ++ map Get keys ++ ops2) -> unambiguous (ops ++ as_inserts calls ++ map Get keys ++ ops2) ->
  run_calls insert F ops tree_new = Ok (l, m) ->
  let c1 := exec sched1 (m, cas_and_get F calls keys) in
  let c2 := exec sched2 c1 in
  (forall e, Fail e ∉ c2.2) /\
  (forall j k o, keys !! j = Some k -> c2.2 !! (length calls + j) = Some (Ret (inr o)) ->
    match o with
    | Some v => last_value k (inserts ops) = Some v \/
        exists i, calls !! i = Some (k, v) /\ i ∈ sched1 ++ sched2 /\ forall r, c2.2 !! i = Some (Ret (inl r)) -> succeeded r = true
    | None => last_value k (inserts ops) = None /\
        (length calls + j ∉ sched1 ->
          (forall i v r, calls !! i = Some (k, v) -> c1.2 !! i = Some (Ret (inl r)) -> match r with CSuccess _ | CExists _ => False | _ => True end) /\
          (forall j' o', keys !! j' = Some k -> c1.2 !! (length calls + j') = Some (Ret (inr o')) -> o' = None))
    end) /\
  (forall rs os, c2.2 = map Ret (map inl rs ++ map inr os) -> length rs = length calls ->
    NoDup (map fst (won calls rs)) /\ (forall k v, (k, v) ∈ won calls rs -> last_value k (inserts ops) = None) /\
    (forall i k v r, calls !! i = Some (k, v) -> rs !! i = Some r ->
      match r with
      | CSuccess old => old = None /\ length k <= 8
      | CExists _ => length k <= 8 /\ is_Some (last_value k (inserts ops ++ won calls rs))
      | CFull => length k <= 8 /\ exists p lf, heap c2.1 !! p = Some (NLeaf lf) /\ 24 <= perm_size (l_perm lf)
      | CFallback => 8 < length k \/ won calls rs <> []
      | CLayer _ | CSlot0 => False
      end) /\
    exists m' m2, run_calls insert F ops2 c2.1 = Ok ((map_run (map_run ∅ (ops ++ as_inserts (won calls rs))).2 ops2).1, m') /\
      drop_tree m' = Ok m2 /\ heap m2 = ∅ /\ vals m2 = ∅ /\ bags m2 = ∅ /\ retired m2 = []).
Proof. exact cas_mixed. Qed.
Print Assumptions C64_lookups_beside_lock_free_insertions.

(** the answers of the calls that are over *)
Definition mix_results (ps : list (prog mem (cas_res + option N))) : list (option (cas_res + option N)) :=
  map (fun p => match p with Ret r => Some r | _ => None end) ps.
Definition read_race (n : nat) (calls : list (bytes * N)) (keys : list bytes) (sched : list nat) : option (list (option (cas_res + option N))) :=
  match run_calls insert 300 (cas_keys n) tree_new with
  | Ok (_, m) => Some (mix_results (exec sched (m, cas_and_get 300 calls keys)).2)
  | _ => None
  end.
Definition read_keys : list bytes := [[2; 8]; [2; 8]; [2; 7]; [3; 9]; [2; 8; 0; 0; 0; 0; 0; 0; 0]]%N.
(** two insertions of one key and one of another, with five lookups: lookup 0 runs first and finds
    nothing; the others run step by step in turn with the insertions; at the end lookup 1, begun
    when they were over, finds the value of the insertion that succeeded *)
Example C64_race :
  read_race 5 race_calls read_keys (repeat 4 60 ++ in_turn 4 20 ++ concat (repeat [0; 1; 2; 3; 6; 7; 8] 150) ++ repeat 5 200)%list =
    Some [Some (inl (CSuccess None)); Some (inl (CExists 5)); Some (inl (CSuccess None)); Some (inl (CExists 2));
          Some (inr None); Some (inr (Some 100)); Some (inr (Some 2)); Some (inr None); Some (inr None)]%N.
Proof. vm_compute. reflexivity. Qed.
Example C64_satisfiable : history_ok (cas_keys 5 ++ as_inserts race_calls ++ map Get read_keys ++ race_after) /\
  unambiguous (cas_keys 5 ++ as_inserts race_calls ++ map Get read_keys ++ race_after) /\ (exists l m, run_calls insert 300 (cas_keys 5) tree_new = Ok (l, m)).
Proof.
  split; [|split].
  - split; [|by vm_compute]. repeat constructor; cbn; lia.
  - apply unambb_ok. vm_compute. reflexivity.
  - do 2 eexists. by vm_compute.
Qed.
