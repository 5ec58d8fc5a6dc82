(** Properties of the list that are false of the code: proved counterexamples.
    A run that ends with [Ok] never exhausted its loop bound [F], so it is an execution of
    the code.  (The parts that do hold are in PropsTree.v.) *)
From Verif Require Import Base Prog Mem Tree SpecTree Counterexamples.

(** C01: the answers of a single-threaded history are not those of a map *)
Theorem C01_map_semantics_refuted : exists F ops l m, Forall op_ok ops /\
  run_calls insert F ops tree_new = Ok (l, m) /\ l <> (map_run ∅ ops).1.
Proof. exact loses_key. Qed.
Print Assumptions C01_map_semantics_refuted.

(** C02: get can return a value that was overwritten *)
Theorem C02_stale_value_refuted : exists F ops l m k old new, Forall op_ok ops /\
  run_calls insert F ops tree_new = Ok (l, m) /\
  (map_run ∅ ops).2 !! k = Some new /\ answers m k (Some old) /\ old <> new.
Proof. exact returns_stale_value. Qed.
Print Assumptions C02_stale_value_refuted.

(** C03, C04: inserting a key that is present can answer None and count it again *)
Theorem C03_C04_previous_value_and_len_refuted : exists F ops l m, Forall op_ok ops /\
  run_calls insert F (ops ++ [Insert (dig 11) 77%N; Len]) tree_new = Ok (l, m) /\
  (map_run ∅ ops).2 !! dig 11 = Some 11%N /\
  drop (length ops) l = [AIns None; ALen (N.of_nat (size (map_run ∅ ops).2) + 1)].
Proof. exact insert_reports_absent. Qed.
Print Assumptions C03_C04_previous_value_and_len_refuted.

(** C07: inserting one key can make another one disappear *)
Theorem C07_independence_refuted : exists F ops m k v r m', Forall op_ok (Insert k v :: ops) /\
  (exists l, run_calls insert F ops tree_new = Ok (l, m)) /\
  run (insert F k v) m = Ok (r, m') /\
  exists k' v', k' <> k /\ answers m k' (Some v') /\ answers m' k' None.
Proof. exact insert_hides_key. Qed.
Print Assumptions C07_independence_refuted.

(** C26: two neighbouring leaves of a reachable tree hold entries with the same slice *)
Theorem C26_equal_slices_separated_refuted : exists m p q lp lq s t ik, reachable m /\
  p <> q /\ heap m !! p = Some (NLeaf lp) /\ heap m !! q = Some (NLeaf lq) /\ l_next lp = q /\
  s ∈ active_slots (l_perm lp) /\ t ∈ active_slots (l_perm lq) /\
  l_ikey lp !! s = Some ik /\ l_ikey lq !! t = Some ik.
Proof. exact separates_equal_slices. Qed.
Print Assumptions C26_equal_slices_separated_refuted.

(** C30: get(k) answers None although k was present before it started (keys are never
    removed); two independent mechanisms *)
Theorem C30_lookup_misses_refuted : exists F m k v ts sched l, reachable m /\ answers m k (Some v) /\
  finished (exec sched (start F m ([Get k] :: ts))) 0 [AGet None] /\
  finished (exec sched (start F m ([Get k] :: ts))) 1 l.
Proof. exact get_misses_present_key. Qed.
Print Assumptions C30_lookup_misses_refuted.
Theorem C30_lookup_misses_during_split_refuted : exists F m k v ts sched, reachable m /\
  answers m k (Some v) /\ finished (exec sched (start F m ([Get k] :: ts))) 0 [AGet None].
Proof. exact get_misses_during_split. Qed.
Print Assumptions C30_lookup_misses_during_split_refuted.

(** C31: a lookup dereferences a pointer that is no value *)
Theorem C31_type_confusion_refuted : exists F m ts sched, reachable m /\
  failed (exec sched (start F m ([Get []] :: ts))) 0 UB.
Proof. exact get_dereferences_a_node. Qed.
Print Assumptions C31_type_confusion_refuted.

(** C32: two inserts complete, and a later get of one of the keys answers None *)
Theorem C32_insert_lost_refuted : exists F m k v v2 k2 sched, reachable m /\
  let c := exec sched (start F m [[Insert k v]; [Insert k2 v2]]) in
  finished c 0 [AIns None] /\ finished c 1 [AIns None] /\ answers c.1 k None.
Proof. exact insert_is_lost. Qed.
Print Assumptions C32_insert_lost_refuted.

(** C35: after the hop limit the insert stores a different key [k'], in no call's use *)
Theorem C35_restart_changes_key_refuted : exists F m k k' v ops sched l, reachable m /\
  let c := exec sched (start F m [[Insert k v]; ops]) in
  finished c 0 [AIns None] /\ finished c 1 l /\ answers c.1 k None /\
  Forall (fun o => op_key o <> Some k') (Insert k v :: hist_h ++ ops) /\ answers c.1 k' (Some v).
Proof. exact restart_truncates_key. Qed.
Print Assumptions C35_restart_changes_key_refuted.

(** C37: [is_empty] interprets an internode as a leaf when a root split falls between its
    two loads of the root pointer; all keys are short *)
Theorem C37_is_empty_type_confusion_refuted : exists F m k v sched, reachable m /\ length k <= 8 /\
  let c := exec sched (start F m [[IsEmpty]; [Insert k v]]) in
  finished c 1 [AIns None] /\ failed c 0 UB.
Proof. exact is_empty_dereferences_internode. Qed.
Print Assumptions C37_is_empty_type_confusion_refuted.
