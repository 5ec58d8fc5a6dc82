(** Executions in which at most one thread inserts while any number of others look up
    ([exec], SpecTree.v: any schedule of the atomic accesses; nothing is freed meanwhile).
    They start in any state one thread can build; keys of all lengths, with deeper layers. *)
From Verif Require Import Base Prog Mem Tree SpecTree SpecHist SpecSolo Solo TreeLaws Samples Counterexamples.

(** ** C47: lookups do not disturb the one thread that inserts.  It never fails, finishes
    within a number [n] of its own accesses that no schedule can change, gets the answers it
    would get alone, and leaves the tree it would leave alone. *)
Theorem C47_single_writer_undisturbed F before l0 m0 ts w ops :
  300 <= F -> history_ok (before ++ ops) -> run_calls insert F before tree_new = Ok (l0, m0) ->
  ts !! w = Some ops -> others_read w ts ->
  exists n l m, run_calls insert F ops m0 = Ok (l, m) /\ Forall2 answered ops l /\
  forall sched, let c := exec sched (start F m0 ts) in
    (forall e, ~ failed c w e) /\ (n <= turns w sched -> finished c w l) /\ (forall l', finished c w l' -> l' = l /\ c.1 = m).
Proof. exact (solo_undisturbed F before l0 m0 ts w ops). Qed.
Print Assumptions C47_single_writer_undisturbed.

(** C32 (false in general, see PropsRefuted.v).  What holds: with a single inserting thread
    its answers are those of a map and no insert is lost: when it has finished, every key
    has the value last inserted for it.  Missing: several inserting threads; ambiguous keys (C01). *)
Theorem C32_single_writer_partial F before l0 m0 ts w ops sched l :
  300 <= F -> history_ok (before ++ ops) -> run_calls insert F before tree_new = Ok (l0, m0) ->
  ts !! w = Some ops -> others_read w ts -> unambiguous (before ++ ops) ->
  let c := exec sched (start F m0 ts) in
  finished c w l ->
  l = (map_run (map_run ∅ before).2 ops).1 /\
  forall k, op_ok (Get k) -> run (get F k) c.1 = Ok (last_value k (inserts (before ++ ops)), c.1).
Proof. exact (fun HF Hok Hm Hw Ho Hu => solo_map F before l0 m0 ts w ops HF Hok Hm Hw Ho Hu sched l). Qed.
Print Assumptions C32_single_writer_partial.

(** C30 (false in general).  What holds: lookups among lookups miss nothing, whatever was
    inserted before them.  Missing: lookups during an insert (C33 has a case); ambiguous keys. *)
Theorem C30_lookups_without_inserts_partial F before l0 m0 ts sched i ops l :
  300 <= F -> history_ok (before ++ ops) -> unambiguous before ->
  run_calls insert F before tree_new = Ok (l0, m0) -> Forall (Forall reads_only) ts -> ts !! i = Some ops ->
  finished (exec sched (start F m0 ts)) i l -> l = map (fun o => (map_step (map_run ∅ before).2 o).1) ops.
Proof. exact (readers_exact F before l0 m0 ts sched i ops l). Qed.
Print Assumptions C30_lookups_without_inserts_partial.

(** C37 (false in general).  What holds: among lookups [is_empty] is safe and exact, for all
    keys.  Missing: [is_empty] during an insert. *)
Theorem C37_is_empty_without_inserts_partial F before l0 m0 ts sched i :
  300 <= F -> history_ok before -> run_calls insert F before tree_new = Ok (l0, m0) ->
  ts !! i = Some [IsEmpty] -> others_read i ts ->
  (forall e, ~ failed (exec sched (start F m0 ts)) i e) /\
  forall l, finished (exec sched (start F m0 ts)) i l -> l = [AEmpty (bool_decide (inserts before = []))].
Proof. exact (is_empty_among_readers F before l0 m0 ts sched i). Qed.
Print Assumptions C37_is_empty_without_inserts_partial.

(** ** A concrete execution: after [sample] (several layers, a main layer of two levels) one
    thread inserts 20 more keys and looks up while two threads look up at the same time. *)
Definition solo_ops : list op := map (fun i => Insert [1; 2; N.of_nat i; 4]%N 7%N) (seq 0 20) ++ [Get [1; 2; 5; 4]%N; Insert [97; 98]%N 8%N].
Definition solo_threads : list (list op) :=
  [[Get [97; 98]%N; GetRef [1; 2; 5; 3]%N; Len]; solo_ops; [Get (repeat 7%N 18 ++ [1; 2]%N); Get [1; 2; 5; 4]%N]].
Definition solo_sched : list nat := concat (replicate 800 [1; 0; 1; 2]).
Definition solo_check (x : mem * list (P (list ans))) : bool :=
  match x.2 with
  | [Ret l0; Ret l1; Ret l2] =>
      bool_decide (l0 = [AGet (Some 6%N); AGet (Some 105%N); ALen 44]) &&
      bool_decide (drop 20 l1 = [AGet (Some 7%N); AIns (Some 6%N)]) && bool_decide (l2 = [AGet (Some 3%N); AGet (Some 7%N)])
  | _ => false
  end.
Lemma solo_check_elim x : solo_check x = true ->
  exists l1, finished x 1 l1 /\ drop 20 l1 = [AGet (Some 7%N); AIns (Some 6%N)] /\ finished x 0 [AGet (Some 6%N); AGet (Some 105%N); ALen 44].
Proof.
  destruct x as [m ps]. unfold solo_check, finished. cbn [fst snd]. intros H.
  destruct ps as [|[a0| |] [|[a1| |] [|[a2| |] [|]]]]; try discriminate H. rewrite !andb_true_iff in H. destruct H as [[H0 H1] H2].
  apply bool_decide_eq_true in H0, H1, H2. exists a1. split; [reflexivity|]. split; [exact H1|]. cbn. by rewrite H0.
Qed.
Lemma run_elim (r : res (list ans * mem)) (f : mem -> bool) : match r with Ok (_, m) => f m | Er _ => false end = true ->
  exists l m, r = Ok (l, m) /\ f m = true.
Proof. destruct r as [[l m]|]; [|discriminate]. intros H. by exists l, m. Qed.
Example solo_satisfiable : history_ok (sample ++ solo_ops) /\ unambiguous (sample ++ solo_ops) /\ others_read 1 solo_threads /\
  exists l0 m0 l1, run_calls insert 300 sample tree_new = Ok (l0, m0) /\
    finished (exec solo_sched (start 300 m0 solo_threads)) 1 l1 /\ drop 20 l1 = [AGet (Some 7%N); AIns (Some 6%N)] /\
    finished (exec solo_sched (start 300 m0 solo_threads)) 0 [AGet (Some 6%N); AGet (Some 105%N); ALen 44].
Proof.
  split; [split; [apply ops_ok; vm_compute; reflexivity|vm_compute; reflexivity]|]. split; [apply unambb_ok; vm_compute; reflexivity|].
  split. { intros [|[|[|i]]] ops; cbn; intros [= <-] Hne; try done; repeat constructor. }
  destruct (run_elim (run_calls insert 300 sample tree_new) (fun m => solo_check (exec solo_sched (start 300 m solo_threads)))
    ltac:(vm_cast_no_check (eq_refl true))) as (l0 & m0 & E & H).
  destruct (solo_check_elim (exec solo_sched (start 300 m0 solo_threads)) H) as (l1 & H1 & H2 & H3). exists l0, m0, l1. exact (conj E (conj H1 (conj H2 H3))).
Qed.
