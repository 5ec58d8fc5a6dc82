(** Threads that replace values of keys the tree already holds, look keys up and measure the
    tree, all at any time (SpecUpdate.v).  Keys of up to 256 bytes, any number of layers, any
    schedule, any collection times. *)
From Verif Require Import Base Prog Version Mem Tree SpecTree SpecHist SpecLin SpecConc SpecExcl SpecAtomic SpecUpdate TreeLaws UpdSys PropsExcl.

(** ** C55: once a history of calls has filled the tree, the calls of any number of threads that
    insert only keys it holds are linearizable to the map: every call takes effect at one moment
    between its start and its return and answers as the map does at that moment.  When all calls
    have returned the tree holds that map: later calls of a single thread answer as it does.
    ([unambiguous]: C01; with new keys this fails, C02, C30.) *)
Theorem C55_updates_linearizable F0 F before l m scripts acts c h :
  300 <= F0 -> history_ok before -> unambiguous before -> run_calls insert F0 before tree_new = Ok (l, m) ->
  Forall (Forall op_ok) scripts -> only_updates before scripts ->
  c_run F acts (c_start_at m scripts) = (c, h) ->
  exists mu, atomically (fun s o a s' => map_step s o = (a, s')) (map_run ∅ before).2 (length scripts) h mu /\
    (c_quiet c -> forall ops, history_ok (before ++ ops) -> unambiguous (before ++ ops) ->
       exists m', run_calls insert F0 ops (c_mem c) = Ok ((map_run mu ops).1, m')).
Proof. exact (updates_quiet F0 F before l m scripts acts c h). Qed.
Print Assumptions C55_updates_linearizable.

(** ** C56: and no such call panics or touches memory that was freed, nothing is freed twice (a
    call can only be cut short by the model's bound [F] on its repetitions) *)
Theorem C56_updates_safe F0 F before l m scripts acts c h :
  300 <= F0 -> history_ok before -> unambiguous before -> run_calls insert F0 before tree_new = Ok (l, m) ->
  Forall (Forall op_ok) scripts -> only_updates before scripts ->
  c_run F acts (c_start_at m scripts) = (c, h) ->
  (forall i e, c_failed c i e -> e = Fuel) /\ c_fault c = false.
Proof. exact (fun H1 H2 H3 H4 H5 H6 H7 => proj2 (updates_linearizable F0 F before l m scripts acts c h H1 H2 H3 H4 H5 H6 H7)). Qed.
Print Assumptions C56_updates_safe.

(** ** C58: such calls never deadlock, and no call leaves a lock behind: whatever the threads have
    done so far, the calls under way can be brought to an end, one thread after the other, without
    any new call; then no node is locked and the tree holds the map that all calls made so far
    explain, so later calls of a single thread return, with its answers.  (A call that would wait
    for ever is, in the model, cut short by the bound [F]: also then it holds no lock.) *)
Theorem C58_updates_never_deadlock F0 F before l m scripts acts c h :
  300 <= F0 -> history_ok before -> unambiguous before -> run_calls insert F0 before tree_new = Ok (l, m) ->
  Forall (Forall op_ok) scripts -> only_updates before scripts ->
  c_run F acts (c_start_at m scripts) = (c, h) ->
  exists turns c' h', c_run F (map Thread turns) c = (c', h') /\ Forall (fun e => exists i a, e.2 = ERet i a) h' /\ c_settled c' /\
    (forall p, ~ node_locked (c_mem c') p) /\
    exists mu, atomically (fun s o a s' => map_step s o = (a, s')) (map_run ∅ before).2 (length scripts) (h ++ h') mu /\
      forall ops, history_ok (before ++ ops) -> unambiguous (before ++ ops) ->
        exists m', run_calls insert F0 ops (c_mem c') = Ok ((map_run mu ops).1, m').
Proof. exact (updates_settle F0 F before l m scripts acts c h). Qed.
Print Assumptions C58_updates_never_deadlock.
(** ** C58, for executions that have already come to rest by themselves: however the calls under way
    ended, no node is locked and the tree holds the map *)
Theorem C58_no_lock_left_behind F0 F before l m scripts acts c h :
  300 <= F0 -> history_ok before -> unambiguous before -> run_calls insert F0 before tree_new = Ok (l, m) ->
  Forall (Forall op_ok) scripts -> only_updates before scripts ->
  c_run F acts (c_start_at m scripts) = (c, h) -> c_settled c ->
  (forall p, ~ node_locked (c_mem c) p) /\
  exists mu, atomically (fun s o a s' => map_step s o = (a, s')) (map_run ∅ before).2 (length scripts) h mu /\
    forall ops, history_ok (before ++ ops) -> unambiguous (before ++ ops) ->
      exists m', run_calls insert F0 ops (c_mem c) = Ok ((map_run mu ops).1, m').
Proof. exact (updates_settled F0 F before l m scripts acts c h). Qed.
Print Assumptions C58_no_lock_left_behind.

(** ** An execution that meets the hypotheses: keys of two layers, two threads replace the value
    of the same key at the same time, two others look up and measure the tree, replaced values
    are collected during the calls *)
Definition upd_before : list op := [Insert key_a 1; Insert key_b 2]%N.
Definition upd_scripts : list (list op) :=
  [[Insert key_a 3; Insert key_b 4; Get key_a]; [Insert key_a 5; Get key_b]; [Get key_a; GetRef key_a; Get key_b]; [Len; IsEmpty]]%N.
Definition upd_acts : list act :=
  concat (repeat [Thread 0; Thread 1; Thread 2; Collect 0] 90) ++ repeat (Thread 3) 20 ++ repeat (Collect 0) 3 ++ concat (repeat [Thread 0; Thread 1; Thread 2; Collect 0] 120).
#[local] Instance op_dec : EqDecision op. Proof. solve_decision. Defined.
#[local] Instance ans_dec : EqDecision ans. Proof. solve_decision. Defined.
#[local] Instance event_dec : EqDecision event. Proof. solve_decision. Defined.
Definition upd_events : list event :=
  [ECall 0 (Insert key_a 3); ECall 1 (Insert key_a 5); ECall 2 (Get key_a); ERet 2 (AGet (Some 1)); ECall 2 (GetRef key_a); ERet 0 (AIns (Some 1));
   ECall 0 (Insert key_b 4); ERet 1 (AIns (Some 3)); ECall 1 (Get key_b); ERet 2 (AGet (Some 5)); ECall 2 (Get key_b); ERet 0 (AIns (Some 2));
   ECall 0 (Get key_a); ERet 1 (AGet (Some 4)); ERet 2 (AGet (Some 4)); ECall 3 Len; ERet 3 (ALen 2); ECall 3 IsEmpty; ERet 3 (AEmpty false);
   ERet 0 (AGet (Some 5))]%N.
Definition upd_check (x : res (csys * list (N * event))) : bool :=
  match x with Ok (c, h) => bool_decide (untimed h = upd_events) && (length (retired (c_mem c)) =? 0) && forallb (fun x => match x.1 with TIdle => true | _ => false end) (c_thr c) | Er _ => false end.
Example updates_satisfiable : history_ok upd_before /\ unambiguous upd_before /\ Forall (Forall op_ok) upd_scripts /\ only_updates upd_before upd_scripts /\
  exists l m c h, run_calls insert 300 upd_before tree_new = Ok (l, m) /\ c_run 300 upd_acts (c_start_at m upd_scripts) = (c, h) /\
    untimed h = upd_events /\ retired (c_mem c) = [] /\ c_quiet c.
Proof.
  split; [|split; [|split; [|split]]].
  - split; [|vm_compute; reflexivity]. repeat constructor; cbn; lia.
  - apply unambb_ok. vm_compute. reflexivity.
  - repeat constructor; cbn; lia.
  - intros k v H. cbn in H. rewrite !elem_of_cons in H.
    destruct H as [[= -> ->]|[[= -> ->]|[[= -> ->]|H]]]; [exists 1%N|exists 2%N|exists 1%N|by apply elem_of_nil in H]; cbn; rewrite !elem_of_cons; auto.
  - assert (forall x, upd_check (match x with Ok (_, m) => Ok (c_run 300 upd_acts (c_start_at m upd_scripts)) | Er e => Er e end) = true ->
      exists (l : list ans) m c h, x = Ok (l, m) /\ c_run 300 upd_acts (c_start_at m upd_scripts) = (c, h) /\ untimed h = upd_events /\ retired (c_mem c) = [] /\ c_quiet c) as H.
    { intros [[l m]|e] H; [|done]. exists l, m. unfold upd_check in H. destruct (c_run 300 upd_acts (c_start_at m upd_scripts)) as [c h]. exists c, h.
      rewrite !andb_true_iff in H. destruct H as [[H1 H2] H3].
      split; [done|]. split; [done|]. split; [by apply bool_decide_eq_true in H1|]. split; [apply Nat.eqb_eq in H2; by apply nil_length_inv|].
      intros i t ops Hi. rewrite forallb_forall in H3. specialize (H3 (t, ops)). apply elem_of_list_lookup_2, elem_of_list_In in Hi. specialize (H3 Hi). by destruct t. }
    apply H. vm_cast_no_check (eq_refl true).
Qed.

(** ** and one where the threads get in each other's way: the first holds the lock of the leaf while
    the call of the second is cut short waiting for it; then the first goes on, returns, and the
    threads have come to rest *)
Definition wait_scripts : list (list op) := [[Insert key_a 3]; [Insert key_a 5]]%N.
Definition wait_acts : list act := repeat (Thread 0) 28 ++ repeat (Thread 1) 300.
Definition wait_check1 (c c' : csys) (h' : list (N * event)) : bool :=
  match heap (c_mem c) !! 8%N with Some (NLeaf l) => v_is_locked (l_ver l) | _ => false end &&
  match c_thr c with [(TRun (Step _ _), _); (TRun (Fail Fuel), _)] => true | _ => false end &&
  bool_decide (untimed h' = [ERet 0 (AIns (Some 1%N))]) &&
  match c_thr c' with [(TIdle, _); (TRun (Fail Fuel), _)] => true | _ => false end.
Definition wait_check (m : mem) : bool :=
  let '(c, _) := c_run 12 wait_acts (c_start_at m wait_scripts) in
  let '(c', h') := c_run 12 (map Thread (repeat 0 100)) c in wait_check1 c c' h'.
Lemma wait_check1_ok c c' h' : wait_check1 c c' h' = true ->
  node_locked (c_mem c) 8 /\ ~ c_settled c /\ c_failed c 1 Fuel /\ untimed h' = [ERet 0 (AIns (Some 1%N))] /\ c_settled c'.
Proof.
  unfold wait_check1. rewrite !andb_true_iff. intros [[[H1 H2] H3] H4]. split; [|split; [|split; [|split; [by apply bool_decide_eq_true in H3|]]]].
  - unfold node_locked. by destruct (heap (c_mem c) !! 8%N) as [[n|n]|].
  - intros Hs. specialize (Hs 0). destruct (c_thr c) as [|[[|[| |]] o] ?]; try done. by specialize (Hs _ _ eq_refl).
  - unfold c_failed. destruct (c_thr c) as [|[[|[| |]] o] [|[[|[|[]|]] o'] [|]]]; try done. by exists o'.
  - intros i p ops Hi. destruct (c_thr c') as [|[[|[| |]] o] [|[[|[|[]|]] o'] [|]]]; try done.
    destruct i as [|[|i]]; cbn in Hi; [done|by injection Hi as <- _|done].
Qed.
Lemma wait_check_ok m : wait_check m = true -> exists c h c' h', c_run 12 wait_acts (c_start_at m wait_scripts) = (c, h) /\
  c_run 12 (map Thread (repeat 0 100)) c = (c', h') /\ wait_check1 c c' h' = true.
Proof.
  unfold wait_check. generalize (c_run 12 wait_acts (c_start_at m wait_scripts)). intros [c h]. exists c, h. revert H.
  generalize (c_run 12 (map Thread (repeat 0 100)) c). intros [c' h'] H. by exists c', h'.
Qed.
Example waiting_satisfiable : Forall (Forall op_ok) wait_scripts /\ only_updates upd_before wait_scripts /\
  exists l m c h c' h', run_calls insert 300 upd_before tree_new = Ok (l, m) /\ c_run 12 wait_acts (c_start_at m wait_scripts) = (c, h) /\
    node_locked (c_mem c) 8 /\ ~ c_settled c /\ c_failed c 1 Fuel /\
    c_run 12 (map Thread (repeat 0 100)) c = (c', h') /\ untimed h' = [ERet 0 (AIns (Some 1%N))] /\ c_settled c'.
Proof.
  split; [|split].
  - repeat constructor; cbn; lia.
  - intros k v H. cbn in H. rewrite !elem_of_cons in H.
    destruct H as [[= -> ->]|[[= -> ->]|H]]; [exists 1%N|exists 1%N|by apply elem_of_nil in H]; cbn; rewrite !elem_of_cons; auto.
  - assert (forall x, match x with Ok (_, m) => wait_check m | Er e => false end = true -> exists (l : list ans) m, x = Ok (l, m) /\ wait_check m = true) as Hx.
    { intros [[l m]|e] H; [|done]. by exists l, m. }
    destruct (Hx (run_calls insert 300 upd_before tree_new)) as (l & m & H1 & H2); [vm_cast_no_check (eq_refl true)|].
    apply wait_check_ok in H2 as (c & h & c' & h' & H2 & H3 & H4). apply wait_check1_ok in H4. exists l, m, c, h, c', h'.
    split; [exact H1|]. split; [exact H2|]. destruct H4 as (G1 & G2 & G3 & G4 & G5). do 3 (split; [assumption|]). split; [exact H3|]. split; assumption.
Qed.
