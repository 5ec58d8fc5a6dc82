(** Explicit guards (SpecGuard.v): any number of threads that take and drop guards of their
    own between their calls, any calls on them, any schedule, any collection times. *)
From Verif Require Import Base Key Prog Version Mem Tree SpecTree SpecLin SpecConc SpecGuard ConcTop ConcOnce GuardSys GuardRef PropsConc.

(** ** C46: a reference lives as long as its guard *)
(** As long as a thread has the guard under which [get_ref] gave it a reference, the value
    the reference points to is there, and is the one the call answered with: whoever
    replaces that value meanwhile, and whenever the collector runs. *)
Theorem C46_reference_valid F scripts acts g h i t p v :
  conc_calls scripts -> g_run F acts (g_start scripts) = (g, h) ->
  g_thr g !! i = Some t -> (p, v) ∈ gt_refs t ->
  vals (g_mem g) !! p = Some v.
Proof. exact (fun Hc Hr => guard_refs F scripts acts g h Hc Hr i t p v). Qed.
Print Assumptions C46_reference_valid.

(** Nothing goes wrong with guards held across calls: no object is freed twice, no call meets
    undefined behaviour, and a call that does not answer has run out of steps or waited too long. *)
Theorem C46_guards_safe F scripts acts g h :
  conc_calls scripts -> g_run F acts (g_start scripts) = (g, h) ->
  g_fault g = false /\ forall i e, g_failed g i e -> e = Fuel \/ e = Limit.
Proof. exact (guard_safe F scripts acts g h). Qed.
Print Assumptions C46_guards_safe.

(** Calls under a guard of the caller answer as calls under a guard of their own: every
    execution with guards has the history of one without, and the same tree; what C39 to C45
    say of the latter therefore holds of the former. *)
Theorem C46_guards_change_nothing F scripts acts g h :
  conc_calls scripts -> g_run F acts (g_start scripts) = (g, h) ->
  exists acts' c, c_run F acts' (c_start scripts) = (c, h) /\ c_mem c = g_mem g /\ (g_quiet g -> c_quiet c).
Proof. exact (guard_same F scripts acts g h). Qed.
Print Assumptions C46_guards_change_nothing.
(** such as C45 *)
Theorem C46_guarded_values_conserved F scripts acts g h k v :
  conc_calls scripts -> NoDup (values_of (concat scripts)) ->
  g_run F acts (g_start scripts) = (g, h) -> g_quiet g -> Forall (fun b => b < 256)%N k ->
  stored (g_mem g) k v <-> asked k v h /\ ~ handed_back v h.
Proof. exact (fun Hc Hd Hr => guard_stored F scripts acts g h Hc Hr k v Hd). Qed.
Print Assumptions C46_guarded_values_conserved.

(** When all calls have returned and all guards are gone, nothing keeps a replaced object
    from being freed. *)
Theorem C46_garbage_released F scripts acts g h :
  g_run F acts (g_start scripts) = (g, h) -> g_quiet g -> g_unpinned g ->
  forall B, B ∈ g_blk g -> B = [].
Proof. exact (guard_released F scripts acts g h). Qed.
Print Assumptions C46_garbage_released.

(** ** A concrete execution.  Thread 1 inserts 1 for a 12-byte key; thread 0 takes a guard
    and a reference to that 1; thread 1 replaces it by 2, twice the collector is asked to
    free it, thread 0 looks the key up and finds 2: its reference still shows 1.  Then it
    drops the guard and the collector frees the value. *)
Definition guard_key : bytes := [1; 2; 3; 4; 5; 6; 7; 8; 9; 10; 11; 12]%N.
Definition guard_scripts : list (list op) :=
  [[GetRef guard_key; Get guard_key]; [Insert guard_key 1; Insert guard_key 2]].
Definition guard_acts : list gact :=
  replicate 25 (GThread 1) ++ [GPin 0] ++ replicate 18 (GThread 0) ++ replicate 25 (GThread 1) ++
  [GCollect 0] ++ replicate 18 (GThread 0) ++ [GCollect 0].
Definition guard_answers (h : list (N * event)) : list (nat * ans) :=
  concat (map (fun e => match e.2 with ERet i a => [(i, a)] | _ => [] end) h).
Definition guard_check (x : gsys * list (N * event)) : bool :=
  bool_decide (guard_answers x.2 = [(1, AIns None); (0, AGet (Some 1%N)); (1, AIns (Some 1%N)); (0, AGet (Some 2%N))]) &&
  match g_thr x.1 with
  | [mk_gt GIdle [] true [(p, v)]; mk_gt GIdle [] false []] =>
      (v =? 1)%N && match retired (g_mem x.1) with [GVal q] => (q =? p)%N | _ => false end && bool_decide (g_blk x.1 = [[0]])
  | _ => false
  end.
Definition guard_freed (x : gsys * list (N * event)) : bool :=
  (length (retired (g_mem x.1)) =? 0)%nat && (size (vals (g_mem x.1)) =? 1)%nat &&
  forallb (fun t => negb (gt_pin t) && match gt_st t with GIdle => true | _ => false end) (g_thr x.1).
Example guards_satisfiable : conc_calls guard_scripts /\ NoDup (values_of (concat guard_scripts)) /\
  (exists g h p, g_run 100 guard_acts (g_start guard_scripts) = (g, h) /\
    (* the reference shows 1, the call after it has found 2, and the collector has to wait for thread 0 *)
    guard_answers h = [(1, AIns None); (0, AGet (Some 1%N)); (1, AIns (Some 1%N)); (0, AGet (Some 2%N))] /\
    g_thr g = [mk_gt GIdle [] true [(p, 1%N)]; mk_gt GIdle [] false []] /\
    retired (g_mem g) = [GVal p] /\ g_blk g = [[0]] /\ vals (g_mem g) !! p = Some 1%N /\ g_quiet g) /\
  (exists g h, g_run 100 (guard_acts ++ [GUnpin 0; GCollect 0]) (g_start guard_scripts) = (g, h) /\
    retired (g_mem g) = [] /\ size (vals (g_mem g)) = 1 /\ g_quiet g /\ g_unpinned g).
Proof.
  assert (Hc : conc_calls guard_scripts) by (apply conc_callsb_spec; vm_compute; reflexivity).
  split; [exact Hc|]. split; [apply NoDup_cons; split; [|apply NoDup_singleton]; by intros ?%elem_of_list_singleton|]. split.
  - assert (H : guard_check (g_run 100 guard_acts (g_start guard_scripts)) = true) by vm_cast_no_check (eq_refl true).
    destruct (g_run 100 guard_acts (g_start guard_scripts)) as [g h] eqn:Hr. unfold guard_check in H. cbn [fst snd] in H.
    apply andb_true_iff in H as [H1 H2]. apply bool_decide_eq_true in H1.
    destruct (g_thr g) as [|[[|] [|] [|] [|[p v] [|]]] [|[[|] [|] [|] [|]] [|]]] eqn:Ht; try discriminate H2.
    rewrite !andb_true_iff in H2. destruct H2 as [[Hv H3] H4]. apply N.eqb_eq in Hv as ->. apply bool_decide_eq_true in H4.
    assert (H3' : retired (g_mem g) = [GVal p]).
    { destruct (retired (g_mem g)) as [|[q|] [|]]; try discriminate H3. by apply N.eqb_eq in H3 as ->. }
    exists g, h, p. split; [reflexivity|]. split; [exact H1|]. split; [exact Ht|]. split; [exact H3'|]. split; [exact H4|]. split.
    + eapply (C46_reference_valid 100 guard_scripts guard_acts g h 0); [exact Hc|exact Hr|rewrite Ht; reflexivity|]. apply elem_of_list_singleton. reflexivity.
    + intros i t. rewrite Ht. destruct i as [|[|i]]; cbn; intros [= <-]; reflexivity.
  - assert (H : guard_freed (g_run 100 (guard_acts ++ [GUnpin 0; GCollect 0]) (g_start guard_scripts)) = true) by vm_cast_no_check (eq_refl true).
    destruct (g_run 100 (guard_acts ++ [GUnpin 0; GCollect 0]) (g_start guard_scripts)) as [g h] eqn:Hr. unfold guard_freed in H. cbn [fst snd] in H.
    rewrite !andb_true_iff in H. destruct H as [[H1 H2] H3]. apply Nat.eqb_eq, nil_length_inv in H1. apply Nat.eqb_eq in H2. rewrite forallb_forall in H3.
    exists g, h. split; [reflexivity|]. split; [exact H1|]. split; [exact H2|].
    assert (forall i t, g_thr g !! i = Some t -> gt_pin t = false /\ gt_st t = GIdle) as H.
    { intros i t Hi. apply elem_of_list_lookup_2, elem_of_list_In, H3, andb_true_iff in Hi as [Ha Hb].
      apply negb_true_iff in Ha. split; [exact Ha|]. destruct (gt_st t); [reflexivity|discriminate Hb]. }
    split; intros i t Hi; by apply (H i t Hi).
Qed.
