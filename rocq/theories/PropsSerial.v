(** Insertions one after the other (one inserting thread, or a mutex around [insert]) while
    any number of threads look up at any time (SpecSerial.v).  Keys of up to 256 bytes, any
    number of layers, any schedule, any collection times. *)
From Verif Require Import Base Prog Version Mem Tree SpecTree SpecHist SpecLin SpecConc SpecSolo SpecExcl SpecSerial TreeLaws Serial PropsExcl.

(** ** C53: each insertion answers like a map that has received the insertions called before
    it, and so does every other call that no insertion overlaps; whenever no insertion is in
    progress the tree holds that map, however many lookups are under way.  ([unambiguous]: C01;
    lookups during an insertion may miss, C30.) *)
Theorem C53_serial_inserts_exact F scripts acts c h :
  300 <= F -> history_ok (concat scripts) -> unambiguous (concat scripts) ->
  c_run F acts (c_start scripts) = (c, h) -> serial (untimed h) ->
  (forall h1 i o h2 a, answered_call (untimed h) h1 i o h2 a -> undisturbed h1 h2 -> a = (map_step (contents h1) o).1) /\
  (no_insertion (untimed h) ->
     (forall k, op_ok (Get k) -> run (get F k) (c_mem c) = Ok (contents (untimed h) !! k, c_mem c)) /\
     cnt (c_mem c) = N.of_nat (size (contents (untimed h)))).
Proof. exact (fun HF Hok Hu Hr Hx => conj (serial_answers F scripts acts c h HF Hok Hr Hx Hu) (serial_contents F scripts acts c h HF Hok Hr Hx Hu)). Qed.
Print Assumptions C53_serial_inserts_exact.
(** the first clause says something about every insertion: none overlaps another *)
Theorem C53_insertions_undisturbed h h1 i k v h2 a :
  serial h -> answered_call h h1 i (Insert k v) h2 a -> undisturbed h1 h2.
Proof. exact (serial_undisturbed h h1 i k v h2 a). Qed.
Print Assumptions C53_insertions_undisturbed.
(** whatever the keys, the collector frees nothing twice, and the only calls that can fail
    are lookups that an insertion overlaps *)
Theorem C53_serial_inserts_safe F scripts acts c h :
  300 <= F -> history_ok (concat scripts) -> c_run F acts (c_start scripts) = (c, h) -> serial (untimed h) ->
  c_fault c = false /\ forall i e, c_failed c i e ->
  exists h1 o h2, open_call (untimed h) h1 i o h2 /\ reads_only o /\ ~ undisturbed h1 h2.
Proof. exact (serial_safe F scripts acts c h). Qed.
Print Assumptions C53_serial_inserts_safe.

(** ** C54: and an insertion in progress completes within some number of turns of its thread,
    whatever lookups and the collector do meanwhile *)
Theorem C54_serial_inserts_complete F scripts acts c h i k v :
  300 <= F -> history_ok (concat scripts) -> c_run F acts (c_start scripts) = (c, h) -> serial (untimed h) ->
  in_progress i (Insert k v) (untimed h) ->
  exists N, forall acts' c' h', c_run F acts' c = (c', h') -> serial (untimed (h ++ h')) ->
    N <= turns_of i acts' -> exists t a, (t, ERet i a) ∈ h'.
Proof. exact (serial_completes F scripts acts c h i k v). Qed.
Print Assumptions C54_serial_inserts_complete.

(** ** An execution that meets the hypotheses: two threads insert keys of two layers in turn,
    two others look up at the same time, a replaced value is collected *)
Fixpoint serialb (h1 h : list event) : bool :=
  match h with
  | [] => true
  | e :: h => (match e with
               | ECall i (Insert _ _) => forallb (fun j => match last_of j h1 with Some (ECall _ (Insert _ _)) => false | _ => true end) (map event_of h1)
               | _ => true end) && serialb (h1 ++ [e]) h
  end.
Lemma serialb_spec h : forall h0, serialb h0 h = true -> forall h1 i k v h2, h = h1 ++ ECall i (Insert k v) :: h2 -> no_insertion (h0 ++ h1).
Proof.
  induction h as [|e h IH]; intros h0 Hb h1 i k v h2 E; [by destruct h1|]. cbn [serialb] in Hb. apply andb_true_iff in Hb as [H1 H2]. destruct h1 as [|e1 h1].
  - injection E as -> ->. rewrite app_nil_r. intros j k' v' Hp. rewrite forallb_forall in H1. specialize (H1 j). unfold in_progress in Hp. rewrite Hp in H1.
    assert (In j (map event_of h0)) as Hj; [|by specialize (H1 Hj)].
    unfold last_of in Hp. apply last_Some_elem_of, elem_of_list_filter in Hp as [_ Hp]. apply in_map_iff. exists (ECall j (Insert k' v')). split; [done|]. by apply elem_of_list_In.
  - injection E as -> ->. specialize (IH (h0 ++ [e1]) H2 h1 i k v h2 eq_refl). by rewrite <- app_assoc in IH.
Qed.
Lemma serialb_ok h : serialb [] h = true -> serial h.
Proof. intros H h1 i k v h2 E. exact (serialb_spec h [] H h1 i k v h2 E). Qed.

Definition serial_scripts : list (list op) :=
  [[Insert key_a 1; Insert key_a 2; Get key_b]; [Insert key_b 3; Len]; [Get key_a; Get key_a; Get key_b; Get key_a]; [Len; IsEmpty; GetRef key_b]]%N.
Definition serial_acts : list act :=
  concat (repeat [Thread 0; Thread 0; Thread 2; Thread 3] 42) ++ repeat (Collect 0) 2 ++ concat (repeat [Thread 1; Thread 1; Thread 2; Collect 0] 100) ++ repeat (Thread 3) 60 ++ repeat (Thread 0) 60.
#[local] Instance op_dec : EqDecision op. Proof. solve_decision. Defined.
#[local] Instance ans_dec : EqDecision ans. Proof. solve_decision. Defined.
#[local] Instance event_dec : EqDecision event. Proof. solve_decision. Defined.
Definition serial_end : list event :=
  [ECall 1 (Insert key_b 3); ERet 2 (AGet (Some 2)); ECall 2 (Get key_b); ERet 1 (AIns None); ECall 1 Len; ERet 1 (ALen 2);
   ERet 2 (AGet (Some 3)); ECall 2 (Get key_a); ERet 2 (AGet (Some 2))]%N.
Definition serial_check (x : csys * list (N * event)) : bool :=
  serialb [] (untimed x.2) && bool_decide (drop 15 (untimed x.2) = serial_end) && (length (retired (c_mem x.1)) =? 0) &&
  forallb (fun j => match last_of j (untimed x.2) with Some (ECall _ _) => false | _ => true end) (map event_of (untimed x.2)).
Example serial_satisfiable : history_ok (concat serial_scripts) /\ unambiguous (concat serial_scripts) /\
  exists c h, c_run 300 serial_acts (c_start serial_scripts) = (c, h) /\ serial (untimed h) /\ drop 15 (untimed h) = serial_end /\ retired (c_mem c) = [] /\ no_insertion (untimed h).
Proof.
  split; [|split].
  - split; [|vm_compute; reflexivity]. repeat constructor; cbn; lia.
  - apply unambb_ok. vm_compute. reflexivity.
  - assert (forall x : csys * list (N * event), serial_check x = true -> exists c h, x = (c, h) /\ serial (untimed h) /\ drop 15 (untimed h) = serial_end /\ retired (c_mem c) = [] /\ no_insertion (untimed h)) as H.
    { intros [c h] H. exists c, h. unfold serial_check in H. cbn [fst snd] in H. rewrite !andb_true_iff in H. destruct H as [[[H1 H2] H3] H4]. split; [done|]. split; [by apply serialb_ok|].
      split; [by apply bool_decide_eq_true in H2|]. split; [apply Nat.eqb_eq in H3; by apply nil_length_inv|]. intros j k v Hp. rewrite forallb_forall in H4. specialize (H4 j). unfold in_progress in Hp. rewrite Hp in H4.
      assert (In j (map event_of (untimed h))) as Hj; [|by specialize (H4 Hj)].
      unfold last_of in Hp. apply last_Some_elem_of, elem_of_list_filter in Hp as [_ Hp]. apply in_map_iff. exists (ECall j (Insert k v)). split; [done|]. by apply elem_of_list_In. }
    apply H. vm_cast_no_check (eq_refl true).
Qed.
(** C54: an insertion in progress together with a lookup *)
Example serial_busy : exists c h, c_run 300 (take 200 serial_acts) (c_start serial_scripts) = (c, h) /\ serial (untimed h) /\
  in_progress 1 (Insert key_b 3%N) (untimed h) /\ in_progress 2 (Get key_b) (untimed h).
Proof.
  assert (forall x : csys * list (N * event), serialb [] (untimed x.2) && bool_decide (last_of 1 (untimed x.2) = Some (ECall 1 (Insert key_b 3%N))) &&
    bool_decide (last_of 2 (untimed x.2) = Some (ECall 2 (Get key_b))) = true ->
    exists c h, x = (c, h) /\ serial (untimed h) /\ in_progress 1 (Insert key_b 3%N) (untimed h) /\ in_progress 2 (Get key_b) (untimed h)) as H.
  { intros [c h] H. exists c, h. cbn [fst snd] in H. rewrite !andb_true_iff, !bool_decide_eq_true in H. destruct H as [[H1 H2] H3]. split; [done|]. split; [by apply serialb_ok|done]. }
  apply H. vm_cast_no_check (eq_refl true).
Qed.
