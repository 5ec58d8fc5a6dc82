(** Use under the rules of Rust's borrows (SpecExcl.v): insertions exclude all other calls,
    reading calls overlap as they like.  This is how [MassTreeIndex] (Index.v) can be used
    at all, and how a [MassTree24] behind a reader-writer lock is used.  Keys of up to 256
    bytes, any number of layers, any schedule, any collection times. *)
From Verif Require Import Base Prog Version Mem Tree SpecTree SpecHist SpecLin SpecConc SpecSolo SpecExcl Index TreeTop TreeLaws Excl.

(** ** C51: then the tree is an atomic map, including [len] and [is_empty], no call fails and
    nothing is freed too early.  Between calls the tree holds the contents of that map.
    ([unambiguous]: C01.) *)
Theorem C51_exclusive_inserts_linearizable F scripts acts c h :
  300 <= F -> history_ok (concat scripts) -> unambiguous (concat scripts) ->
  c_run F acts (c_start scripts) = (c, h) -> exclusive (untimed h) ->
  exists mu, linearizable_to (length scripts) (untimed h) mu /\
    (c_quiet c -> (forall k, op_ok (Get k) -> run (get F k) (c_mem c) = Ok (mu !! k, c_mem c)) /\ cnt (c_mem c) = N.of_nat (size mu)).
Proof. exact (fun HF Hok Hu Hr Hx => excl_linearizable F scripts acts c h HF Hok Hr Hx Hu). Qed.
Print Assumptions C51_exclusive_inserts_linearizable.
(** whatever the keys, no call panics or touches freed memory, and the collector frees
    nothing twice *)
Theorem C51_exclusive_inserts_safe F scripts acts c h :
  300 <= F -> history_ok (concat scripts) ->
  c_run F acts (c_start scripts) = (c, h) -> exclusive (untimed h) ->
  (forall i e, ~ c_failed c i e) /\ c_fault c = false.
Proof. exact (excl_safe F scripts acts c h). Qed.
Print Assumptions C51_exclusive_inserts_safe.
(** [MassTreeIndex] makes the accesses of [MassTree24] and answers the same *)
Theorem C51_index_is_tree F o : index_op o -> peq (index_call F o) (call insert F o).
Proof.
  assert (forall A (p : P A), peq (bind p Ret) p) as Hb.
  { intros A p. induction p; constructor. done. }
  destruct o as [k v|k|k| |]; [|..]; intros Ho; cbn [index_call call]; try (done || apply peq_refl).
  - unfold index_insert. generalize (insert F k v). intros p. induction p as [r|e|R f kk IH]; cbn; [destruct r as [[o|]|]; constructor|constructor|constructor]. done.
  - unfold index_get. apply peq_bind; [apply Hb|]. intros. apply peq_refl.
Qed.
Print Assumptions C51_index_is_tree.

(** ** C52: and every call in progress completes within some number of turns of its thread,
    whatever the other threads and the collector do meanwhile *)
Theorem C52_exclusive_calls_complete F scripts acts c h i :
  300 <= F -> history_ok (concat scripts) ->
  c_run F acts (c_start scripts) = (c, h) -> exclusive (untimed h) -> i ∈ holders (c_thr c) ->
  exists N, forall acts' c' h', c_run F acts' c = (c', h') -> exclusive (untimed (h ++ h')) ->
    N <= turns_of i acts' -> exists t a, (t, ERet i a) ∈ h'.
Proof. exact (excl_completes F scripts acts c h i). Qed.
Print Assumptions C52_exclusive_calls_complete.

(** ** An execution that meets the hypotheses: keys of two layers, a replaced value that is
    collected while lookups overlap, and two insertions with lookups before and after *)
Definition readsb (o : op) : bool := match o with Insert _ _ => false | _ => true end.
Fixpoint exclb (h1 h : list event) : bool :=
  match h with
  | [] => true
  | e :: h => (match e with
               | ECall i o => forallb (fun j => match last_of j h1 with Some (ECall _ o') => readsb o && readsb o' | _ => true end) (map event_of h1)
               | _ => true end) && exclb (h1 ++ [e]) h
  end.
Lemma exclb_spec h : forall h0, exclb h0 h = true -> forall h1 i o h2 j o', h = h1 ++ ECall i o :: h2 -> in_progress j o' (h0 ++ h1) -> reads_only o /\ reads_only o'.
Proof.
  induction h as [|e h IH]; intros h0 Hb h1 i o h2 j o' E Hp; [by destruct h1|]. cbn [exclb] in Hb. apply andb_true_iff in Hb as [H1 H2]. destruct h1 as [|e1 h1].
  - injection E as -> ->. rewrite app_nil_r in Hp. rewrite forallb_forall in H1. specialize (H1 j). unfold in_progress in Hp. rewrite Hp in H1.
    assert (In j (map event_of h0)) as Hj.
    { unfold last_of in Hp. apply last_Some_elem_of, elem_of_list_filter in Hp as [_ Hp]. apply in_map_iff. exists (ECall j o'). split; [done|]. by apply elem_of_list_In. }
    specialize (H1 Hj). apply andb_true_iff in H1 as [H1 H3]. split; [by destruct o|by destruct o'].
  - injection E as -> ->. apply (IH (h0 ++ [e1]) H2 h1 i o h2 j o' eq_refl). by rewrite <- app_assoc.
Qed.
Lemma exclb_ok h : exclb [] h = true -> exclusive h.
Proof. intros H h1 i o h2 j o' E Hp. exact (exclb_spec h [] H h1 i o h2 j o' E Hp). Qed.

Definition key_a : bytes := [97;98;99;100;101;102;103;104;1]%N.
Definition key_b : bytes := [97;98;99;100;101;102;103;104;2;2]%N.
Definition excl_scripts : list (list op) :=
  [[Insert key_a 1; Insert key_a 2; Insert key_b 3; Get key_a; Len]; [Get key_a; Get key_b; IsEmpty]; [GetRef key_b; Insert key_a 4]]%N.
Definition excl_acts : list act :=
  repeat (Thread 0) 130 ++ concat (repeat [Thread 1; Thread 2; Collect 0] 20) ++ repeat (Thread 1) 60 ++ repeat (Thread 2) 60.
#[local] Instance op_dec : EqDecision op. Proof. solve_decision. Defined.
#[local] Instance ans_dec : EqDecision ans. Proof. solve_decision. Defined.
#[local] Instance event_dec : EqDecision event. Proof. solve_decision. Defined.
Definition excl_check (x : csys * list (N * event)) : bool :=
  exclb [] (untimed x.2) && forallb (fun x => match x.1 with TIdle => true | _ => false end) (c_thr x.1) &&
  (length (retired (c_mem x.1)) =? 1) && (length x.2 =? 20) &&
  forallb (fun e => bool_decide (e ∈ untimed x.2)) [ERet 1 (AGet (Some 2%N)); ERet 2 (AGet (Some 3%N)); ERet 2 (AIns (Some 2%N)); ERet 0 (ALen 2)].
Lemma excl_generic (x : csys * list (N * event)) : excl_check x = true -> exists c h, x = (c, h) /\ exclusive (untimed h) /\ c_quiet c /\
  length (retired (c_mem c)) = 1 /\ length h = 20 /\
  forall e, e ∈ [ERet 1 (AGet (Some 2%N)); ERet 2 (AGet (Some 3%N)); ERet 2 (AIns (Some 2%N)); ERet 0 (ALen 2)] -> e ∈ untimed h.
Proof.
  intros H. destruct x as [c h]. exists c, h. split; [done|]. unfold excl_check in H. cbn [fst snd] in H. rewrite !andb_true_iff in H.
  destruct H as [[[[Hx Hq] H1] H2] H3]. split; [by apply exclb_ok|]. split; [|split; [by apply Nat.eqb_eq|split; [by apply Nat.eqb_eq|]]].
  - intros i st ops Hi. rewrite forallb_forall in Hq. apply elem_of_list_lookup_2, elem_of_list_In in Hi. specialize (Hq _ Hi). by destruct st.
  - intros e He. rewrite forallb_forall in H3. apply elem_of_list_In, H3, bool_decide_eq_true in He. done.
Qed.
Example excl_satisfiable : history_ok (concat excl_scripts) /\ unambiguous (concat excl_scripts) /\
  exists c h, c_run 300 excl_acts (c_start excl_scripts) = (c, h) /\ exclusive (untimed h) /\ c_quiet c /\ length (retired (c_mem c)) = 1 /\ length h = 20 /\
  forall e, e ∈ [ERet 1 (AGet (Some 2%N)); ERet 2 (AGet (Some 3%N)); ERet 2 (AIns (Some 2%N)); ERet 0 (ALen 2)] -> e ∈ untimed h.
Proof.
  split; [|split].
  - split; [|vm_compute; reflexivity]. repeat constructor; cbn; lia.
  - apply unambb_ok. vm_compute. reflexivity.
  - apply excl_generic. vm_cast_no_check (eq_refl true).
Qed.
(** C52: a thread in the middle of a lookup while another looks up, after insertions *)
Example excl_busy : exists c h, c_run 300 (take 160 excl_acts) (c_start excl_scripts) = (c, h) /\ exclusive (untimed h) /\ 1 ∈ holders (c_thr c) /\ 2 ∈ holders (c_thr c).
Proof.
  assert (forall x : csys * list (N * event), exclb [] (untimed x.2) && bool_decide (1 ∈ holders (c_thr x.1)) && bool_decide (2 ∈ holders (c_thr x.1)) = true ->
    exists c h, x = (c, h) /\ exclusive (untimed h) /\ 1 ∈ holders (c_thr c) /\ 2 ∈ holders (c_thr c)) as H.
  { intros [c h] H. exists c, h. cbn [fst snd] in H. rewrite !andb_true_iff, !bool_decide_eq_true in H. destruct H as [[H1 H2] H3]. split; [done|]. split; [by apply exclb_ok|done]. }
  apply H. vm_cast_no_check (eq_refl true).
Qed.
