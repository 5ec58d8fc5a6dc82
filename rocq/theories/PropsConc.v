(** Concurrent executions on the whole tree: any number of threads and calls, any schedule
    of their accesses, leaf and internode splits included, and a collector that frees
    retired values as early as it may (SpecConc.v).  [F] bounds the loops that may spin;
    nothing is assumed of it. *)
From Verif Require Import Base Prog Version Mem Tree SpecTree SpecLin SpecConc ConcTop ConcLen.

(** ** C38: memory safety and absence of panics.  No call panics, follows a dangling
    pointer, or takes a node for one of another kind, and the collector frees nothing
    twice.  [Fuel]: a loop still spins; [Limit]: the deliberate panic after 64 rounds of
    retrying to lock a parent (propagation.rs:54). *)
Theorem C38_concurrent_safety F scripts acts c h :
  conc_calls scripts -> c_run F acts (c_start scripts) = (c, h) ->
  c_fault c = false /\ forall i e, c_failed c i e -> e = Fuel \/ e = Limit.
Proof. exact (conc_safe F scripts acts c h). Qed.
Print Assumptions C38_concurrent_safety.

(** C31 (false in general, see PropsRefuted.v).  What holds: for keys that need one layer
    only ([conc_calls]) no call takes a pointer for something it is not, and neither does
    the collector.  Missing: keys that make a deeper layer. *)
Theorem C31_no_misinterpretation_partial F scripts acts c h :
  conc_calls scripts -> c_run F acts (c_start scripts) = (c, h) -> c_fault c = false /\ forall i, ~ c_failed c i UB.
Proof. exact (conc_no_ub F scripts acts c h). Qed.
Print Assumptions C31_no_misinterpretation_partial.

(** ** C39: a lookup answers only with a value some thread has asked to insert for exactly
    that key, if fewer than 2^19 actions happen during the lookup (the version counter of a
    leaf has 25 bits and may wrap during a longer one). *)
Theorem C39_lookup_sound F scripts acts c h h1 t1 t i k v h2 :
  conc_calls scripts -> c_run F acts (c_start scripts) = (c, h) ->
  h = h1 ++ (t, ERet i (AGet (Some v))) :: h2 ->
  last_at i h1 = Some (t1, ECall i (Get k)) \/ last_at i h1 = Some (t1, ECall i (GetRef k)) ->
  (t < t1 + 2 ^ 19)%N ->
  asked k v h1.
Proof. exact (fun H1 H2 H3 H4 => conc_lookup F scripts acts c h H1 H2 h1 t i v h2 t1 k H3 H4). Qed.
Print Assumptions C39_lookup_sound.

(** ** C40: what insert answers.  The replaced value it returns is one some thread has asked
    to insert for that key; every answer follows its own call, and insert never fails. *)
Theorem C40_replaced_value_sound F scripts acts c h h1 t1 t i k v v' h2 :
  conc_calls scripts -> c_run F acts (c_start scripts) = (c, h) ->
  h = h1 ++ (t, ERet i (AIns (Some v))) :: h2 ->
  last_at i h1 = Some (t1, ECall i (Insert k v')) ->
  asked k v h1.
Proof. exact (fun H1 H2 H3 => conc_replaced F scripts acts c h H1 H2 h1 t i v h2 t1 k v' H3). Qed.
Print Assumptions C40_replaced_value_sound.
Theorem C40_insert_never_fails F scripts acts c h h1 t i a h2 :
  conc_calls scripts -> c_run F acts (c_start scripts) = (c, h) ->
  h = h1 ++ (t, ERet i a) :: h2 ->
  exists t1 o, last_at i h1 = Some (t1, ECall i o) /\
  match o, a with
  | Insert _ _, AIns _ | Get _, AGet _ | GetRef _, AGet _ | Len, ALen _ => True
  | _, _ => False
  end.
Proof. exact (fun H1 H2 => conc_answers F scripts acts c h H1 H2 h1 t i a h2). Qed.
Print Assumptions C40_insert_never_fails.

(** ** C41: once all calls have returned no node is locked, nothing keeps the collector from
    freeing what was retired, and dropping the tree frees every node and every value exactly
    once ([drop_tree] fails if it frees something twice). *)
Theorem C41_no_lock_left F scripts acts c h :
  conc_calls scripts -> c_run F acts (c_start scripts) = (c, h) -> c_quiet c ->
  forall p, ~ node_locked (c_mem c) p.
Proof. exact (conc_unlocked F scripts acts c h). Qed.
Print Assumptions C41_no_lock_left.
Theorem C41_garbage_released F scripts acts c h :
  conc_calls scripts -> c_run F acts (c_start scripts) = (c, h) -> c_quiet c ->
  forall B, B ∈ c_blk c -> B = [].
Proof. exact (conc_unblocked F scripts acts c h). Qed.
Print Assumptions C41_garbage_released.
Theorem C41_freed_exactly_once F scripts acts c h :
  conc_calls scripts -> c_run F acts (c_start scripts) = (c, h) -> c_quiet c ->
  exists m', drop_tree (c_mem c) = Ok m' /\
    heap m' = ∅ /\ vals m' = ∅ /\ bags m' = ∅ /\ retired m' = [] /\ tracked m' = [].
Proof. exact (conc_drop F scripts acts c h). Qed.
Print Assumptions C41_freed_exactly_once.

(** ** C42: len.  For all keys and calls: once all calls have returned, len is the number of
    insertions that answered that the key was not there; a call of len made meanwhile answers
    at least the number of those that had answered before it was made, and at most the number
    of insertions begun before its answer without those that had already answered otherwise. *)
Theorem C42_len_at_rest F scripts acts c h :
  c_run F acts (c_start scripts) = (c, h) -> c_quiet c -> run len (c_mem c) = Ok (added h, c_mem c).
Proof. exact (fun H Hq => f_equal (fun n => Ok (n, c_mem c)) (conc_len_quiet F scripts acts c h H Hq)). Qed.
Print Assumptions C42_len_at_rest.
Theorem C42_len_meanwhile F scripts acts c h h1 t1 i h2 t2 n h3 :
  c_run F acts (c_start scripts) = (c, h) ->
  h = h1 ++ (t1, ECall i Len) :: h2 ++ (t2, ERet i (ALen n)) :: h3 ->
  Forall (fun e => event_of e.2 <> i) h2 ->
  (added h1 <= n)%N /\ (n + not_added h1 <= insert_calls (h1 ++ (t1, ECall i Len) :: h2))%N.
Proof. exact (fun H => conc_len F scripts acts c h H h1 t1 i h2 t2 n h3). Qed.
Print Assumptions C42_len_meanwhile.

(** ** A concrete execution: two threads insert 27 different keys, five of them twice, so
    that the root leaf is split; nine of the keys have 10 bytes, and each of those agrees in
    the first 8 with an 8-byte key and, padded, with a 1-byte key.  A third thread looks keys
    up meanwhile; the collector frees the five replaced values; all calls answer. *)
Definition conc_key (i : nat) : bytes :=
  N.of_nat (i / 3) :: match i mod 3 with 0 => [] | 1 => replicate 7 0%N | _ => replicate 7 0%N ++ [7%N; N.of_nat i] end.
Definition conc_keys (a n : nat) : list bytes := map conc_key (seq a n).
Definition conc_scripts : list (list op) :=
  [map (fun k => Insert k 1%N) (conc_keys 1 14); map (fun k => Insert k 2%N) (conc_keys 10 18);
   [Get (conc_key 11); Len; GetRef (conc_key 26); Get (conc_key 5)]].
Definition conc_acts : list act := concat (replicate 1200 [Thread 0; Thread 1; Thread 2; Collect 0]).
Global Instance op_eq_dec : EqDecision op.
Proof. solve_decision. Defined.
Global Instance ans_eq_dec : EqDecision ans.
Proof. solve_decision. Defined.
Global Instance event_eq_dec : EqDecision event.
Proof. solve_decision. Defined.
(** the [n]-th event is thread [i] answering [a], and its last one before that the call [o] *)
Definition answer_at (h : list (N * event)) (n i : nat) (o : op) (a : ans) : bool :=
  match h !! n, last_at i (take n h) with
  | Some (t, e), Some (t1, e1) => bool_decide (e = ERet i a) && bool_decide (e1 = ECall i o) && (t <? t1 + 2 ^ 19)%N
  | _, _ => false
  end.
Lemma answer_at_spec h n i o a : answer_at h n i o a = true -> exists h1 t t1 h2,
  h = h1 ++ (t, ERet i a) :: h2 /\ last_at i h1 = Some (t1, ECall i o) /\ (t < t1 + 2 ^ 19)%N.
Proof.
  unfold answer_at. destruct (h !! n) as [[t e]|] eqn:Hn; [|done].
  destruct (last_at _ _) as [[t1 e1]|] eqn:Hl; [|done]. rewrite !andb_true_iff. intros [[He He1] Ht].
  apply bool_decide_eq_true in He, He1. subst. apply N.ltb_lt in Ht.
  exists (take n h), t, t1, (drop (S n) h). split; [|done]. by rewrite take_drop_middle.
Qed.
(** thread 2 calls len in the [n]-th event and gets the answer in the one after the next *)
Definition len_at (h : list (N * event)) (n : nat) (x : N) : bool :=
  match drop n h with
  | (t1, e1) :: e :: (t2, e2) :: _ => bool_decide (e1 = ECall 2 Len) && negb (event_of e.2 =? 2)%nat && bool_decide (e2 = ERet 2 (ALen x))
  | _ => false
  end.
(** deciding [conc_calls] *)
Definition conc_opb (o : op) : bool :=
  match o with
  | Insert k _ | Get k | GetRef k => (length k <=? 256)%nat && forallb (fun b => b <? 256)%N k
  | Len => true
  | IsEmpty => false
  end.
Lemma conc_opb_spec o : conc_opb o = true -> conc_op o.
Proof.
  assert (forall k, (length k <=? 256)%nat && forallb (fun b => b <? 256)%N k = true -> length k <= 256 /\ Forall (fun b => (b < 256)%N) k) as Hk.
  { intros k [H1 H2]%andb_true_iff. apply Nat.leb_le in H1. split; [done|]. rewrite forallb_forall in H2. apply Forall_forall.
    intros b Hb%elem_of_list_In. by apply N.ltb_lt, H2. }
  intros H. split; [|by destruct o]. destruct o; cbn in H; try done; by apply Hk.
Qed.
Definition one_layerb (scripts : list (list op)) : bool :=
  let l := inserts (concat scripts) in
  forallb (fun x => forallb (fun y => implb ((8 <? length x.1)%nat && (8 <? length y.1)%nat && bool_decide (take 8 x.1 = take 8 y.1))
                                            (bool_decide (x.1 = y.1))) l) l.
Lemma one_layerb_spec scripts : one_layerb scripts = true -> one_layer scripts.
Proof.
  unfold one_layerb. rewrite forallb_forall. intros H k v k' v' Hk Hk' H8 H8' E. apply elem_of_list_In in Hk, Hk'.
  specialize (H _ Hk). rewrite forallb_forall in H. specialize (H _ Hk'). cbn [fst] in H.
  rewrite (proj2 (Nat.ltb_lt _ _) H8), (proj2 (Nat.ltb_lt _ _) H8'), bool_decide_eq_true_2 in H by done. cbn in H. by apply bool_decide_eq_true in H.
Qed.
Definition conc_callsb (scripts : list (list op)) : bool :=
  forallb (forallb conc_opb) scripts && one_layerb scripts && (N.of_nat (length (inserts (concat scripts))) <? 16000000)%N.
Lemma conc_callsb_spec scripts : conc_callsb scripts = true -> conc_calls scripts.
Proof.
  intros [[H1 H2]%andb_true_iff H3]%andb_true_iff. split; [|split; [by apply one_layerb_spec|intros _; by apply N.ltb_lt]].
  rewrite forallb_forall in H1. apply Forall_forall. intros ops Ho%elem_of_list_In. specialize (H1 _ Ho). rewrite forallb_forall in H1.
  apply Forall_forall. intros o Hin%elem_of_list_In. by apply conc_opb_spec, H1.
Qed.
Definition conc_check (x : csys * list (N * event)) : bool :=
  forallb (fun x => match x.1 with TIdle => true | _ => false end) (c_thr x.1) &&
  ((size (heap (c_mem x.1)) =? 3)%nat && (size (vals (c_mem x.1)) =? 27)%nat && (size (bags (c_mem x.1)) =? 2)%nat && (cnt (c_mem x.1) =? 27)%N &&
   (length (retired (c_mem x.1)) =? 0)%nat) &&
  answer_at x.2 11 2 (Get (conc_key 11)) (AGet (Some 2%N)) && answer_at x.2 71 2 (Get (conc_key 5)) (AGet (Some 1%N)) &&
  answer_at x.2 47 0 (Insert (conc_key 11) 1%N) (AIns (Some 2%N)) && len_at x.2 12 5 &&
  (added (take 12 x.2) =? 4)%N && (insert_calls (take 14 x.2) =? 6)%N && (added x.2 =? 27)%N.
Example concurrent_satisfiable : conc_calls conc_scripts /\
  exists c h, c_run 400 conc_acts (c_start conc_scripts) = (c, h) /\ c_quiet c /\
  (* a leaf was split, and of the 32 inserted values the five replaced ones have been freed *)
  (size (heap (c_mem c)) = 3 /\ size (vals (c_mem c)) = 27 /\ size (bags (c_mem c)) = 2 /\ cnt (c_mem c) = 27%N /\ retired (c_mem c) = []) /\
  (* C39: lookups found values of 10-byte keys: key 11 soon after it was inserted, key 5 after the split *)
  (exists h1 t t1 h2, h = h1 ++ (t, ERet 2 (AGet (Some 2%N))) :: h2 /\
     last_at 2 h1 = Some (t1, ECall 2 (Get (conc_key 11))) /\ (t < t1 + 2 ^ 19)%N) /\
  (exists h1 t t1 h2, h = h1 ++ (t, ERet 2 (AGet (Some 1%N))) :: h2 /\
     last_at 2 h1 = Some (t1, ECall 2 (Get (conc_key 5))) /\ (t < t1 + 2 ^ 19)%N) /\
  (* C40: an insert answered with the replaced value *)
  (exists h1 t t1 h2, h = h1 ++ (t, ERet 0 (AIns (Some 2%N))) :: h2 /\
     last_at 0 h1 = Some (t1, ECall 0 (Insert (conc_key 11) 1%N)) /\ (t < t1 + 2 ^ 19)%N) /\
  (* C42: len answered 5 when 4 insertions had answered and 6 had been called *)
  (exists h1 t1 e t2 h3, h = h1 ++ (t1, ECall 2 Len) :: [e] ++ (t2, ERet 2 (ALen 5)) :: h3 /\ event_of e.2 <> 2 /\
     added h1 = 4%N /\ insert_calls (h1 ++ (t1, ECall 2 Len) :: [e]) = 6%N) /\
  added h = 27%N.
Proof.
  split; [apply conc_callsb_spec; vm_compute; reflexivity|].
  assert (H : conc_check (c_run 400 conc_acts (c_start conc_scripts)) = true) by vm_cast_no_check (eq_refl true).
  destruct (c_run 400 conc_acts (c_start conc_scripts)) as [c h]. exists c, h. split; [done|].
  unfold conc_check in H. cbn [fst snd] in H. rewrite !andb_true_iff in H.
  destruct H as [[[[[[[[Hq [[[[Hh Hv] Hb] Hc] Hr]] H1] H2] H3] H4] H5] H6] H7].
  split.
  { intros i t ops Hi. rewrite forallb_forall in Hq. apply elem_of_list_lookup_2, elem_of_list_In in Hi.
    specialize (Hq _ Hi). by destruct t. }
  apply Nat.eqb_eq in Hh, Hv, Hb, Hr. apply N.eqb_eq in Hc, H5, H6, H7.
  split; [split; [done|]; split; [done|]; split; [done|]; split; [done|]; by apply nil_length_inv|].
  split; [exact (answer_at_spec _ _ _ _ _ H1)|]. split; [exact (answer_at_spec _ _ _ _ _ H2)|].
  split; [exact (answer_at_spec _ _ _ _ _ H3)|]. split; [|done].
  unfold len_at in H4. destruct (drop 12 h) as [|[t1 e1] [|e [|[t2 e2] h3]]] eqn:Hd; try done.
  apply andb_true_iff in H4 as [H4 E2]. apply andb_true_iff in H4 as [E1 E3]. apply bool_decide_eq_true in E1, E2. subst.
  exists (take 12 h), t1, e, t2, h3. split; [rewrite <- (take_drop 12 h) at 1; by rewrite Hd|].
  split; [by apply negb_true_iff, Nat.eqb_neq in E3|].
  split; [done|]. rewrite <- H6. f_equal. change 14 with (12 + 2). by rewrite <- take_take_drop, Hd.
Qed.
