(** Where values end up in concurrent executions (SpecConc.v): any number of threads and
    calls, any schedule, any collection times.  The inserted values are assumed pairwise
    different so that they can be told apart; the code never looks at them. *)
From Verif Require Import Base Prog Version Mem Tree SpecTree SpecLin SpecConc ConcOnce PropsConc.

(** ** C43: a replaced value is handed back once, and not to the call that brought it *)
Theorem C43_handed_back_once F scripts acts c h h1 t i v h2 t' j h3 :
  conc_calls scripts -> NoDup (values_of (concat scripts)) ->
  c_run F acts (c_start scripts) = (c, h) ->
  ~ h = h1 ++ (t, ERet i (AIns (Some v))) :: h2 ++ (t', ERet j (AIns (Some v))) :: h3.
Proof. exact (fun Ho Hd Hr => on_once _ (conc_once scripts Hd Ho F acts c h Hr) h1 t i v h2 t' j h3). Qed.
Print Assumptions C43_handed_back_once.
Theorem C43_not_its_own F scripts acts c h h1 t1 t i k v v' h2 :
  conc_calls scripts -> NoDup (values_of (concat scripts)) ->
  c_run F acts (c_start scripts) = (c, h) ->
  h = h1 ++ (t, ERet i (AIns (Some v))) :: h2 ->
  last_at i h1 = Some (t1, ECall i (Insert k v')) ->
  v <> v'.
Proof. exact (fun Ho Hd Hr => on_own _ (conc_once scripts Hd Ho F acts c h Hr) h1 t i v h2 t1 k v'). Qed.
Print Assumptions C43_not_its_own.

(** ** C44: a call made after a value was handed back does not find it *)
Theorem C44_no_stale_lookup F scripts acts c h h1 t j v h2 t1 i o h3 t2 h4 :
  conc_calls scripts -> NoDup (values_of (concat scripts)) ->
  c_run F acts (c_start scripts) = (c, h) ->
  h = h1 ++ (t, ERet j (AIns (Some v))) :: h2 ++ (t1, ECall i o) :: h3 ++ (t2, ERet i (AGet (Some v))) :: h4 ->
  ~ Forall (fun e => event_of e.2 <> i) h3.
Proof. exact (fun Ho Hd Hr => on_stale _ (conc_once scripts Hd Ho F acts c h Hr) h1 t j v h2 t1 i o h3 t2 h4). Qed.
Print Assumptions C44_no_stale_lookup.

(** ** C45: no value is lost or kept too long.  Once all calls have returned, the leaves hold
    a value under a key if and only if it was inserted for that key and not handed back; so
    every inserted value is either in the tree, once, or was given to a caller. *)
Theorem C45_values_conserved F scripts acts c h k v :
  conc_calls scripts -> NoDup (values_of (concat scripts)) ->
  c_run F acts (c_start scripts) = (c, h) -> c_quiet c -> Forall (fun b => b < 256)%N k ->
  stored (c_mem c) k v <-> asked k v h /\ ~ handed_back v h.
Proof. exact (fun Ho Hd Hr => conc_stored scripts Hd Ho F acts c h Hr k v). Qed.
Print Assumptions C45_values_conserved.
(** and the memory holds no other value than those and the ones still to be collected *)
Theorem C45_nothing_else_kept F scripts acts c h v :
  conc_calls scripts -> NoDup (values_of (concat scripts)) ->
  c_run F acts (c_start scripts) = (c, h) -> c_quiet c ->
  (exists hd, vals (c_mem c) !! hd = Some v /\ GVal hd ∉ retired (c_mem c)) <->
  (exists k, asked k v h) /\ ~ handed_back v h.
Proof. exact (fun Ho Hd Hr => conc_kept scripts Hd Ho F acts c h Hr v). Qed.
Print Assumptions C45_nothing_else_kept.

(** ** A concrete execution: as in PropsConc.v, with different values.  Value 111 of a
    10-byte key is found, then replaced by 11 and handed back, and a later lookup finds 11. *)
Definition val_scripts : list (list op) :=
  [map (fun i => Insert (conc_key i) (N.of_nat i)) (seq 1 14);
   map (fun i => Insert (conc_key i) (100 + N.of_nat i)%N) (seq 10 18);
   Len :: replicate 20 (Get (conc_key 11))].
Definition is_event (h : list (N * event)) (n : nat) (e : event) : bool :=
  match h !! n with Some (_, e') => bool_decide (e' = e) | None => false end.
Lemma is_event_spec h n e : is_event h n e = true -> exists t, h !! n = Some (t, e).
Proof. unfold is_event. destruct (h !! n) as [[t e']|]; [|done]. intros ->%bool_decide_eq_true. by exists t. Qed.
Definition val_check (x : csys * list (N * event)) : bool :=
  forallb (fun x => match x.1 with TIdle => true | _ => false end) (c_thr x.1) &&
  is_event x.2 67 (ERet 2 (AGet (Some 111%N))) && is_event x.2 69 (ERet 0 (AIns (Some 111%N))) &&
  is_event x.2 72 (ECall 2 (Get (conc_key 11))) && is_event x.2 75 (ERet 2 (AGet (Some 11%N))) &&
  forallb (fun e => negb (event_of e.2 =? 2)) (take 2 (drop 73 x.2)) &&
  existsb (fun e => bool_decide (e.2 = ECall 0 (Insert (conc_key 11) 11%N))) x.2 &&
  existsb (fun e => bool_decide (e.2 = ECall 1 (Insert (conc_key 11) 111%N))) x.2 &&
  forallb (fun e => match e.2 with ERet _ (AIns (Some v)) => negb (v =? 11)%N | _ => true end) x.2.
Lemma split_at {A} (h : list A) n x : h !! n = Some x -> h = take n h ++ x :: drop (S n) h.
Proof. intros H. by rewrite take_drop_middle. Qed.
Lemma values_generic (x : csys * list (N * event)) : val_check x = true ->
  (c_quiet x.1 -> forall v, stored (c_mem x.1) (conc_key 11) v <-> asked (conc_key 11) v x.2 /\ ~ handed_back v x.2) ->
  exists c h, x = (c, h) /\ c_quiet c /\
  (exists h1 t h2 t0, h = h1 ++ (t, ERet 0 (AIns (Some 111%N))) :: h2 /\ (t0, ERet 2 (AGet (Some 111%N))) ∈ h1 /\
   exists h2' t1 h3 t2 h4, h2 = h2' ++ (t1, ECall 2 (Get (conc_key 11))) :: h3 ++ (t2, ERet 2 (AGet (Some 11%N))) :: h4 /\
     Forall (fun e => event_of e.2 <> 2) h3) /\
  (asked (conc_key 11) 11%N h /\ ~ handed_back 11%N h) /\ (asked (conc_key 11) 111%N h /\ handed_back 111%N h) /\
  stored (c_mem c) (conc_key 11) 11%N /\ ~ stored (c_mem c) (conc_key 11) 111%N.
Proof.
  intros H Hst. destruct x as [c h]. exists c, h. split; [done|].
  unfold val_check in H. cbn [fst snd] in H. rewrite !andb_true_iff in H.
  destruct H as [[[[[[[[Hq H1] H2] H3] H4] H5] H6] H7] H8].
  assert (Hquiet : c_quiet c).
  { intros i t ops Hi. rewrite forallb_forall in Hq. apply elem_of_list_lookup_2, elem_of_list_In in Hi.
    specialize (Hq _ Hi). by destruct t. }
  split; [done|].
  apply is_event_spec in H1 as [t0 H1], H2 as [t H2], H3 as [t1 H3], H4 as [t2 H4].
  assert (A1 : asked (conc_key 11) 11%N h /\ ~ handed_back 11%N h).
  { apply existsb_exists in H6 as ([t3 e] & Hin & He). apply bool_decide_eq_true in He. cbn in He. subst e. split; [exists t3, 0; by apply elem_of_list_In|].
    intros (t4 & i & Hin'). rewrite forallb_forall in H8. apply elem_of_list_In in Hin'. by specialize (H8 _ Hin'). }
  assert (A2 : asked (conc_key 11) 111%N h /\ handed_back 111%N h).
  { apply existsb_exists in H7 as ([t3 e] & Hin & He). apply bool_decide_eq_true in He. cbn in He. subst e. split; [exists t3, 1; by apply elem_of_list_In|].
    exists t, 0. by eapply elem_of_list_lookup_2. }
  split; [|split; [done|split; [done|]]].
  - exists (take 69 h), t, (drop 70 h), t0. split; [by apply split_at|]. split.
    + apply (elem_of_list_lookup_2 _ 67). by rewrite lookup_take by lia.
    + exists (take 2 (drop 70 h)), t1, (take 2 (drop 73 h)), t2, (drop 76 h). split.
      * rewrite (split_at (drop 70 h) 2 (t1, ECall 2 (Get (conc_key 11)))) at 1 by (by rewrite lookup_drop). f_equal. f_equal. rewrite drop_drop. change (70 + 3) with 73.
        rewrite (split_at (drop 73 h) 2 (t2, ERet 2 (AGet (Some 11%N)))) at 1 by (by rewrite lookup_drop). by rewrite drop_drop.
      * rewrite forallb_forall in H5. apply Forall_forall. intros e He%elem_of_list_In. apply H5 in He. by apply negb_true_iff, Nat.eqb_neq in He.
  - cbn [fst snd] in Hst. rewrite !(Hst Hquiet). split; [done|]. intros [_ Hn]. apply Hn, A2.
Qed.
Example values_satisfiable : conc_calls val_scripts /\ NoDup (values_of (concat val_scripts)) /\
  exists c h, c_run 400 conc_acts (c_start val_scripts) = (c, h) /\ c_quiet c /\
  (exists h1 t h2 t0, h = h1 ++ (t, ERet 0 (AIns (Some 111%N))) :: h2 /\ (t0, ERet 2 (AGet (Some 111%N))) ∈ h1 /\
   exists h2' t1 h3 t2 h4, h2 = h2' ++ (t1, ECall 2 (Get (conc_key 11))) :: h3 ++ (t2, ERet 2 (AGet (Some 11%N))) :: h4 /\
     Forall (fun e => event_of e.2 <> 2) h3) /\
  (asked (conc_key 11) 11%N h /\ ~ handed_back 11%N h) /\ (asked (conc_key 11) 111%N h /\ handed_back 111%N h) /\
  stored (c_mem c) (conc_key 11) 11%N /\ ~ stored (c_mem c) (conc_key 11) 111%N.
Proof.
  assert (Ho : conc_calls val_scripts) by (apply conc_callsb_spec; vm_compute; reflexivity).
  assert (Hd : NoDup (values_of (concat val_scripts))) by (apply (bool_decide_unpack _); vm_compute; exact I).
  split; [exact Ho|]. split; [exact Hd|]. apply values_generic.
  - vm_cast_no_check (eq_refl true).
  - intros Hq v. destruct (c_run 400 conc_acts (c_start val_scripts)) as [c h] eqn:Hr.
    exact (C45_values_conserved 400 val_scripts conc_acts c h (conc_key 11) v Ho Hd Hr Hq ltac:(repeat constructor)).
Qed.
