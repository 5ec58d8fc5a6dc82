(** In concurrent executions (SpecConc.v), what callers are told never goes back in time
    (SpecOrder.v): any number of threads and calls, any schedule, any collection times.  The
    inserted values are assumed pairwise different so that they can be told apart. *)
From Verif Require Import Base Prog Version Mem Tree SpecTree SpecLin SpecConc SpecOrder ConcOrder PropsConc PropsVal.

(** ** C48: once some caller has been told of a value, a call that begins later, by any
    thread, neither finds nor hands back a value which that one replaced, directly or
    through others *)
Theorem C48_never_goes_back F scripts acts c h h1 t i o h2 t' a h3 v v' :
  conc_calls scripts -> NoDup (values_of (concat scripts)) ->
  c_run F acts (c_start scripts) = (c, h) ->
  h = h1 ++ (t, ECall i o) :: h2 ++ (t', ERet i a) :: h3 -> Forall (fun e => event_of e.2 <> i) h2 ->
  told_of v h1 -> a = AGet (Some v') \/ a = AIns (Some v') ->
  ~ newer h v v'.
Proof. exact (fun Ho Hd Hr E Hq Ht Ha => conc_order scripts Hd Ho F acts c h h1 t i o h2 t' a h3 v v' Hr E Hq Ha Ht). Qed.
Print Assumptions C48_never_goes_back.

(** ** The execution of PropsVal.v: the insertion of 11 hands back 111, and a later call finds 11 *)
Definition order_check (x : csys * list (N * event)) : bool :=
  is_event x.2 69 (ERet 0 (AIns (Some 111%N))) &&
  is_event x.2 72 (ECall 2 (Get (conc_key 11))) && is_event x.2 75 (ERet 2 (AGet (Some 11%N))) &&
  forallb (fun e => negb (event_of e.2 =? 2)) (take 2 (drop 73 x.2)) &&
  match last_at 0 (take 69 x.2) with Some (_, e) => bool_decide (e = ECall 0 (Insert (conc_key 11) 11%N)) | None => false end.
Lemma order_generic (x : csys * list (N * event)) : order_check x = true ->
  exists c h h1 t h2 t' h3, x = (c, h) /\ h = h1 ++ (t, ECall 2 (Get (conc_key 11))) :: h2 ++ (t', ERet 2 (AGet (Some 11%N))) :: h3 /\
    Forall (fun e => event_of e.2 <> 2) h2 /\ told_of 11 h1 /\ told_of 111 h1 /\ newer h 11 111.
Proof.
  intros H. destruct x as [c h]. unfold order_check in H. cbn [fst snd] in H. rewrite !andb_true_iff in H. destruct H as [[[[H1 H2] H3] H4] H5].
  destruct (last_at 0 (take 69 h)) as [[t1 e]|] eqn:L; [|done]. apply bool_decide_eq_true in H5. subst e.
  apply is_event_spec in H1 as [t0 H1], H2 as [t H2], H3 as [t' H3].
  exists c, h, (take 72 h), t, (take 2 (drop 73 h)), t', (drop 76 h). split; [done|].
  assert (take 72 h = take 69 h ++ (t0, ERet 0 (AIns (Some 111%N))) :: take 2 (drop 70 h)) as E.
  { rewrite (split_at (take 72 h) 69 (t0, ERet 0 (AIns (Some 111%N)))) at 1 by (by rewrite lookup_take by lia).
    rewrite take_take. f_equal. f_equal. exact (eq_sym (take_drop_commute h 2 70)). }
  split; [|split; [|split; [|split]]].
  - rewrite (split_at h 72 (t, ECall 2 (Get (conc_key 11)))) at 1 by done. f_equal. f_equal.
    rewrite (split_at (drop 73 h) 2 (t', ERet 2 (AGet (Some 11%N)))) at 1 by (by rewrite lookup_drop). by rewrite drop_drop.
  - rewrite forallb_forall in H4. apply Forall_forall. intros e He%elem_of_list_In. apply H4 in He. by apply negb_true_iff, Nat.eqb_neq in He.
  - exists (take 69 h), t0, 0, (AIns (Some 111%N)), (take 2 (drop 70 h)). split; [done|]. right. right. by exists (conc_key 11), (Some 111%N), t1.
  - exists (take 69 h), t0, 0, (AIns (Some 111%N)), (take 2 (drop 70 h)). split; [done|]. right. by left.
  - apply tc_once. exists (take 69 h), t0, 0, (drop 70 h), t1, (conc_key 11). split; [by apply split_at|done].
Qed.
Example order_satisfiable : conc_calls val_scripts /\ NoDup (values_of (concat val_scripts)) /\
  exists c h h1 t h2 t' h3, c_run 400 conc_acts (c_start val_scripts) = (c, h) /\
    h = h1 ++ (t, ECall 2 (Get (conc_key 11))) :: h2 ++ (t', ERet 2 (AGet (Some 11%N))) :: h3 /\
    Forall (fun e => event_of e.2 <> 2) h2 /\ told_of 11 h1 /\ told_of 111 h1 /\ newer h 11 111.
Proof.
  split; [apply conc_callsb_spec; vm_compute; reflexivity|]. split; [apply (bool_decide_unpack _); vm_compute; exact I|].
  apply order_generic. vm_cast_no_check (eq_refl true).
Qed.
