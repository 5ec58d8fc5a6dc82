(** Properties: linearizability on a single leaf (C33). *)
From Verif Require Import Base Prog Mem Tree SpecTree SpecLin LinSys LinHist.

(** Any number of threads, each with any sequence of inserts and lookups (and emptiness
    tests), any interleaving of their accesses: the history is one of a map whose operations
    are atomic.  Threads stop only in that the loop bound [F], itself arbitrary, is spent;
    and when every call has answered, the count is the number of entries. *)
Theorem C33_linearizable_one_leaf : forall F scripts sched c h,
  Forall (Forall lin_op) scripts -> fits_one_leaf scripts ->
  sys_run F sched (sys_start scripts) = (c, h) ->
  exists mu, linearizable_to (length scripts) h mu /\
    (forall i e, sys_failed c i e -> e = Fuel) /\
    (quiet c -> cnt c.1 = N.of_nat (size mu)).
Proof. exact linearizable. Qed.
Print Assumptions C33_linearizable_one_leaf.

(** What the user sees of it: once an insert has answered, a lookup of that key made later
    finds a value, whatever else is going on. *)
Theorem C33_no_miss_after_insert : forall F scripts sched c h h1 i k v a h2 j h3 r h4,
  Forall (Forall lin_op) scripts -> fits_one_leaf scripts ->
  sys_run F sched (sys_start scripts) = (c, h) ->
  h = h1 ++ ERet i a :: h2 ++ ECall j (Get k) :: h3 ++ ERet j (AGet r) :: h4 ->
  last_of i h1 = Some (ECall i (Insert k v)) ->
  Forall (fun e => event_of e <> j) h3 -> is_Some r.
Proof.
  exact (fun F scripts sched c h h1 i k v a h2 j h3 r h4 Hl Hf Hrun Hh Hi Hj =>
    match linearizable F scripts sched c h Hl Hf Hrun with
    | ex_intro _ mu (conj Hlin _) => no_miss _ h mu h1 i k v a h2 j h3 r h4 Hlin Hh Hi Hj
    end).
Qed.
Print Assumptions C33_no_miss_after_insert.

(** Three threads whose calls overlap: two insert the same key, one reads; every call
    answers. *)
Definition lin_scripts : list (list op) :=
  [[Insert [7%N] 1%N; Get [8%N]]; [Insert [7%N] 2%N; Insert [8%N] 3%N]; [Get [7%N]; IsEmpty; Get [7%N]]].
Definition lin_sched : list nat := concat (replicate 70 [0; 1; 2]).
Definition lin_history : list event :=
  [ECall 0 (Insert [7%N] 1%N); ECall 1 (Insert [7%N] 2%N); ECall 2 (Get [7%N]); ERet 0 (AIns None);
   ECall 0 (Get [8%N]); ERet 2 (AGet (Some 1%N)); ECall 2 IsEmpty; ERet 1 (AIns (Some 1%N));
   ECall 1 (Insert [8%N] 3%N); ERet 2 (AEmpty false); ECall 2 (Get [7%N]); ERet 0 (AGet None);
   ERet 2 (AGet (Some 2%N)); ERet 1 (AIns None)].
Definition lin_check (x : sys * list event) : bool :=
  forallb (fun x => match x.1 with TIdle => true | _ => false end) x.1.2 &&
  match x.2 with
  | [ECall 0 (Insert [7%N] 1%N); ECall 1 (Insert [7%N] 2%N); ECall 2 (Get [7%N]); ERet 0 (AIns None);
   ECall 0 (Get [8%N]); ERet 2 (AGet (Some 1%N)); ECall 2 IsEmpty; ERet 1 (AIns (Some 1%N));
   ECall 1 (Insert [8%N] 3%N); ERet 2 (AEmpty false); ECall 2 (Get [7%N]); ERet 0 (AGet None);
   ERet 2 (AGet (Some 2%N)); ERet 1 (AIns None)] => true
  | _ => false
  end.
Lemma lin_check_ok x : lin_check x = true -> exists c, x = (c, lin_history) /\ quiet c.
Proof.
  destruct x as [c h]. unfold lin_check. cbn [fst snd]. intros H. apply andb_prop in H as [H1 H2].
  exists c. split.
  - f_equal. clear H1. repeat case_match; try done.
  - intros i t ops Hi. rewrite forallb_forall in H1. apply elem_of_list_lookup_2, elem_of_list_In in Hi.
    specialize (H1 _ Hi). by destruct t.
Qed.
Example C33_satisfiable : Forall (Forall lin_op) lin_scripts /\ fits_one_leaf lin_scripts /\
  exists c, sys_run 40 lin_sched (sys_start lin_scripts) = (c, lin_history) /\ quiet c.
Proof.
  split; [repeat constructor; cbn; lia|]. split; [split; [repeat constructor; cbn; lia|vm_compute; lia]|].
  apply lin_check_ok. vm_cast_no_check (eq_refl true).
Qed.

(** in that history thread 2 looks up key 7 after thread 0 has inserted it *)
Example C33_no_miss_satisfiable : exists h1 h2 h3 h4,
  lin_history = h1 ++ ERet 0 (AIns None) :: h2 ++ ECall 2 (Get [7%N]) :: h3 ++ ERet 2 (AGet (Some 2%N)) :: h4 /\
  last_of 0 h1 = Some (ECall 0 (Insert [7%N] 1%N)) /\ Forall (fun e => event_of e <> 2) h3.
Proof.
  exists (take 3 lin_history), (take 6 (drop 4 lin_history)), [ERet 0 (AGet None)], [ERet 1 (AIns None)].
  split; [reflexivity|]. split; [reflexivity|]. by repeat constructor.
Qed.

(** The specification does forbid: a lookup that misses a key whose insertion has answered
    is in no history of an atomic map. *)
Example C33_specification_rejects : forall mu,
  ~ linearizable_to 2 [ECall 0 (Insert [7%N] 1%N); ERet 0 (AIns None); ECall 1 (Get [7%N]); ERet 1 (AGet None)] mu.
Proof.
  intros mu H. destruct (no_miss 2 _ mu [ECall 0 (Insert [7%N] 1%N)] 0 [7%N] 1%N (AIns None) [] 1 [] None [] H) as [v Hv]; done || by constructor.
Qed.
