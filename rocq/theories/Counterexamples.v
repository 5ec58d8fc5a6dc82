(** Concrete executions of the modelled code that violate properties of the list. *)
From Verif Require Import Base Perm Key Suffix Prog Version VersionLaws Mem Tree SpecTree.

Definition op_okb (o : op) : bool := match op_key o with
  | Some k => Nat.leb (length k) 256 && forallb (fun b => b <? 256)%N k | None => true end.
Lemma ops_ok ops : forallb op_okb ops = true -> Forall op_ok ops.
Proof.
  intros H. apply Forall_forall. intros o Ho. rewrite forallb_forall in H.
  specialize (H o ltac:(by apply elem_of_list_In)). unfold op_okb, op_ok in *.
  destruct (op_key o) as [k|]; [|done]. apply andb_true_iff in H as [H1 H2].
  split; [by apply Nat.leb_le|]. apply Forall_forall. intros b Hb. rewrite forallb_forall in H2.
  specialize (H2 b ltac:(by apply elem_of_list_In)). by apply N.ltb_lt.
Qed.
Global Instance ans_eq_dec : EqDecision ans.
Proof. solve_decision. Defined.

(** evaluate a check on the outcome of a computation *)
Definition holds {A} (r : res A) (check : A -> bool) : bool :=
  match r with Ok a => check a | Er _ => false end.
Lemma holds_elim {A} (r : res A) check : holds r check = true -> exists a, r = Ok a /\ check a = true.
Proof. destruct r as [a|]; [|done]. intros H. by exists a. Qed.
Definition says (F : nat) (m : mem) (k : bytes) (o : option N) : bool :=
  holds (run (get F k) m) (fun x => bool_decide (x.1 = o)).
Definition state (r : res (list ans * mem)) : mem := match r with Ok x => x.2 | Er _ => tree_new end.
Lemma says_answers F m k o : says F m k o = true -> answers m k o.
Proof.
  intros [[o' m'] [H1 H2]]%holds_elim. apply bool_decide_eq_true in H2. cbn in H2. subst. by exists F, m'.
Qed.

(** ** one thread *)
(** 24 keys; the 8-byte key "00000011" is in use with and without a ninth byte *)
Definition dig (n : nat) : bytes := [48; 48; 48; 48; 48; 48; 48 + N.of_nat n / 10; 48 + N.of_nat n mod 10]%N.
Definition hist_a : list op :=
  map (fun i => Insert (dig i) (N.of_nat i)) (seq 0 12) ++ [Insert (dig 11 ++ [120%N]) 100%N]
  ++ map (fun i => Insert (dig i) (N.of_nat i)) (seq 12 11).
Definition hist_b : list op := hist_a ++ [Insert (dig 23) 23%N].

Lemma loses_key : exists F ops l m', Forall op_ok ops /\
  run_calls insert F ops tree_new = Ok (l, m') /\ l <> (map_run ∅ ops).1.
Proof.
  exists 60, (hist_b ++ [Get (dig 11)]).
  destruct (holds_elim (run_calls insert 60 (hist_b ++ [Get (dig 11)]) tree_new)
    (fun x => negb (bool_decide (x.1 = (map_run ∅ (hist_b ++ [Get (dig 11)])).1)))) as ([l m] & E & H).
  { vm_compute. reflexivity. }
  exists l, m. split; [apply ops_ok; vm_compute; reflexivity|]. split; [exact E|].
  apply negb_true_iff, bool_decide_eq_false in H. exact H.
Qed.
(** inserting one key makes another one disappear *)
Lemma insert_hides_key : exists F ops m k v r m', Forall op_ok (Insert k v :: ops) /\
  (exists l, run_calls insert F ops tree_new = Ok (l, m)) /\
  run (insert F k v) m = Ok (r, m') /\
  exists k' v', k' <> k /\ answers m k' (Some v') /\ answers m' k' None.
Proof.
  destruct (holds_elim (run_calls insert 60 hist_a tree_new) (fun x => says 60 x.2 (dig 11) (Some 11%N) &&
    holds (run (insert 60 (dig 23) 23%N) x.2) (fun y => says 60 y.2 (dig 11) None))) as ([l m] & E & H).
  { vm_compute. reflexivity. }
  apply andb_true_iff in H as [H1 H2]. apply holds_elim in H2 as ([r m'] & E2 & H2). cbn [fst snd] in *.
  exists 60, hist_a, m, (dig 23), 23%N, r, m'. split; [apply ops_ok; vm_compute; reflexivity|].
  split; [by exists l|]. split; [exact E2|]. exists (dig 11), 11%N.
  split; [vm_compute; discriminate|]. split; by eapply says_answers.
Qed.
(** ... which insert then reports as absent, and counts again *)
Lemma insert_reports_absent : exists F ops l m, Forall op_ok ops /\
  run_calls insert F (ops ++ [Insert (dig 11) 77%N; Len]) tree_new = Ok (l, m) /\
  (map_run ∅ ops).2 !! dig 11 = Some 11%N /\
  drop (length ops) l = [AIns None; ALen (N.of_nat (size (map_run ∅ ops).2) + 1)].
Proof.
  exists 60, hist_b.
  destruct (holds_elim (run_calls insert 60 (hist_b ++ [Insert (dig 11) 77%N; Len]) tree_new)
    (fun x => bool_decide (drop (length hist_b) x.1 = [AIns None; ALen (N.of_nat (size (map_run ∅ hist_b).2) + 1)])))
    as ([l m] & E & H).
  { vm_compute. reflexivity. }
  exists l, m. split; [apply ops_ok; vm_compute; reflexivity|]. split; [exact E|].
  split; [vm_compute; reflexivity|]. by apply bool_decide_eq_true in H.
Qed.
(** two neighbouring leaves with an entry of the same slice *)
Lemma separates_equal_slices : exists m p q lp lq s t ik, reachable m /\
  p <> q /\ heap m !! p = Some (NLeaf lp) /\ heap m !! q = Some (NLeaf lq) /\ l_next lp = q /\
  s ∈ active_slots (l_perm lp) /\ t ∈ active_slots (l_perm lq) /\
  l_ikey lp !! s = Some ik /\ l_ikey lq !! t = Some ik.
Proof.
  destruct (holds_elim (run_calls insert 60 hist_b tree_new) (fun x =>
    match heap x.2 !! 2%N with
    | Some (NLeaf lp) => match heap x.2 !! l_next lp with
      | Some (NLeaf lq) => negb (l_next lp =? 2)%N && bool_decide (11 ∈ active_slots (l_perm lp)) &&
          bool_decide (0 ∈ active_slots (l_perm lq)) && bool_decide (l_ikey lp !! 11 = l_ikey lq !! 0)
          && bool_decide (is_Some (l_ikey lp !! 11))
      | _ => false end
    | _ => false end)) as ([l m] & E & H).
  { vm_compute. reflexivity. }
  cbn [snd] in H. destruct (heap m !! 2%N) as [[lp|]|] eqn:Ep; try (discriminate H).
  destruct (heap m !! l_next lp) as [[lq|]|] eqn:Eq; try (discriminate H).
  rewrite !andb_true_iff in H. destruct H as ((((H1 & H2) & H3) & H4) & H5).
  apply bool_decide_eq_true in H2, H3, H4, H5. destruct H5 as [ik H5].
  exists m, 2%N, (l_next lp), lp, lq, 11, 0, ik.
  split; [exists 60, hist_b, l; split; [apply ops_ok; vm_compute; reflexivity|exact E]|].
  split; [apply negb_true_iff, N.eqb_neq in H1; clear -H1; congruence|]. clear -Ep Eq H2 H3 H4 H5. split_and!; congruence || done.
Qed.

(** a value that was overwritten comes back *)
Definition nul (c : N) : list bytes := map (fun n => c :: repeat 0%N n) (seq 0 8) ++ [c :: repeat 0%N 7 ++ [120%N]].
Definition two (i n : nat) : list bytes := map (fun i => [65%N; N.of_nat i]) (seq i n).
Definition hist_s : list op :=
  map (fun k => Insert k 1%N) (two 10 4 ++ nul 98 ++ map (fun i => [99%N; N.of_nat i]) (seq 10 12))
  ++ [Insert [98%N] 2%N] ++ map (fun k => Insert k 1%N) (two 14 4 ++ nul 97 ++ two 18 8).
Lemma returns_stale_value : exists F ops l m k old new, Forall op_ok ops /\
  run_calls insert F ops tree_new = Ok (l, m) /\
  (map_run ∅ ops).2 !! k = Some new /\ answers m k (Some old) /\ old <> new.
Proof.
  destruct (holds_elim (run_calls insert 60 hist_s tree_new) (fun x => says 60 x.2 [98%N] (Some 1%N)))
    as ([l m] & E & H).
  { vm_compute. reflexivity. }
  exists 60, hist_s, l, m, [98%N], 1%N, 2%N. split; [apply ops_ok; vm_compute; reflexivity|].
  split; [exact E|]. split; [vm_compute; reflexivity|]. split; [by eapply says_answers|discriminate].
Qed.

(** ** several threads *)
Global Instance res_eq_dec {A} `{EqDecision A} : EqDecision (res A).
Proof. solve_decision. Defined.
Definition ended (c : mem * list (P (list ans))) (i : nat) : option (res (list ans)) :=
  match c.2 !! i with Some (Ret a) => Some (Ok a) | Some (Fail e) => Some (Er e) | _ => None end.
Lemma ended_ok c i l : bool_decide (ended c i = Some (Ok l)) = true -> finished c i l.
Proof.
  intros H%bool_decide_eq_true. unfold ended, finished in *. destruct (c.2 !! i) as [[a|e|]|]; naive_solver.
Qed.
Lemma ended_er c i e : bool_decide (ended c i = Some (Er e)) = true -> failed c i e.
Proof.
  intros H%bool_decide_eq_true. unfold ended, failed in *. destruct (c.2 !! i) as [[a|e'|]|]; naive_solver.
Qed.

(** running one thread alone to its end is a schedule *)
Lemma run_alone {M A} (p : prog M A) : forall (m m' : M) (ps : list (prog M A)) i a, ps !! i = Some p -> run p m = Ok (a, m') ->
  exists n, exec (repeat i n) (m, ps) = (m', <[i := Ret a]> ps).
Proof.
  induction p as [b|e|R f k IH]; intros m m' ps i a Hi Hr; cbn in Hr; [|done|].
  - injection Hr as -> ->. exists 0. cbn. by rewrite list_insert_id.
  - destruct (f m) as [[r m1]|] eqn:Ef; [|done].
    destruct (IH r m1 m' (<[i := k r]> ps) i a) as [n Hn]; [|done|].
    + apply list_lookup_insert. by eapply lookup_lt_Some.
    + exists (S n). change (exec (repeat i n) (thread_step i (m, ps)) = (m', <[i := Ret a]> ps)).
      assert (thread_step i (m, ps) = (m1, <[i := k r]> ps)) as ->.
      { unfold thread_step. cbn [fst snd]. by rewrite Hi, Ef. }
      rewrite Hn. by rewrite list_insert_insert.
Qed.
Lemma exec_app {M A} s t (c : M * list (prog M A)) : exec (s ++ t) c = exec t (exec s c).
Proof. apply fold_left_app. Qed.

Definition zk (b : N) : bytes := repeat 0%N 8 ++ [b].
Definition hist_z : list op := [Insert (zk 97) 7%N].
(** get misses a key while another key with the same first 8 bytes is inserted *)
Lemma get_misses_present_key : exists F m k v ts sched l, reachable m /\ answers m k (Some v) /\
  finished (exec sched (start F m ([Get k] :: ts))) 0 [AGet None] /\
  finished (exec sched (start F m ([Get k] :: ts))) 1 l.
Proof.
  destruct (holds_elim (run_calls insert 60 hist_z tree_new) (fun x => says 60 x.2 (zk 97) (Some 7%N) &&
    let c := exec (repeat 0 8 ++ repeat 1 38 ++ repeat 0 4 ++ repeat 1 100 ++ repeat 0 60)
               (start 60 x.2 [[Get (zk 97)]; [Insert (zk 98) 8%N]]) in
    bool_decide (ended c 0 = Some (Ok [AGet None])) && bool_decide (ended c 1 = Some (Ok [AIns None]))))
    as ([l m] & E & H).
  { vm_compute. reflexivity. }
  rewrite !andb_true_iff in H. destruct H as (H1 & H2 & H3).
  exists 60, m, (zk 97), 7%N, [[Insert (zk 98) 8%N]], (repeat 0 8 ++ repeat 1 38 ++ repeat 0 4 ++ repeat 1 100 ++ repeat 0 60), [AIns None].
  split; [exists 60, hist_z, l; split; [apply ops_ok; vm_compute; reflexivity|exact E]|].
  split; [by eapply says_answers|]. split; by apply ended_ok.
Qed.
(** a second, independent way: the leaf is split once while the lookup waits, and a second
    time while it is about to follow the sibling link *)
Definition one (i : nat) : bytes := [N.of_nat i].
Definition hist_m : list op := map (fun i => Insert (one (100 + i)) 7%N) (seq 0 24).
Definition sched_m : list nat := repeat 0 5 ++ repeat 1 1000 ++ repeat 0 29 ++ repeat 2 125 ++ repeat 0 100.
Lemma get_misses_during_split : exists F m k v ts sched, reachable m /\ answers m k (Some v) /\
  finished (exec sched (start F m ([Get k] :: ts))) 0 [AGet None].
Proof.
  destruct (holds_elim (run_calls insert 60 hist_m tree_new) (fun x => says 60 x.2 (one 120) (Some 7%N) &&
    bool_decide (ended (exec sched_m (start 60 x.2 [[Get (one 120)];
      Insert (one 124) 7%N :: map (fun i => Insert (one i) 7%N) (seq 10 12); [Insert (one 22) 7%N]])) 0
      = Some (Ok [AGet None])))) as ([l m] & E & H).
  { vm_compute. reflexivity. }
  rewrite !andb_true_iff in H. destruct H as (H1 & H2). eexists 60, m, (one 120), 7%N, _, sched_m.
  split; [exists 60, hist_m, l; split; [apply ops_ok; vm_compute; reflexivity|exact E]|].
  split; [by eapply says_answers|]. apply ended_ok. exact H2.
Qed.
(** [is_empty] takes the new root, an internode, for a leaf: the root leaf is split between
    its two loads of the root pointer *)
Definition sched_e : list nat := repeat 0 2 ++ repeat 1 1000 ++ repeat 0 2.
Lemma is_empty_dereferences_internode : exists F m k v sched, reachable m /\ length k <= 8 /\
  let c := exec sched (start F m [[IsEmpty]; [Insert k v]]) in
  finished c 1 [AIns None] /\ failed c 0 UB.
Proof.
  destruct (holds_elim (run_calls insert 60 hist_m tree_new) (fun x =>
    let c := exec sched_e (start 60 x.2 [[IsEmpty]; [Insert (one 124) 7%N]]) in
    bool_decide (ended c 1 = Some (Ok [AIns None])) && bool_decide (ended c 0 = Some (Er UB))))
    as ([l m] & E & H).
  { vm_compute. reflexivity. }
  rewrite !andb_true_iff in H. destruct H as (H1 & H2). exists 60, m, (one 124), 7%N, sched_e.
  split; [exists 60, hist_m, l; split; [apply ops_ok; vm_compute; reflexivity|exact E]|].
  split; [vm_compute; lia|]. cbv zeta. split; [by apply ended_ok|by apply ended_er].
Qed.
(** a lookup takes a layer for a value *)
Lemma get_dereferences_a_node : exists F m ts sched, reachable m /\
  failed (exec sched (start F m ([Get []] :: ts))) 0 UB.
Proof.
  destruct (holds_elim (run_calls insert 60 hist_z tree_new) (fun x =>
    bool_decide (ended (exec (repeat 0 8 ++ repeat 1 42 ++ repeat 0 2 ++ repeat 1 2 ++ repeat 0 60)
               (start 60 x.2 [[Get []]; [Insert (zk 98) 8%N]])) 0 = Some (Er UB)))) as ([l m] & E & H).
  { vm_compute. reflexivity. }
  eexists 60, m, _, _. split; [exists 60, hist_z, l; split; [apply ops_ok; vm_compute; reflexivity|exact E]|].
  apply ended_er. exact H.
Qed.
(** a completed insert is lost *)
Definition hist_d : list op := map (fun i => Insert (one (5 * i)) 7%N) (seq 1 37)
  ++ map (fun i => Insert (one (5 * i + 1)) 7%N) (seq 0 12).
Definition sched_d : list nat := repeat 0 6 ++ repeat 1 133 ++ repeat 0 200 ++ repeat 1 200.
Lemma insert_is_lost : exists F m k v v2 k2 sched, reachable m /\
  let c := exec sched (start F m [[Insert k v]; [Insert k2 v2]]) in
  finished c 0 [AIns None] /\ finished c 1 [AIns None] /\ answers c.1 k None.
Proof.
  destruct (holds_elim (run_calls insert 60 hist_d tree_new) (fun x =>
    let c := exec sched_d (start 60 x.2 [[Insert (one 66) 8%N]; [Insert (one 2) 9%N]]) in
    bool_decide (ended c 0 = Some (Ok [AIns None])) && bool_decide (ended c 1 = Some (Ok [AIns None]))
    && says 60 c.1 (one 66) None)) as ([l m] & E & H).
  { vm_compute. reflexivity. }
  exists 60, m, (one 66), 8%N, 9%N, (one 2), sched_d.
  split; [exists 60, hist_d, l; split; [apply ops_ok; vm_compute; reflexivity|exact E]|].
  rewrite !andb_true_iff in H. destruct H as ((H1 & H2) & H3).
  split; [by apply ended_ok|]. split; [by apply ended_ok|]. by eapply says_answers.
Qed.

(** after more than 128 sibling hops the rest of the key is inserted instead of the key *)
Definition deep (i : nat) : bytes := repeat 1%N 8 ++ [N.of_nat i / 256; N.of_nat i mod 256]%N.
Definition hist_h : list op := map (fun i => Insert (deep i) 7%N) [0; 1].
Definition many : list op := map (fun i => Insert (deep i) 7%N) (seq 2 1570).
Definition hops_key : bytes := repeat 1%N 8 ++ [200; 0]%N.
Lemma hops_step : holds (run_calls insert 200 hist_h tree_new) (fun x =>
  let c := exec (repeat 0 20) (start 200 x.2 [[Insert hops_key 8%N]; many]) in
  match c.2 with
  | [p; q] => holds (run q c.1) (fun y => holds (run p y.2) (fun z =>
      bool_decide (z.1 = [AIns None]) && says 60 z.2 hops_key None && says 60 z.2 [200; 0]%N (Some 8%N)))
  | _ => false end) = true.
Proof. vm_compute. reflexivity. Qed.
Lemma restart_truncates_key : exists F m k k' v ops sched l, reachable m /\
  let c := exec sched (start F m [[Insert k v]; ops]) in
  finished c 0 [AIns None] /\ finished c 1 l /\ answers c.1 k None /\
  Forall (fun o => op_key o <> Some k') (Insert k v :: hist_h ++ ops) /\ answers c.1 k' (Some v).
Proof.
  destruct (holds_elim _ _ hops_step) as ([l m] & E & H). cbn [snd] in H.
  destruct (exec (repeat 0 20) (start 200 m [[Insert hops_key 8%N]; many])) as [m1 ps] eqn:E1.
  cbn [fst snd] in H. destruct ps as [|p [|q [|? ?]]]; try (discriminate H).
  apply holds_elim in H as ([lq m2] & Eq & H). cbn [snd] in H.
  apply holds_elim in H as ([lp m3] & Ep & H). cbn [fst snd] in H.
  rewrite !andb_true_iff in H. destruct H as ((H1 & H2) & H3). apply bool_decide_eq_true in H1. subst lp.
  destruct (run_alone q m1 m2 [p; q] 1 lq eq_refl Eq) as [n1 X1]. cbn [base.insert list_insert] in X1.
  destruct (run_alone p m2 m3 [p; Ret lq] 0 [AIns None] eq_refl Ep) as [n2 X2].
  exists 200, m, hops_key, [200; 0]%N, 8%N, many, (repeat 0 20 ++ repeat 1 n1 ++ repeat 0 n2), lq.
  split; [exists 200, hist_h, l; split; [apply ops_ok; vm_compute; reflexivity|exact E]|].
  rewrite !exec_app, E1, X1, X2. split; [done|]. split; [done|]. split; [by eapply says_answers|].
  split; [|by eapply says_answers].
  apply Forall_forall. intros o Ho.
  assert (Hf : forallb (fun o => negb (bool_decide (op_key o = Some [200; 0]%N))) (Insert hops_key 8%N :: hist_h ++ many) = true)
    by (vm_compute; reflexivity).
  rewrite forallb_forall in Hf. specialize (Hf o ltac:(by apply elem_of_list_In)).
  by apply negb_true_iff, bool_decide_eq_false in Hf.
Qed.
