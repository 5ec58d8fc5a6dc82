(** The entry counter under concurrency: which accesses change it.  Nothing is assumed of
    the memory, so this holds for all keys and all schedules. *)
From Verif Require Import Base Perm Key Suffix Prog Version Mem Tree SpecTree SpecLin SpecConc.

(** no access of [p] changes the counter *)
Definition keep {R} (f : mem -> res (R * mem)) : Prop := forall m r m', f m = Ok (r, m') -> cnt m' = cnt m.
Fixpoint keeps {A} (p : P A) : Prop :=
  match p with
  | Step f k => keep f /\ forall r, keeps (k r)
  | _ => True
  end.
(** [p] increments the counter exactly once if [g] holds of the answer, and not at all
    otherwise; [d]: it has done so already *)
Fixpoint once {A} (g : A -> bool) (d : bool) (p : P A) : Prop :=
  match p with
  | Ret a => g a = d
  | Fail _ => True
  | Step f k => (keep f /\ forall r, once g d (k r)) \/
      (d = false /\ (forall m r m', f m = Ok (r, m') -> cnt m' = (cnt m + 1)%N) /\ forall r, once g true (k r))
  end.
Lemma keeps_bind {A B} (p : P A) (f : A -> P B) : keeps p -> (forall a, keeps (f a)) -> keeps (bind p f).
Proof. induction p as [a|e|R h k IH]; cbn; [auto|done|]. intros [H1 H2] Hf. split; [done|]. intros r. by apply IH. Qed.
Lemma once_bind {A B} g d (p : P A) (f : A -> P B) : keeps p -> (forall a, once g d (f a)) -> once g d (bind p f).
Proof. induction p as [a|e|R h k IH]; cbn; [auto|done|]. intros [H1 H2] Hf. left. split; [done|]. intros r. by apply IH. Qed.
Lemma keeps_atomic {R} (f : mem -> res (R * mem)) : keep f -> keeps (atomic f).
Proof. done. Qed.
Lemma once_inc {A} g (f : unit -> P A) : (forall a, once g true (f a)) -> once g false (bind inc_count f).
Proof. intros H. right. split; [done|]. split; [|done]. intros m r m' [= <- <-]. done. Qed.
Lemma keeps_for {X} (l : list X) (f : X -> P unit) : (forall x, keeps (f x)) -> keeps (for_each l f).
Proof. intros H. induction l as [|x l IH]; cbn; [done|]. by apply keeps_bind. Qed.
Lemma once_keeps {A} g (p : P A) : keeps p -> (forall a, g a = false) -> once g false p.
Proof. intros H Hg. induction p as [a|e|R h k IH]; cbn; [done|done|]. destruct H as [H1 H2]. left. split; [done|]. intros r. by apply IH. Qed.

Create HintDb kp.
Ltac kstep := repeat intro; cbn in *; unfold rd_ver, wr_ver in *; repeat case_match; simplify_eq; done.
Lemma keeps_leaf_ld {R} p (f : leaf -> option R) : keeps (leaf_ld p f). Proof. split; [kstep|done]. Qed.
Lemma keeps_leaf_up {R} p (f : leaf -> option (R * leaf)) : keeps (leaf_up p f). Proof. split; [kstep|done]. Qed.
Lemma keeps_inode_ld {R} p (f : inode -> option R) : keeps (inode_ld p f). Proof. split; [kstep|done]. Qed.
Lemma keeps_inode_up {R} p (f : inode -> option (R * inode)) : keeps (inode_up p f). Proof. split; [kstep|done]. Qed.
Lemma keeps_bag_at {R} b (f : bag -> res (R * bag)) : keeps (bag_at b f). Proof. split; [kstep|done]. Qed.
Lemma keeps_bag_ld {R} b (f : bag -> res R) : keeps (bag_ld b f). Proof. split; [kstep|done]. Qed.
Lemma keeps_load_root : keeps load_root. Proof. split; [kstep|done]. Qed.
Lemma keeps_cas_root a b : keeps (cas_root a b). Proof. split; [kstep|done]. Qed.
Lemma keeps_load_count : keeps load_count. Proof. split; [kstep|done]. Qed.
Lemma keeps_alloc_node n : keeps (alloc_node n). Proof. split; [kstep|done]. Qed.
Lemma keeps_alloc_bag n : keeps (alloc_bag n). Proof. split; [kstep|done]. Qed.
Lemma keeps_track n : keeps (track n). Proof. split; [kstep|done]. Qed.
Lemma keeps_to_raw v : keeps (output_to_raw v). Proof. split; [kstep|done]. Qed.
Lemma keeps_from_raw v : keeps (output_from_raw v). Proof. split; [kstep|done]. Qed.
Lemma keeps_retire g : keeps (retire g). Proof. split; [kstep|done]. Qed.
Lemma keeps_ver_load p : keeps (ver_load (rd_ver p)). Proof. split; [kstep|done]. Qed.
Lemma keeps_ver_store p v : keeps (ver_store (rd_ver p) (wr_ver p) v). Proof. split; [kstep|done]. Qed.
Lemma keeps_ver_update p v : keeps (ver_update (rd_ver p) (wr_ver p) v). Proof. split; [kstep|done]. Qed.
Lemma keeps_ver_cas p v v' : keeps (ver_cas (rd_ver p) (wr_ver p) v v'). Proof. split; [kstep|done]. Qed.
#[export] Hint Resolve keeps_leaf_ld keeps_leaf_up keeps_inode_ld keeps_inode_up keeps_bag_at keeps_bag_ld keeps_load_root keeps_cas_root
  keeps_load_count keeps_alloc_node keeps_alloc_bag keeps_track keeps_to_raw keeps_from_raw keeps_retire keeps_ver_load keeps_ver_store
  keeps_ver_update keeps_ver_cas : kp.
Ltac kp1 := match goal with
  | |- forall _, _ => intros
  | |- keeps (bind _ _) => apply keeps_bind
  | |- keeps (for_each _ _) => apply keeps_for
  | |- keeps (Ret _) => exact I
  | |- keeps (Fail _) => exact I
  | |- keeps (match ?x with _ => _ end) => destruct x
  | |- keeps ((if ?x then _ else _) _ _) => destruct x
  | |- keeps (let _ := _ in _) => cbv zeta
  | |- keeps ?p => first [solve [auto with kp] | let h := head_of p in unfold h]
  end
with head_of p := match p with ?f _ => head_of f | _ => p end.
Ltac kp := repeat kp1.
Lemma keeps_stable F p : keeps (stable F p).
Proof. unfold stable. induction F; cbn [ver_stable]; kp. Qed.
Lemma keeps_lock F p : keeps (lock F p).
Proof. unfold lock. induction F; cbn [ver_lock]; kp. Qed.
#[export] Hint Resolve keeps_stable keeps_lock : kp.
Lemma keeps_mark_insert p lv : keeps (mark_insert p lv). Proof. kp. Qed.
Lemma keeps_mark_split p lv : keeps (mark_split p lv). Proof. kp. Qed.
Lemma keeps_assign_ksuf p s x : keeps (assign_ksuf p s x). Proof. kp. Qed.
Lemma keeps_clear_ksuf p s : keeps (clear_ksuf p s). Proof. kp. Qed.
Lemma keeps_ksuf p s : keeps (ksuf p s). Proof. kp. Qed.
Lemma keeps_ksuf_equals p s x : keeps (ksuf_equals p s x). Proof. kp. Qed.
#[export] Hint Resolve keeps_mark_insert keeps_mark_split keeps_assign_ksuf keeps_clear_ksuf keeps_ksuf keeps_ksuf_equals : kp.
Lemma keeps_poll k p : keeps (poll_unmarked k p).
Proof. induction k; cbn [poll_unmarked]; kp. Qed.
#[export] Hint Resolve keeps_poll : kp.
Lemma keeps_wait F k p : keeps (wait_rounds F k p).
Proof. induction k; cbn [wait_rounds]; kp. Qed.
#[export] Hint Resolve keeps_wait : kp.
Lemma keeps_wait_split F p : keeps (wait_for_split F p).
Proof. apply keeps_wait. Qed.
#[export] Hint Resolve keeps_wait_split : kp.
Lemma keeps_lock_next F n p : keeps (lock_next F n p).
Proof. induction n; cbn [lock_next]; kp. Qed.
#[export] Hint Resolve keeps_lock_next : kp.
Lemma keeps_link F p q : keeps (link_sibling F p q).
Proof. kp. Qed.
Lemma keeps_maybe_parent F p : keeps (maybe_parent F p).
Proof. revert p. induction F; intros p; cbn [maybe_parent]; kp. Qed.
#[export] Hint Resolve keeps_link keeps_maybe_parent : kp.
Lemma keeps_ub n p ik l r : keeps (ub_loop n p ik l r).
Proof. revert l r. induction n; intros l r; cbn [ub_loop]; kp. Qed.
#[export] Hint Resolve keeps_ub : kp.
Lemma keeps_reach F n s p ik : keeps (reach_leaf F n s p ik).
Proof. revert p. induction n; intros p; cbn [reach_leaf]; kp. Qed.
Lemma keeps_advance F n p v ik : keeps (advance_loop F n p v ik).
Proof. revert p v. induction n; intros p v; cbn [advance_loop]; kp. Qed.
#[export] Hint Resolve keeps_reach keeps_advance : kp.
Lemma keeps_advance_to F p ik v : keeps (advance_to_key F p ik v).
Proof. kp. Qed.
Lemma keeps_by_bound F n p ik h : keeps (by_bound_loop F n p ik h).
Proof. revert p h. induction n; intros p h; cbn [by_bound_loop]; kp. Qed.
#[export] Hint Resolve keeps_advance_to keeps_by_bound : kp.
Lemma keeps_advance_by F p ik : keeps (advance_by_bound F p ik).
Proof. kp. Qed.
Lemma keeps_scan p k l : keeps (scan_leaf p k l).
Proof. induction l; cbn [scan_leaf]; kp. Qed.
Lemma keeps_scan_ref p k l : keeps (scan_leaf_ref p k l).
Proof. induction l; cbn [scan_leaf_ref]; kp. Qed.
#[export] Hint Resolve keeps_advance_by keeps_scan keeps_scan_ref : kp.
Lemma keeps_get_loop F n k st : keeps (get_loop F n k st).
Proof. revert k st. induction n; intros k st; cbn [get_loop]; kp. Qed.
Lemma keeps_get_ref_loop F n k st : keeps (get_ref_loop F n k st).
Proof. revert k st. induction n; intros k st; cbn [get_ref_loop]; kp. Qed.
#[export] Hint Resolve keeps_get_loop keeps_get_ref_loop : kp.
Lemma keeps_get F k : keeps (get F k). Proof. kp. Qed.
Lemma keeps_get_ref F k : keeps (get_ref F k). Proof. kp. Qed.
Lemma keeps_is_empty : keeps is_empty. Proof. kp. Qed.
#[export] Hint Resolve keeps_get keeps_get_ref keeps_is_empty : kp.
Lemma keeps_adjust fx n p pm ik sz pos : keeps (adjust_split fx n p pm ik sz pos).
Proof. revert pos. induction n; intros pos; cbn [adjust_split]; kp. Qed.
Lemma keeps_freeze F p : keeps (freeze_loop F p).
Proof. induction F; cbn [freeze_loop]; kp. Qed.
#[export] Hint Resolve keeps_adjust keeps_freeze : kp.
Lemma keeps_split_into_pre F p q pos : keeps (split_into_preallocated F p q pos). Proof. kp. Qed.
Lemma keeps_insert_kc p pos k c : keeps (insert_key_and_child p pos k c). Proof. kp. Qed.
Lemma keeps_split_into p q pos k c : keeps (split_into p q pos k c). Proof. kp. Qed.
Lemma keeps_find p c l : keeps (find_child p c l).
Proof. induction l; cbn [find_child]; kp. Qed.
#[export] Hint Resolve keeps_split_into_pre keeps_insert_kc keeps_split_into keeps_find : kp.
Lemma keeps_create_root l r sk b : keeps (create_main_root l r sk b). Proof. kp. Qed.
Lemma keeps_promote l r sk b : keeps (promote_layer_root l r sk b). Proof. kp. Qed.
#[export] Hint Resolve keeps_create_root keeps_promote : kp.
Lemma keeps_propagate F n st l lv r sk a b c : keeps (propagate F n st l lv r sk a b c).
Proof. revert st l lv r sk a b c. induction n; intros; cbn [propagate]; kp. Qed.
#[export] Hint Resolve keeps_propagate : kp.
Lemma keeps_handle fx F p lv ik : keeps (handle_leaf_split fx F p lv ik). Proof. kp. Qed.
Lemma keeps_assign_from p s k o : keeps (assign_from_key p s k o). Proof. kp. Qed.
#[export] Hint Resolve keeps_handle keeps_assign_from : kp.
Lemma keeps_twig n h t ek nk : keeps (twig_loop n h t ek nk).
Proof. revert h t ek nk. induction n; intros; cbn [twig_loop]; kp. Qed.
#[export] Hint Resolve keeps_twig : kp.
Lemma keeps_create_layer F p s k v : keeps (create_layer F p s k v). Proof. kp. Qed.
Lemma keeps_search p k i l : keeps (search_slots p k i l).
Proof. revert i. induction l; intros i; cbn [search_slots]; kp. Qed.
Lemma keeps_assign_slot p lv s k v : keeps (assign_slot p lv s k v). Proof. kp. Qed.
#[export] Hint Resolve keeps_create_layer keeps_search keeps_assign_slot : kp.

Definition is_new (r : ins_res) : bool := match r with IOk None => true | _ => false end.
Ltac op1 := match goal with
  | |- forall _, _ => intros
  | |- once _ _ (bind inc_count _) => apply once_inc
  | |- once _ _ (bind _ _) => apply once_bind
  | |- once _ _ (Ret _) => reflexivity
  | |- once _ _ (Fail _) => exact I
  | |- once _ _ (match ?x with _ => _ end) => destruct x
  | |- once _ _ (let _ := _ in _) => cbv zeta
  | |- keeps _ => kp1
  | |- once _ _ _ => solve [auto]
  end.
Lemma once_insert_loop fx F n k v r : once is_new false (insert_loop fx F n k v r).
Proof. revert k v r. induction n; intros; cbn [insert_loop]; repeat op1. Qed.
Lemma once_insert fx F k v : once is_new false (insert_gen fx F k v).
Proof. unfold insert_gen. destruct (key_new k); [|done]. apply once_bind; [auto with kp|]. intros. apply once_insert_loop. Qed.
Definition adds (a : ans) : bool := match a with AIns None => true | _ => false end.
Lemma once_call fx F o : once adds false (call (insert_gen fx) F o).
Proof.
  destruct o as [k v|k|k| |]; cbn [call].
  - pose proof (once_insert fx F k v) as H. revert H. generalize (insert_gen fx F k v) false. intros p d. revert d.
    induction p as [a|e|R f kk IH]; intros d; cbn [bind once].
    + by destruct a as [[]|].
    + done.
    + intros [[H1 H2]|(H1 & H2 & H3)]; [left|right]; naive_solver.
  - apply once_bind; [auto with kp|done].
  - apply once_bind; [auto with kp|done].
  - apply once_bind; [unfold len; auto with kp|done].
  - apply once_bind; [auto with kp|done].
Qed.

(** every answer satisfies [φ] *)
Fixpoint rets {A} (φ : A -> bool) (p : P A) : Prop :=
  match p with
  | Ret a => φ a = true
  | Fail _ => True
  | Step f k => forall r, rets φ (k r)
  end.
Lemma rets_bind {A B} φ (p : P A) (f : A -> P B) : (forall a, rets φ (f a)) -> rets φ (bind p f).
Proof. intros H. induction p as [a|e|R h k IH]; cbn; auto. Qed.
Definition ins_ans (a : ans) : bool := match a with AIns _ | AInsErr => true | _ => false end.

Lemma count_app f h h' : count_of f (h ++ h') = (count_of f h + count_of f h')%N.
Proof. unfold count_of. rewrite List.filter_app, app_length. lia. Qed.
Lemma count_nil f : count_of f [] = 0%N.
Proof. done. Qed.
Lemma count_one f e : count_of f [e] = if f e.2 then 1%N else 0%N.
Proof. unfold count_of. cbn. by destruct (f e.2). Qed.

Definition bsum (l : list bool) : N := N.of_nat (length (List.filter (fun b : bool => b) l)).
Lemma bsum_cons b l : bsum (b :: l) = ((if b then 1 else 0) + bsum l)%N.
Proof. unfold bsum. destruct b; cbn [List.filter length]; lia. Qed.
Lemma bsum_insert (l : list bool) (i : nat) (x y : bool) : l !! i = Some x -> (bsum (<[i := y]> l) + (if x then 1 else 0) = bsum l + (if y then 1 else 0))%N.
Proof.
  revert i. induction l as [|b l IH]; intros [|i] H; [done|done| |].
  - injection H as ->. change (<[0 := y]> (x :: l)) with (y :: l). rewrite !bsum_cons. lia.
  - specialize (IH i H). change (<[S i := y]> (b :: l)) with (b :: <[i := y]> l). rewrite !bsum_cons. lia.
Qed.
Lemma bsum_false (l : list bool) : (forall i b, l !! i = Some b -> b = false) -> bsum l = 0%N.
Proof.
  induction l as [|b l IH]; intros H; [done|]. rewrite bsum_cons, (H 0 b eq_refl), IH; [done|]. intros i. apply (H (S i)).
Qed.
Lemma bsum_le (l l' : list bool) : length l = length l' -> (forall i, l !! i = Some true -> l' !! i = Some true) -> (bsum l <= bsum l')%N.
Proof.
  revert l'. induction l as [|b l IH]; intros [|b' l'] Hl H; try done. specialize (IH l'). rewrite !bsum_cons.
  assert (b = true -> b' = true) as Hb by (intros ->; by injection (H 0 eq_refl)).
  specialize (IH ltac:(cbn in Hl; lia) (fun i => H (S i))). destruct b; [rewrite Hb by done|destruct b']; lia.
Qed.

Definition quiet_for (i : nat) (h : list (N * event)) : Prop := Forall (fun e => event_of e.2 <> i) h.
Lemma last_at_snoc i h e : last_at i (h ++ [e]) = if decide (event_of e.2 = i) then Some e else last_at i h.
Proof.
  unfold last_at. rewrite filter_app, filter_cons. case_decide; [by rewrite filter_nil, last_snoc|]. by rewrite filter_nil, app_nil_r.
Qed.
Lemma last_at_mid i h1 e h2 : event_of e.2 = i -> quiet_for i h2 -> last_at i (h1 ++ e :: h2) = Some e.
Proof.
  intros He. induction h2 as [|x h2 IH] using rev_ind; intros Hq.
  - by rewrite last_at_snoc, decide_True.
  - apply Forall_app in Hq as [Hq Hx]. rewrite app_comm_cons, app_assoc, last_at_snoc. rewrite decide_False; [by apply IH|]. by inversion Hx.
Qed.
(** the bounds for an answer of [len] called after [h1] and answered after [h] *)
Definition len_ok (n : N) (h1 h : list (N * event)) : Prop := (added h1 <= n)%N /\ (n + not_added h1 <= insert_calls h)%N.

Definition cthread_ok (h : list (N * event)) (i : nat) (t : tstate) (r d : bool) : Prop :=
  match t with
  | TIdle => r = false /\ d = false
  | TRun p => exists t1 o, last_at i h = Some (t1, ECall i o) /\
      match o with
      | Insert _ _ => r = true /\ once adds d p /\ rets ins_ans p
      | _ => r = false /\ d = false /\ keeps p /\ rets (fun a => negb (ins_ans a)) p
      end /\
      (o = Len -> p = call insert 0 Len \/ exists n, p = Ret (ALen n) /\
        forall h1 t2 h2, h = h1 ++ (t2, ECall i Len) :: h2 -> quiet_for i h2 -> len_ok n h1 h)
  end.
Record CInv (c : csys) (h : list (N * event)) (rs ds : list bool) : Prop := {
  ci_len : length rs = length (c_thr c) /\ length ds = length (c_thr c);
  ci_thr : forall i t ops r d, c_thr c !! i = Some (t, ops) -> rs !! i = Some r -> ds !! i = Some d -> cthread_ok h i t r d;
  ci_imp : forall i, ds !! i = Some true -> rs !! i = Some true;
  ci_cnt : cnt (c_mem c) = (added h + bsum ds)%N;
  ci_calls : insert_calls h = (added h + not_added h + bsum rs)%N;
  ci_len_ok : forall h1 t1 i h2 t2 n h3, h = h1 ++ (t1, ECall i Len) :: h2 ++ (t2, ERet i (ALen n)) :: h3 -> quiet_for i h2 ->
    len_ok n h1 (h1 ++ (t1, ECall i Len) :: h2) }.

Lemma snoc_mid {A} (h h1 h2 : list A) x e : h ++ [e] = h1 ++ x :: h2 -> (h1 = h /\ x = e /\ h2 = []) \/ exists h2', h2 = h2' ++ [e] /\ h = h1 ++ x :: h2'.
Proof.
  destruct h2 as [|y h2 _] using rev_ind; intros E.
  - apply app_inj_tail in E as [-> ->]. by left.
  - right. rewrite app_comm_cons, app_assoc in E. apply app_inj_tail in E as [-> ->]. by exists h2.
Qed.
Lemma len_ok_app n h1 h h' : len_ok n h1 h -> len_ok n h1 (h ++ h').
Proof. intros [A B]. split; [done|]. unfold insert_calls in *. rewrite count_app. lia. Qed.
(** a thread whose event is not the last *)
Lemma cthread_other h e i t r d : event_of e.2 <> i -> cthread_ok h i t r d -> cthread_ok (h ++ [e]) i t r d.
Proof.
  intros Hne. destruct t as [|p]; [done|]. cbn. intros (t1 & o & H1 & H2 & H3). exists t1, o.
  rewrite last_at_snoc, decide_False by done. split; [done|]. split; [done|]. intros Ho. destruct (H3 Ho) as [->|(n & -> & Hn)]; [by left|].
  right. exists n. split; [done|]. intros h1 t2 h2 E Hq. apply snoc_mid in E as [(_ & <- & _)|(h2' & -> & E)]; [done|].
  apply len_ok_app. apply Forall_app in Hq as [Hq _]. by apply (Hn h1 t2 h2').
Qed.
Lemma ci_step c h (rs ds : list bool) (i : nat) t ops t' ops' (r d r' d' : bool) m' e blk' :
  CInv c h rs ds -> c_thr c !! i = Some (t, ops) -> rs !! i = Some r -> ds !! i = Some d ->
  (match e with [] => True | [x] => event_of x.2 = i | _ => False end) ->
  (d' = true -> r' = true) -> cthread_ok (h ++ e) i t' r' d' ->
  (cnt m' + added h + (if d then 1 else 0) = cnt (c_mem c) + added (h ++ e) + (if d' then 1 else 0))%N ->
  (insert_calls (h ++ e) + added h + not_added h + (if r then 1 else 0) =
    insert_calls h + added (h ++ e) + not_added (h ++ e) + (if r' then 1 else 0))%N ->
  (forall h1 t1 h2 t2 n, e = [(t2, ERet i (ALen n))] -> h = h1 ++ (t1, ECall i Len) :: h2 -> quiet_for i h2 -> len_ok n h1 h) ->
  CInv (mk_csys m' (<[i := (t', ops')]> (c_thr c)) blk' (c_fault c) (c_time c + 1)) (h ++ e) (<[i := r']> rs) (<[i := d']> ds).
Proof.
  intros C Hc Hr Hd He Himp Ht Hcnt Hcalls Hlen. destruct C as [[L1 L2] C2 C3 C4 C5 C6]. split; cbn.
  - by rewrite !insert_length.
  - intros j t1 ops1 r1 d1 Hj Hrj Hdj. destruct (decide (j = i)) as [->|Hne].
    + rewrite list_lookup_insert in Hj by (by eapply lookup_lt_Some). rewrite list_lookup_insert in Hrj by (by eapply lookup_lt_Some).
      rewrite list_lookup_insert in Hdj by (by eapply lookup_lt_Some). by simplify_eq.
    + rewrite list_lookup_insert_ne in Hj by done. rewrite list_lookup_insert_ne in Hrj by done. rewrite list_lookup_insert_ne in Hdj by done.
      pose proof (C2 j t1 ops1 r1 d1 Hj Hrj Hdj) as Hok. destruct e as [|x [|]]; [by rewrite app_nil_r| |done]. apply cthread_other; [congruence|done].
  - intros j Hj. destruct (decide (j = i)) as [->|Hne].
    + rewrite list_lookup_insert in Hj by (by eapply lookup_lt_Some). injection Hj as ->. rewrite list_lookup_insert by (by eapply lookup_lt_Some).
      by rewrite Himp.
    + rewrite list_lookup_insert_ne in Hj by done. rewrite list_lookup_insert_ne by done. by apply C3.
  - pose proof (bsum_insert ds i d d' Hd). lia.
  - pose proof (bsum_insert rs i r r' Hr). lia.
  - intros h1 t1 j h2 t2 n h3 E Hq. destruct e as [|x [|]]; [| |done].
    + rewrite app_nil_r in E. by eapply C6.
    + rewrite app_comm_cons, app_assoc in E. apply snoc_mid in E as [(E & Ex & _)|(h3' & -> & E)].
      * rewrite E. subst x. cbn in He. subst j. by eapply Hlen.
      * rewrite <- app_assoc, <- app_comm_cons in E. by eapply C6.
Qed.
Lemma rets_call fx F o : rets (fun a => if (match o with Insert _ _ => true | _ => false end) then ins_ans a else negb (ins_ans a)) (call (insert_gen fx) F o).
Proof. destruct o; cbn [call]; apply rets_bind; intros a; [by destruct a|done..]. Qed.
Lemma keeps_call fx F o : (forall k v, o <> Insert k v) -> keeps (call (insert_gen fx) F o).
Proof.
  intros H. destruct o as [k v|k|k| |]; cbn [call]; [by destruct (H k v)|..]; (apply keeps_bind; [|done]); [auto with kp|auto with kp|unfold len; auto with kp|auto with kp].
Qed.
Lemma ci_same c h rs ds m' blk' f' : CInv c h rs ds -> cnt m' = cnt (c_mem c) ->
  CInv (mk_csys m' (c_thr c) blk' f' (c_time c + 1)) (h ++ []) rs ds.
Proof. intros [] E. rewrite app_nil_r. split; cbn; try done. by rewrite E. Qed.
Lemma added_le h rs ds c : CInv c h rs ds -> (added h <= cnt (c_mem c))%N /\ (cnt (c_mem c) + not_added h <= insert_calls h)%N.
Proof.
  intros [[L1 L2] C2 C3 C4 C5 C6]. pose proof (bsum_le ds rs ltac:(congruence) C3). lia.
Qed.
Lemma len_prefix h1 h2 : (added h1 <= added (h1 ++ h2))%N /\ (not_added h1 <= not_added (h1 ++ h2))%N.
Proof. unfold added, not_added. rewrite !count_app. lia. Qed.

Lemma ci_c_step F a c h rs ds : CInv c h rs ds -> exists rs' ds', CInv (c_step F a c).1 (h ++ (c_step F a c).2) rs' ds'.
Proof.
  intros C. pose proof C as [[L1 L2] C2 C3 C4 C5 C6]. destruct a as [i|j]; cbn [c_step].
  - unfold sys_step. cbn [fst snd]. destruct (c_thr c !! i) as [[t ops]|] eqn:Hc; cycle 1.
    { exists rs, ds. by apply ci_same. }
    pose proof (lookup_lt_Some _ _ _ Hc) as Hi.
    destruct (lookup_lt_is_Some_2 rs i) as [r Hr]; [lia|]. destruct (lookup_lt_is_Some_2 ds i) as [d Hd]; [lia|].
    pose proof (C2 i t ops r d Hc Hr Hd) as T. destruct t as [|[a|e|R f k]].
    + destruct ops as [|o ops]; [exists rs, ds; by apply ci_same|]. cbn [fst snd map]. destruct T as [-> ->].
      exists (<[i := match o with Insert _ _ => true | _ => false end]> rs), (<[i := false]> ds).
      eapply ci_step; try done.
      * cbn. exists (c_time c), o. split; [by rewrite last_at_snoc, decide_True|]. pose proof (once_call false F o) as H1. pose proof (rets_call false F o) as H2.
        split.
        -- destruct o as [k v|k|k| |]; (split; [done|]); [done|..]; (split; [done|]; split; [by apply (keeps_call false)|done]).
        -- intros ->. by left.
      * unfold added. rewrite count_app, count_one. cbn. lia.
      * unfold added, not_added, insert_calls. rewrite !count_app, !count_one. cbn. destruct o; lia.
    + destruct T as (t1 & o & T1 & T2 & T3). cbn [fst snd map]. exists (<[i := false]> rs), (<[i := false]> ds).
      eapply ci_step; try done.
      * unfold added. rewrite count_app, count_one. cbn. destruct o; [destruct T2 as (-> & T2 & T4)|destruct T2 as (-> & -> & T2 & T4)..]; cbn in *;
          destruct a as [[ov|]| | | |]; cbn in *; try done; subst; lia.
      * unfold added, not_added, insert_calls. rewrite !count_app, !count_one. cbn. destruct o; [destruct T2 as (-> & T2 & T4)|destruct T2 as (-> & -> & T2 & T4)..]; cbn in *;
          destruct a as [[ov|]| | | |]; cbn in *; try done; subst; lia.
      * intros h1 t2 h2 t3 n [= <- ->] -> Hq. rewrite last_at_mid in T1 by done. injection T1 as <- <-.
        destruct (T3 eq_refl) as [E|(n' & [= <-] & Hn)]; [discriminate E|]. by eapply Hn.
    + exists rs, ds. by apply ci_same.
    + destruct T as (t1 & o & T1 & T2 & T3). destruct (f (c_mem c)) as [[x m']|e] eqn:Ef; cbn [fst snd map].
      * assert (o = Len \/ o <> Len) as [->|Hno] by (destruct o; (by left) || (by right)).
        -- destruct T2 as (-> & -> & T2 & T4). destruct (T3 eq_refl) as [E|(n & E & _)]; [|discriminate E].
           assert (Step f k = call insert 0 Len) as E' by done. cbn in E'. 
           exists (<[i := false]> rs), (<[i := false]> ds). 
           assert (m' = c_mem c /\ k x = Ret (ALen (cnt (c_mem c)))) as [-> ->].
           { clear -E Ef. change (call insert 0 Len) with (Step (fun m => Ok (cnt m, m)) (fun n => Ret (ALen n)) : P ans) in E.
             assert (forall (p q : P ans), p = q -> match p, q with Step f k, Step g l => forall m,
               match f m, g m with Ok (x, m'), Ok (y, m'') => m' = m'' /\ k x = l y | Er _, Er _ => True | _, _ => False end | _, _ => True end) as H.
             { intros p q <-. destruct p as [| |R0 f0 k0]; try done. intros m. by destruct (f0 m) as [[]|]. }
             specialize (H _ _ E (c_mem c)). cbn in H. by rewrite Ef in H. }
           eapply ci_step; try done.
           ++ exists t1, Len. rewrite app_nil_r. split; [done|]. split; [done|]. intros _. right. eexists. split; [done|].
              intros h1 t2 h2 -> Hq. destruct (added_le _ _ _ _ C) as [B1 B2]. pose proof (len_prefix h1 ((t2, ECall i Len) :: h2)). split; lia.
           ++ rewrite app_nil_r. lia.
           ++ rewrite app_nil_r. lia.
        -- destruct o as [kk vv|kk|kk| |]; try done.
           ++ destruct T2 as (-> & T2 & T4). cbn in T2, T4. destruct T2 as [[K1 K2]|(-> & K1 & K2)].
              ** exists (<[i := true]> rs), (<[i := d]> ds). eapply ci_step; try done.
                 --- exists t1, (Insert kk vv). rewrite app_nil_r. done.
                 --- rewrite app_nil_r, (K1 _ _ _ Ef). lia.
                 --- rewrite app_nil_r. lia.
              ** exists (<[i := true]> rs), (<[i := true]> ds). eapply ci_step; try done.
                 --- exists t1, (Insert kk vv). rewrite app_nil_r. done.
                 --- rewrite app_nil_r, (K1 _ _ _ Ef). lia.
                 --- rewrite app_nil_r. lia.
           ++ destruct T2 as (-> & -> & [K1 K2] & T4). exists (<[i := false]> rs), (<[i := false]> ds). eapply ci_step; try done.
              ** exists t1, (Get kk). rewrite app_nil_r. done.
              ** rewrite app_nil_r, (K1 _ _ _ Ef). lia.
              ** rewrite app_nil_r. lia.
           ++ destruct T2 as (-> & -> & [K1 K2] & T4). exists (<[i := false]> rs), (<[i := false]> ds). eapply ci_step; try done.
              ** exists t1, (GetRef kk). rewrite app_nil_r. done.
              ** rewrite app_nil_r, (K1 _ _ _ Ef). lia.
              ** rewrite app_nil_r. lia.
           ++ destruct T2 as (-> & -> & [K1 K2] & T4). exists (<[i := false]> rs), (<[i := false]> ds). eapply ci_step; try done.
              ** exists t1, IsEmpty. rewrite app_nil_r. done.
              ** rewrite app_nil_r, (K1 _ _ _ Ef). lia.
              ** rewrite app_nil_r. lia.
      * exists (<[i := r]> rs), (<[i := d]> ds). eapply ci_step; try done.
        -- intros ->. apply C3 in Hd. congruence.
        -- exists t1, o. rewrite app_nil_r. split; [done|]. split.
           ++ destruct o; [by destruct T2 as (-> & _)|destruct T2 as (-> & -> & _); done..].
           ++ intros ->. destruct (T3 eq_refl) as [E|(n & E & _)]; [|discriminate E].
              change (call insert 0 Len) with (Step (fun m => Ok (cnt m, m)) (fun n => Ret (ALen n)) : P ans) in E.
              assert (forall (p q : P ans), p = q -> match p, q with Step f k, Step g l => forall m,
               match f m, g m with Ok _, Ok _ => True | Er _, Er _ => True | _, _ => False end | _, _ => True end) as H.
              { intros p q <-. destruct p as [| |R0 f0 k0]; try done. intros m. by destruct (f0 m) as [[]|]. }
              specialize (H _ _ E (c_mem c)). cbn in H. by rewrite Ef in H.
        -- rewrite app_nil_r. lia.
        -- rewrite app_nil_r. lia.
  - exists rs, ds. repeat case_match; try by apply ci_same.
    cbn. apply ci_same; [done|]. destruct g; cbn in *; repeat case_match; simplify_eq; done.
Qed.
Lemma ci_run F acts : forall c h rs ds, CInv c h rs ds -> exists rs' ds', CInv (c_run F acts c).1 (h ++ (c_run F acts c).2) rs' ds'.
Proof.
  induction acts as [|a acts IH]; intros c h rs ds C; cbn [c_run].
  - exists rs, ds. cbn. by rewrite app_nil_r.
  - destruct (ci_c_step F a c h rs ds C) as (rs1 & ds1 & C1). destruct (c_step F a c) as [c1 h1]. cbn [fst snd] in *.
    destruct (IH c1 (h ++ h1) rs1 ds1 C1) as (rs2 & ds2 & C'). destruct (c_run F acts c1) as [c2 h2]. cbn [fst snd] in *. exists rs2, ds2.
    by rewrite app_assoc.
Qed.
Lemma ci_start scripts : CInv (c_start scripts) [] (replicate (length scripts) false) (replicate (length scripts) false).
Proof.
  assert (bsum (replicate (length scripts) false) = 0%N) as E by (apply bsum_false; intros i b Hb; by apply lookup_replicate in Hb as [-> _]).
  split; cbn.
  - by rewrite replicate_length, fmap_length.
  - intros i t ops r d Hi Hr Hd. apply list_lookup_fmap_Some in Hi as (ops' & _ & [= -> ->]).
    apply lookup_replicate in Hr as [-> _]. apply lookup_replicate in Hd as [-> _]. done.
  - done.
  - by rewrite E.
  - by rewrite E.
  - intros h1 t1 i h2 t2 n h3 H. by destruct h1.
Qed.
Section Run.
Context (F : nat) (scripts : list (list op)) (acts : list act) (c : csys) (h : list (N * event)).
Hypothesis Hrun : c_run F acts (c_start scripts) = (c, h).
Lemma conc_cinv : exists rs ds, CInv c h rs ds.
Proof. destruct (ci_run F acts _ _ _ _ (ci_start scripts)) as (rs & ds & C). rewrite Hrun in C. by exists rs, ds. Qed.
Lemma conc_len_quiet : c_quiet c -> cnt (c_mem c) = added h.
Proof.
  intros Hq. destruct conc_cinv as (rs & ds & [[L1 L2] C2 C3 C4 C5 C6]). rewrite C4. rewrite bsum_false; [lia|].
  intros i b Hb. destruct (lookup_lt_is_Some_2 (c_thr c) i) as [[t ops] Hc]; [rewrite <- L2; by eapply lookup_lt_Some|].
  destruct (lookup_lt_is_Some_2 rs i) as [r Hr]; [rewrite L1; by eapply lookup_lt_Some|].
  pose proof (Hq _ _ _ Hc) as ->. by destruct (C2 i TIdle ops r b Hc Hr Hb).
Qed.
Lemma conc_len h1 t1 i h2 t2 n h3 : h = h1 ++ (t1, ECall i Len) :: h2 ++ (t2, ERet i (ALen n)) :: h3 -> quiet_for i h2 ->
  (added h1 <= n)%N /\ (n + not_added h1 <= insert_calls (h1 ++ (t1, ECall i Len) :: h2))%N.
Proof. destruct conc_cinv as (rs & ds & C). intros. by eapply (ci_len_ok _ _ _ _ C). Qed.
End Run.
