(** Concurrent executions on the whole tree: descending, lookups. *)
From Verif Require Import Base Perm PermFacts PermList PermLaws SpecPerm Key SpecKey KeyFacts Prog Version VersionFacts VersionLaws Mem Tree
  SpecTree TreeState TreeSkel TreeRead TreeTop SpecLin Suffix SpecSuffix SuffixFacts Conc ConcStep ConcRules.
From Verif Require LinRead.

Definition vis (w : world) (p : N) (k : nat) : Prop := p ∈ wpub w /\ lev w p = Some k.
Lemma vis_mono w w' p k : Mono w w' -> vis w p k -> vis w' p k.
Proof. intros M [H1 H2]. split; by apply M. Qed.
Lemma ptr_vis w k x : ptr_ok w k x -> x <> 0%N -> vis w x k.
Proof. intros [->|H] Hx; done. Qed.

Lemma reads_leaf {A} i p (f : leaf -> option A) w (Φ : A -> world -> Prop) : lev w p = Some 0 ->
  (forall w' l, Rely i w w' -> Inv w' -> hp w' !! p = Some (NLeaf l) -> leaf_ok w' p l -> exists r, f l = Some r /\ Φ r w') ->
  reads i (leaf_ld p f) w Φ.
Proof.
  intros Hl H. apply reads_load. intros w' R I. apply (mo_lev _ _ (rl_mono _ _ _ R)) in Hl. unfold lev in Hl.
  destruct (hp w' !! p) as [[l|x]|] eqn:E; [|done..]. destruct (H w' l R I E) as (r & Hr & HP).
  { by apply (iv_node _ I p _ E). }
  unfold hp in E. rewrite E, Hr. by exists r.
Qed.
Lemma reads_inode {A} i p k (f : inode -> option A) w (Φ : A -> world -> Prop) : lev w p = Some (S k) ->
  (forall w' x, Rely i w w' -> Inv w' -> hp w' !! p = Some (NInode x) -> i_height x = k -> inode_ok w' x -> exists r, f x = Some r /\ Φ r w') ->
  reads i (inode_ld p f) w Φ.
Proof.
  intros Hl H. apply reads_load. intros w' R I. apply (mo_lev _ _ (rl_mono _ _ _ R)) in Hl. unfold lev in Hl.
  destruct (hp w' !! p) as [[l|x]|] eqn:E; [done| |done]. cbn in Hl. injection Hl as Hl. destruct (H w' x R I E Hl) as (r & Hr & HP).
  { by apply (iv_node _ I p _ E). }
  unfold hp in E. rewrite E, Hr. by exists r.
Qed.
Lemma reads_version i p k w (Φ : N -> world -> Prop) : lev w p = Some k ->
  (forall w' n, Rely i w w' -> Inv w' -> hp w' !! p = Some n -> nlev n = k -> Φ (nver n) w') -> reads i (version p) w Φ.
Proof.
  intros Hl H. unfold version, ver_load. apply reads_load. intros w' R I. apply (mo_lev _ _ (rl_mono _ _ _ R)) in Hl. unfold lev in Hl.
  destruct (hp w' !! p) as [n|] eqn:E; [|done]. cbn in Hl. injection Hl as Hl. exists (nver n). split; [|by apply H].
  unfold hp in E. by rewrite (rd_ver_at _ _ _ E).
Qed.
Lemma reads_flag i p k f w (Φ : bool -> world -> Prop) : lev w p = Some k ->
  (forall w' n, Rely i w w' -> Inv w' -> hp w' !! p = Some n -> nlev n = k -> Φ (f (nver n)) w') -> reads i (flag p f) w Φ.
Proof.
  intros Hl H. unfold flag. eapply reads_bind; [apply (reads_version i p k w (fun v w' => Φ (f v) w') Hl H)|].
  intros r w' R I HP. by apply reads_ret.
Qed.
Lemma reads_root i w (Φ : N -> world -> Prop) :
  (forall w' k, Rely i w w' -> Inv w' -> vis w' (root (wm w')) k -> Φ (root (wm w')) w') -> reads i load_root w Φ.
Proof.
  intros H. apply reads_load. intros w' R I. exists (root (wm w')). split; [done|].
  destruct (iv_root _ I) as (n & H1 & H2 & _). apply (H w' (nlev n) R I). split; [done|]. unfold lev. by rewrite H1.
Qed.
Lemma reads_stable i F p k w : lev w p = Some k ->
  reads i (stable F p) w (fun v w' => exists n, hp w' !! p = Some n /\ nver n = v /\ v_is_dirty v = false).
Proof.
  unfold stable. revert w. induction F as [|F IH]; intros w Hl; cbn [ver_stable]; [apply reads_fuel|].
  eapply reads_bind; [apply (reads_version i p k w (fun v w' => exists n, hp w' !! p = Some n /\ nver n = v)); [done|by eauto]|].
  intros v w' R I (n & H1 & H2). destruct (v_is_dirty v) eqn:E.
  - apply IH. by apply (rl_mono _ _ _ R).
  - apply reads_ret; [done|]. by exists n.
Qed.
Lemma reads_any {A} i (p : P A) w (Φ : A -> world -> Prop) : reads i p w Φ -> reads i p w (fun _ _ => True).
Proof. intros H. by eapply reads_weaken. Qed.
Lemma reads_has_changed i p k old w : lev w p = Some k ->
  reads i (has_changed p old) w (fun b w' => exists n, hp w' !! p = Some n /\ b = v_has_changed old (nver n)).
Proof.
  intros Hl. eapply reads_bind; [apply (reads_version i p k w (fun v w' => exists n, hp w' !! p = Some n /\ nver n = v)); [done|by eauto]|].
  intros v w' R I (n & H1 & <-). apply reads_ret; [done|]. by exists n.
Qed.
Lemma reads_has_split i p k old w : lev w p = Some k -> reads i (has_split p old) w (fun _ _ => True).
Proof.
  intros Hl. eapply reads_bind; [by apply (reads_version i p k w (fun v w' => True))|].
  intros v w' R I _. by apply reads_ret.
Qed.

Lemma lev_leaf w p n k : Inv w -> hp w !! p = Some n -> nlev n = k -> v_is_leaf (nver n) = Nat.eqb k 0.
Proof.
  intros I Hp <-. pose proof (iv_node _ I p n Hp) as [_ H]. destruct n as [l|x]; cbn in *.
  - destruct (lo_ver _ _ _ H) as (md & rt & B). exact (vbits_leaf _ _ _ _ B).
  - destruct (io_ver _ _ H) as (md & rt & B). exact (vbits_leaf _ _ _ _ B).
Qed.
Lemma not_deleted w p n : Inv w -> hp w !! p = Some n -> v_is_deleted (nver n) = false.
Proof.
  intros I Hp. destruct (node_vbits _ _ _ (iv_node _ I p n Hp)) as (md & rt & B). exact (vbits_deleted _ _ _ _ B).
Qed.

Lemma reads_maybe_parent i F p k w : vis w p k ->
  reads i (maybe_parent F p) w (fun r w' => exists k', vis w' r k').
Proof.
  revert p k w. induction F as [|F IH]; intros p k w Hv; cbn [maybe_parent]; [apply reads_fuel|].
  eapply reads_bind; [apply (reads_flag i p k v_is_leaf w (fun b w' => b = Nat.eqb k 0)); [apply Hv|intros; by eapply lev_leaf]|].
  intros b w1 R1 I1 ->. pose proof (vis_mono _ _ _ _ (rl_mono _ _ _ R1) Hv) as Hv1.
  eapply (reads_bind _ _ _ _ (fun pa w' => ptr_ok w' (S k) pa)).
  - destruct k as [|k]; cbn [Nat.eqb].
    + apply reads_leaf; [apply Hv1|]. intros w' l R I H _. exists (l_parent l). split; [done|]. by apply (iv_node _ I p _ H).
    + apply (reads_inode _ _ k); [apply Hv1|]. intros w' x R I H Hh _. exists (i_parent x). split; [done|].
      destruct (iv_node _ I p _ H) as [H1 _]. cbn in H1. by rewrite Hh in H1.
  - intros pa w2 R2 I2 Hpa. destruct (N.eqb_spec pa 0) as [->|Hne].
    + apply reads_ret; [done|]. exists k. by eapply vis_mono; [apply R2|].
    + apply (IH pa (S k)). by apply ptr_vis.
Qed.
Lemma reads_ub i n p k ik l r w : Inv w -> lev w p = Some (S k) -> r <= 15 -> l <= r ->
  reads i (ub_loop n p ik l r) w (fun c _ => c <= 15).
Proof.
  revert l r w. induction n as [|n IH]; intros l r w I Hl Hr Hl'; cbn [ub_loop]; destruct (Nat.ltb_spec l r).
  - apply reads_fuel.
  - apply reads_ret; [done|]. lia.
  - assert (l <= (l + r) / 2 < r) as Hm.
    { split; [apply Nat.div_le_lower_bound; lia|apply Nat.div_lt_upper_bound; lia]. }
    eapply reads_bind.
    { apply (reads_inode i p k _ w (fun _ _ => True)); [done|]. intros w' x R I' H' _ Hok.
      destruct (lookup_lt_is_Some_2 (i_keys x) ((l + r) / 2)) as [y Hy]; [rewrite (proj1 (io_len _ _ Hok)); lia|]. by exists y. }
    intros y w1 R1 I1 _. pose proof (mo_lev _ _ (rl_mono _ _ _ R1) _ _ Hl) as Hl1. destruct (ik ?= y)%N.
    + apply reads_ret; [done|]. lia.
    + apply IH; try done; lia.
    + apply IH; try done; lia.
  - apply reads_ret; [done|]. lia.
Qed.
Lemma reads_upper_bound i p k ik w : lev w p = Some (S k) ->
  reads i (upper_bound_internode p ik) w (fun c _ => c <= 15).
Proof.
  intros Hl. eapply (reads_bind _ _ _ _ (fun n _ => n <= 15)).
  - apply (reads_inode i p k); [done|]. intros w' x R I' H' _ Hok. exists (i_nkeys x). split; [done|]. by apply (io_nk _ _ Hok).
  - intros n w1 R1 I1 Hn. apply (reads_ub _ _ _ k); [done|by apply (rl_mono _ _ _ R1)|done|lia].
Qed.
Lemma reads_child i p k j w : lev w p = Some (S k) -> j <= 15 -> reads i (child p j) w (fun c w' => ptr_ok w' k c).
Proof.
  intros Hl Hj. apply (reads_inode i p k); [done|]. intros w' x R I' H' Hh Hok.
  destruct (lookup_lt_is_Some_2 (i_child x) j) as [y Hy]; [rewrite (proj2 (io_len _ _ Hok)); lia|]. exists y. split; [done|].
  rewrite <- Hh. apply (io_child _ _ Hok). by eapply elem_of_list_lookup_2.
Qed.
Lemma reads_reach i F n st ks p k ik w : vis w st ks -> vis w p k ->
  reads i (reach_leaf F n st p ik) w (fun r w' => vis w' r 0).
Proof.
  revert p k w. induction n as [|n IH]; intros p k w Hs Hv; cbn [reach_leaf]; [apply reads_fuel|].
  eapply reads_bind; [eapply (reads_any i _ w), (reads_stable i F p k), Hv|]. intros v w1 R1 I1 _.
  pose proof (vis_mono _ _ _ _ (rl_mono _ _ _ R1) Hv) as Hv1. pose proof (vis_mono _ _ _ _ (rl_mono _ _ _ R1) Hs) as Hs1.
  eapply reads_bind; [apply (reads_flag i p k v_is_leaf w1 (fun b w' => b = Nat.eqb k 0)); [apply Hv1|intros; by eapply lev_leaf]|].
  intros b w2 R2 I2 ->. pose proof (vis_mono _ _ _ _ (rl_mono _ _ _ R2) Hv1) as Hv2. pose proof (vis_mono _ _ _ _ (rl_mono _ _ _ R2) Hs1) as Hs2.
  destruct k as [|k]; cbn [Nat.eqb]; [by apply reads_ret|].
  eapply reads_bind; [apply (reads_upper_bound i p k), Hv2|]. intros ci w3 R3 I3 Hci.
  pose proof (vis_mono _ _ _ _ (rl_mono _ _ _ R3) Hv2) as Hv3. pose proof (vis_mono _ _ _ _ (rl_mono _ _ _ R3) Hs2) as Hs3.
  eapply reads_bind; [by apply (reads_child i p k), Hci; apply Hv3|]. intros c w4 R4 I4 Hc.
  pose proof (vis_mono _ _ _ _ (rl_mono _ _ _ R4) Hv3) as Hv4. pose proof (vis_mono _ _ _ _ (rl_mono _ _ _ R4) Hs3) as Hs4.
  destruct (N.eqb_spec c 0) as [->|Hne]; [by apply (IH st ks)|]. apply ptr_vis in Hc; [|done].
  eapply reads_bind; [eapply (reads_any i _ w4), (reads_has_changed i p (S k)), Hv4|]. intros ch w5 R5 I5 _.
  pose proof (vis_mono _ _ _ _ (rl_mono _ _ _ R5) Hv4) as Hv5. pose proof (vis_mono _ _ _ _ (rl_mono _ _ _ R5) Hs4) as Hs5.
  destruct ch; [|apply (IH c k); [done|by eapply vis_mono; [apply R5|]]].
  eapply reads_bind; [apply (reads_has_split i p (S k)), Hv5|]. intros sp w6 R6 I6 _.
  pose proof (vis_mono _ _ _ _ (rl_mono _ _ _ R6) Hv5) as Hv6. pose proof (vis_mono _ _ _ _ (rl_mono _ _ _ R6) Hs5) as Hs6.
  destruct sp; [by apply (IH st ks)|by apply (IH p (S k))].
Qed.

(** ** the chain of leaves *)
Lemma reads_next i p w : lev w p = Some 0 -> reads i (next_raw p) w (fun r w' => ptr_ok w' 0 (unmark_ptr r)).
Proof.
  intros Hl. apply reads_leaf; [done|]. intros w' l R I H Hok. exists (l_next l). split; [done|]. apply Hok.
Qed.
Lemma reads_ikey i p s w : lev w p = Some 0 -> s < 24 -> reads i (ikey p s) w (fun _ _ => True).
Proof.
  intros Hl Hs. apply reads_leaf; [done|]. intros w' l R I H Hok.
  destruct (lookup_lt_is_Some_2 (l_ikey l) s) as [y Hy]; [rewrite (proj1 (lo_len _ _ _ Hok)); lia|]. by exists y.
Qed.
Lemma reads_marked i p w : lev w p = Some 0 -> reads i (next_is_marked p) w (fun _ _ => True).
Proof.
  intros Hl. eapply reads_bind; [eapply (reads_any i _ w), reads_next, Hl|]. intros r w1 R1 I1 _. by apply reads_ret.
Qed.
Lemma reads_poll i k p w : Inv w -> lev w p = Some 0 -> reads i (poll_unmarked k p) w (fun _ _ => True).
Proof.
  revert w. induction k as [|k IH]; intros w I Hl; cbn [poll_unmarked]; [by apply reads_ret|].
  eapply reads_bind; [by apply reads_marked|]. intros b w1 R1 I1 _. destruct b; [|by apply reads_ret].
  apply IH; [done|]. by apply (rl_mono _ _ _ R1).
Qed.
Lemma reads_rounds i F k p w : Inv w -> lev w p = Some 0 -> reads i (wait_rounds F k p) w (fun _ _ => True).
Proof.
  revert w. induction k as [|k IH]; intros w I Hl; cbn [wait_rounds]; [by apply reads_ret|].
  eapply reads_bind; [by apply reads_marked|]. intros b w1 R1 I1 _. pose proof (mo_lev _ _ (rl_mono _ _ _ R1) _ _ Hl) as Hl1.
  destruct b; [|by apply reads_ret].
  eapply reads_bind; [by apply reads_poll|]. intros b w2 R2 I2 _. pose proof (mo_lev _ _ (rl_mono _ _ _ R2) _ _ Hl1) as Hl2.
  destruct b; [by apply reads_ret|].
  eapply reads_bind; [by eapply (reads_any i _ w2), (reads_stable i F p 0)|]. intros v w3 R3 I3 _. apply IH; [done|]. by apply (rl_mono _ _ _ R3).
Qed.
Lemma reads_wait i F p w : Inv w -> lev w p = Some 0 -> reads i (wait_for_split F p) w (fun _ _ => True).
Proof. apply reads_rounds. Qed.

Lemma reads_bb_loop i F n p ik h w : Inv w -> vis w p 0 -> reads i (by_bound_loop F n p ik h) w (fun r w' => vis w' r.1 0).
Proof.
  revert p h w. induction n as [|n IH]; intros p h w I Hv; cbn [by_bound_loop]; [apply reads_fuel|].
  destruct (Nat.leb _ _); [by apply reads_ret|].
  eapply reads_bind; [apply reads_next, Hv|]. intros nr w1 R1 I1 Hn. pose proof (vis_mono _ _ _ _ (rl_mono _ _ _ R1) Hv) as Hv1.
  destruct (is_marked nr).
  - eapply reads_bind; [apply reads_wait; [done|apply Hv1]|]. intros _ w2 R2 I2 _. apply IH; [done|]. by eapply vis_mono; [apply R2|].
  - destruct (N.eqb_spec (unmark_ptr nr) 0) as [E|Hne]; [by apply reads_ret|]. apply ptr_vis in Hn; [|done].
    eapply reads_bind; [apply reads_ikey; [apply Hn|lia]|]. intros nb w2 R2 I2 _.
    destruct (N.leb nb ik); [apply IH; [done|]|apply reads_ret; [done|]]; by eapply vis_mono; [apply R2|].
Qed.
Lemma reads_by_bound i F p ik w : vis w p 0 -> reads i (advance_by_bound F p ik) w (fun r w' => vis w' r.1 0).
Proof.
  intros Hv. unfold advance_by_bound. eapply reads_bind; [apply (reads_flag i p 0 _ w (fun _ _ => True)); [apply Hv|done]|].
  intros b w1 R1 I1 _. pose proof (vis_mono _ _ _ _ (rl_mono _ _ _ R1) Hv) as Hv1.
  eapply (reads_bind _ _ _ _ (fun _ _ => True)).
  - destruct b; [|by apply reads_ret]. eapply reads_bind; [eapply (reads_any i _ w1), (reads_stable i F p 0), Hv1|].
    intros v w2 R2 I2 _. by apply reads_ret.
  - intros _ w2 R2 I2 _. apply reads_bb_loop; [done|]. by eapply vis_mono; [apply R2|].
Qed.

(** ** versions *)
(** [v] was the version of leaf [p], not splitting, some time after [t0] *)
Definition snap (t0 : N) (w : world) (p v : N) : Prop := exists w0 l0, Inv w0 /\ Mono w0 w /\ hp w0 !! p = Some (NLeaf l0) /\
  l_ver l0 = v /\ v_is_splitting v = false /\ (t0 <= wclk w0)%N.
Lemma snap_mono t0 w w' p v : Mono w w' -> snap t0 w p v -> snap t0 w' p v.
Proof. intros M (w0 & l0 & H1 & H2 & H3). exists w0, l0. split; [done|]. split; [by eapply mono_trans|done]. Qed.
Lemma snap_stable i F p w t0 : lev w p = Some 0 -> (t0 <= wclk w)%N ->
  reads i (stable F p) w (fun v w' => snap t0 w' p v).
Proof.
  intros Hl Ht. eapply reads_weaken; [by apply (reads_stable i F p 0)|]. intros v w' R I (n & H1 & H2 & H3).
  pose proof (mo_lev _ _ (rl_mono _ _ _ R) _ _ Hl) as Hl'. unfold lev in Hl'. rewrite H1 in Hl'. destruct n as [l|]; [|done].
  exists w', l. split; [done|]. split; [apply mono_refl|]. split; [done|]. split; [done|]. split.
  - rewrite is_dirty_bits in H3. apply orb_false_iff in H3 as [_ H3]. by rewrite is_splitting_bit.
  - etrans; [done|]. apply (mo_clk _ _ (rl_mono _ _ _ R)).
Qed.
Lemma reads_adv_loop i F n p v ik w t0 : Inv w -> vis w p 0 -> snap t0 w p v -> (t0 <= wclk w)%N ->
  reads i (advance_loop F n p v ik) w (fun r w' => vis w' r.1 0 /\ snap t0 w' r.1 r.2).
Proof.
  revert p v w. induction n as [|n IH]; intros p v w I Hv Hs Ht; cbn [advance_loop]; [apply reads_fuel|].
  eapply reads_bind; [apply (reads_flag i p 0 v_is_deleted w (fun b _ => b = false)); [apply Hv|intros; by eapply not_deleted]|].
  intros b w1 R1 I1 ->. pose proof (rl_mono _ _ _ R1) as M1. pose proof (vis_mono _ _ _ _ M1 Hv) as Hv1. pose proof (snap_mono _ _ _ _ _ M1 Hs) as Hs1.
  pose proof (mo_clk _ _ M1). cbn iota.
  eapply reads_bind; [apply reads_next, Hv1|]. intros nr w2 R2 I2 Hn.
  pose proof (rl_mono _ _ _ R2) as M2. pose proof (vis_mono _ _ _ _ M2 Hv1) as Hv2. pose proof (snap_mono _ _ _ _ _ M2 Hs1) as Hs2.
  pose proof (mo_clk _ _ M2). destruct (is_marked nr).
  - eapply reads_bind; [apply reads_wait; [done|apply Hv2]|]. intros _ w3 R3 I3 _. pose proof (rl_mono _ _ _ R3) as M3.
    pose proof (mo_clk _ _ M3). apply IH; [done|by eapply vis_mono|by eapply snap_mono|lia].
  - destruct (N.eqb_spec (unmark_ptr nr) 0) as [E|Hne]; [by apply reads_ret|]. apply ptr_vis in Hn; [|done].
    eapply reads_bind; [apply reads_ikey; [apply Hn|lia]|]. intros nb w3 R3 I3 _. pose proof (rl_mono _ _ _ R3) as M3. pose proof (mo_clk _ _ M3).
    destruct (N.leb nb ik).
    + pose proof (vis_mono _ _ _ _ M3 Hn) as Hn3. eapply reads_bind; [apply (snap_stable i F _ w3 t0); [apply Hn3|lia]|].
      intros v' w4 R4 I4 Hs4. pose proof (rl_mono _ _ _ R4) as M4. pose proof (mo_clk _ _ M4). apply IH; [done|by eapply vis_mono|done|lia].
    + apply reads_ret; [done|]. split; [by eapply vis_mono|by eapply snap_mono].
Qed.
Lemma reads_advance i F p v ik w t0 : vis w p 0 -> (t0 <= wclk w)%N ->
  reads i (advance_to_key F p ik v) w (fun r w' => vis w' r.1 0 /\ snap t0 w' r.1 r.2).
Proof.
  intros Hv Ht. unfold advance_to_key. eapply reads_bind; [apply (snap_stable i F _ w t0); [apply Hv|done]|].
  intros v1 w1 R1 I1 Hs1. pose proof (rl_mono _ _ _ R1) as M1. pose proof (vis_mono _ _ _ _ M1 Hv) as Hv1. pose proof (mo_clk _ _ M1).
  eapply reads_bind; [apply (reads_has_split i p 0), Hv1|]. intros sp w2 R2 I2 _.
  pose proof (rl_mono _ _ _ R2) as M2. pose proof (vis_mono _ _ _ _ M2 Hv1) as Hv2. pose proof (mo_clk _ _ M2).
  eapply (reads_bind _ _ _ _ (fun _ _ => True)).
  { destruct sp; [by apply reads_ret|]. apply (reads_flag i p 0); [apply Hv2|done]. }
  intros go w3 R3 I3 _. pose proof (rl_mono _ _ _ R3) as M3. pose proof (vis_mono _ _ _ _ M3 Hv2) as Hv3. pose proof (mo_clk _ _ M3).
  destruct go.
  - eapply reads_bind; [apply (snap_stable i F _ w3 t0); [apply Hv3|lia]|]. intros v4 w4 R4 I4 Hs4.
    pose proof (rl_mono _ _ _ R4) as M4. pose proof (mo_clk _ _ M4). apply reads_adv_loop; [done|by eapply vis_mono|done|lia].
  - apply reads_ret; [done|]. split; [done|]. cbn. eapply snap_mono; [|exact Hs1]. by eapply mono_trans.
Qed.
(** unchanged since, within the range of the counter: no release in between, not splitting *)
Lemma changed_split a b : v_has_changed a b = false -> v_is_splitting a = v_is_splitting b.
Proof.
  unfold v_has_changed. change (LOCK_BIT + INSERTING_BIT)%N with 3%N. rewrite N.ltb_ge. intros Hle. rewrite !is_splitting_bit. unfold bit.
  assert (E : N.testbit (N.lxor a b) 2 = false).
  { destruct (N.eq_0_gt_0_cases (N.lxor a b)) as [->|]; [apply N.bits_0|].
    apply N.bits_above_log2. apply N.log2_lt_pow2; [done|]. change (2 ^ 2)%N with 4%N. lia. }
  rewrite N.lxor_spec in E. by apply Bool.xorb_eq in E.
Qed.
Lemma snap_unchanged t0 w0 w l0 p n : Inv w0 -> Inv w -> Mono w0 w -> hp w0 !! p = Some (NLeaf l0) -> v_is_splitting (l_ver l0) = false -> (t0 <= wclk w0)%N ->
  hp w !! p = Some n -> v_has_changed (l_ver l0) (nver n) = false ->
  (wclk w < t0 + 2 ^ 19)%N -> exists l, n = NLeaf l /\ wseq w p = wseq w0 p /\ spl l = false.
Proof.
  intros I0 I M0 H0 Hs Ht Hn Hc Hb. destruct (mo_leaf _ _ M0 p l0 H0) as (l & Hl & Hle & _). remember (l_ver l0) as v eqn:Hv. symmetry in Hv.
  rewrite Hn in Hl. injection Hl as ->. exists l. split; [done|]. cbn in Hc. split.
  - pose proof (lo_seq _ _ _ (proj2 (iv_node _ I0 p _ H0))) as E0. pose proof (lo_seq _ _ _ (proj2 (iv_node _ I p _ Hn))) as E1.
    destruct (decide (vcnt v = vcnt (l_ver l))) as [E|E].
    2:{ rewrite (changed_cnt _ _ E) in Hc. done. }
    rewrite <- Hv, E0, E1 in E. change (2 ^ 19)%N with 524288%N in Hb. assert (wclk w - wclk w0 < 524288)%N as Hd by lia.
    change (2 ^ 25)%N with 33554432%N in E.
    pose proof (N.div_mod' (wseq w p) 33554432) as D1. pose proof (N.div_mod' (wseq w0 p) 33554432) as D0.
    set (a := (wseq w p / 33554432)%N) in *. set (b := (wseq w0 p / 33554432)%N) in *.
    set (x := (wseq w p mod 33554432)%N) in *. set (y := (wseq w0 p mod 33554432)%N) in *. clearbody a b x y. nia.
  - unfold spl. rewrite <- (changed_split _ _ Hc). done.
Qed.

(** ** the scan of a leaf *)
Lemma actv_lt l s : p_wf P24 (l_perm l) -> s ∈ actv l -> s < 24.
Proof. intros Hw Hs. by eapply ids_lt. Qed.
Section Scan.
Context (i : nat) (kb : bytes) (Hb : is_bytes kb).
Definition found_ok (w1 : world) (p : N) (w : world) (ptr : N) : Prop := guarded i w ptr /\ is_Some (wtag w !! ptr) /\
  forall w4 l4, Mono w w4 -> Inv w4 -> hp w4 !! p = Some (NLeaf l4) -> wseq w4 p = wseq w1 p -> spl l4 = false ->
    exists v, wtag w4 !! ptr = Some (kb, v).
Lemma search_kklx : search_keylenx (kpos kb 0) = kklx kb.
Proof.
  unfold search_keylenx, kklx. rewrite has_suffix_pos, current_len_pos. cbn [Nat.mul]. change (drop 0 kb) with kb.
  destruct (Nat.ltb_spec 8 (length kb)), (Nat.leb_spec (length kb) 8); try lia; try done.
Qed.
Lemma key_same2 (a b : bytes) : is_bytes a -> is_bytes b -> kik a = kik b -> kklx a = kklx b -> (8 < length a -> drop 8 a = drop 8 b) -> a = b.
Proof.
  unfold kklx, KSUF_KEYLENX. intros Ha Hb' Hk Hx Hd. destruct (Nat.leb_spec (length a) 8), (Nat.leb_spec (length b) 8); try lia.
  - apply LinRead.key_same; try done. lia.
  - pose proof (ikey_len_inj a b 0 0 Ha Hb' ltac:(lia) ltac:(lia) Hk) as Ht. rewrite !current_len_pos in Ht. cbn [Nat.mul] in Ht.
    change (drop 0 a) with a in Ht. change (drop 0 b) with b in Ht. rewrite <- (take_drop 8 a), <- (take_drop 8 b), Hd by done. f_equal. apply Ht. lia.
Qed.
Lemma kklx_long (k : bytes) : kklx k = KSUF_KEYLENX -> 8 < length k.
Proof. unfold kklx, KSUF_KEYLENX. destruct (Nat.leb_spec (length k) 8); lia. Qed.
Lemma kklx_short (k : bytes) : kklx k <> KSUF_KEYLENX -> length k <= 8.
Proof. unfold kklx, KSUF_KEYLENX. destruct (Nat.leb_spec (length k) 8); lia. Qed.
Lemma slot_key w l s : Inv w -> slot_ok w l s -> exists k v h, has_key l s k /\ l_val l !! s = Some h /\ h <> 0%N /\ wtag w !! h = Some (k, v) /\
  (8 < length k -> sfx w l s = Some (drop 8 k)) /\ is_bytes k /\ (k, v) ∈ wcalled w.
Proof.
  intros I (k & v & h & H1 & H2 & H3 & H4 & H5). exists k, v, h. split; [done|]. split; [done|]. split; [done|]. split; [done|]. split; [done|].
  assert ((k, v) ∈ wcalled w) as Hc by (by apply (iv_called _ I h)). split; [|done]. by apply (iv_keys _ I k v).
Qed.
Lemma reads_keylenx s p w : lev w p = Some 0 -> s < 24 ->
  reads i (keylenx p s) w (fun r w' => ((r <= 8)%N \/ r = KSUF_KEYLENX) /\ exists l, hp w' !! p = Some (NLeaf l) /\ l_klx l !! s = Some r).
Proof.
  intros Hl Hlt. apply reads_leaf; [done|]. intros w' l R I' H Hok.
  destruct (lookup_lt_is_Some_2 (l_klx l) s) as [y Hy]; [rewrite (proj1 (proj2 (lo_len _ _ _ Hok))); lia|]. exists y. split; [done|].
  split; [by eapply lo_klx|]. by exists l.
Qed.
Lemma bag_equals_inv bound bg mm s suf : bag_inv 24 bound bg mm -> s < 24 ->
  exists b, bag_equals bg s suf = Ok b /\ (b = true -> bsfx bg s = Some suf).
Proof.
  intros H Hs. unfold bag_equals, bsfx. rewrite (bag_get_inv _ _ _ _ s H Hs). cbn. eexists. split; [done|].
  destruct (mm s) as [st|]; [|done]. intros E%bool_decide_eq_true. by subst.
Qed.
(** a comparison that says yes saw the suffix in the bag the leaf had just before *)
Lemma reads_ksuf_eq s p suf w : lev w p = Some 0 -> s < 24 -> i ∈ wrun w -> Inv w ->
  reads i (ksuf_equals p s suf) w (fun r w' => r = true -> exists w6 l6 bg bg', Mono w w6 /\ Mono w6 w' /\ Inv w6 /\
    hp w6 !! p = Some (NLeaf l6) /\ wbh w6 !! l_ksuf l6 = Some p /\ bags (wm w6) !! l_ksuf l6 = Some bg /\
    bags (wm w') !! l_ksuf l6 = Some bg' /\ bsfx bg' s = Some suf).
Proof.
  intros Hl Hlt Hrun I. unfold ksuf_equals. eapply reads_bind; [by apply reads_keylenx|]. intros kx w1 R1 I1 _.
  destruct (kx =? KSUF_KEYLENX)%N; [|by apply reads_ret].
  pose proof (rl_mono _ _ _ R1) as M1.
  eapply (reads_bind _ _ _ _ (fun r w' => exists l, hp w' !! p = Some (NLeaf l) /\ l_ksuf l = r)).
  { apply reads_leaf; [by apply M1|]. intros w' l R I' H Hok. eexists. split; [done|]. by exists l. }
  intros b w2 R2 I2 (l2 & Hl2 & <-). destruct (N.eqb_spec (l_ksuf l2) 0) as [_|Hz]; [by apply reads_ret|].
  pose proof (proj2 (iv_node _ I2 p _ Hl2)) as Hok. pose proof (lo_ksuf _ _ _ Hok Hz) as Hh.
  pose proof (lo_val _ _ _ Hok 24 _ (lptrs_24 _ (proj2 (proj2 (lo_len _ _ _ Hok)))) Hz) as Hv.
  assert (guarded i w2 (l_ksuf l2)) as Hg by (unfold guarded; by rewrite Hv).
  destruct (bag_there w2 _ _ I2 (guarded_some _ _ _ Hg) Hh) as [bg Hbg].
  apply reads_load. intros w' R I'.
  assert (guarded i w' (l_ksuf l2)) as Hg' by (apply (rl_grd _ _ _ R); [by apply R2, R1|done]).
  pose proof (mo_home _ _ (rl_mono _ _ _ R) _ _ Hh) as Hh'.
  destruct (bag_there w' _ _ I' (guarded_some _ _ _ Hg') Hh') as [bg' Hbg'].
  destruct (iv_bags _ I' _ _ Hbg') as (_ & mm & Hmm). destruct (bag_equals_inv _ _ _ s suf Hmm Hlt) as (e & He & Hes).
  exists e. rewrite Hbg', He. split; [done|]. intros ->.
  exists w2, l2, bg, bg'. split; [eapply mono_trans; [exact M1|apply R2]|]. split; [apply R|]. split; [done|]. split; [done|]. split; [done|]. split; [done|].
  split; [done|]. by apply Hes.
Qed.
Lemma reads_scan slots p l1 w1 w : Inv w1 -> Inv w -> i ∈ wrun w -> hp w1 !! p = Some (NLeaf l1) -> Mono w1 w ->
  (forall s, s ∈ slots -> s ∈ actv l1 /\ s < 24) ->
  reads i (scan_leaf p (kpos kb 0) slots) w (fun r w' => forall kx ptr, r = Some (kx, ptr) -> ((kx <= 8)%N \/ kx = KSUF_KEYLENX) /\ found_ok w1 p w' ptr).
Proof.
  intros I1. revert w. induction slots as [|s slots IH]; intros w I Hrun H1 M Hs; cbn [scan_leaf].
  { by apply reads_ret. }
  assert (Hlev : forall w', Mono w w' -> lev w' p = Some 0).
  { intros w' M'. apply (mo_lev _ _ (mono_trans _ _ _ M M')). unfold lev. by rewrite H1. }
  assert (Hrec : forall w', Rely i w w' -> Inv w' -> reads i (scan_leaf p (kpos kb 0) slots) w'
     (fun r w' => forall kx ptr, r = Some (kx, ptr) -> ((kx <= 8)%N \/ kx = KSUF_KEYLENX) /\ found_ok w1 p w' ptr)).
  { intros w' R I'. apply IH; [done|by apply R|done|by eapply mono_trans; [|apply R]|]. intros s' Hs'. apply Hs. by right. }
  destruct (Hs s ltac:(left)) as [Ha Hlt].
  eapply (reads_bind _ _ _ _ (fun r w' => exists l, hp w' !! p = Some (NLeaf l) /\ l_ikey l !! s = Some r)).
  { apply reads_leaf; [apply Hlev, mono_refl|]. intros w' l R I' H Hok.
    destruct (lookup_lt_is_Some_2 (l_ikey l) s) as [y Hy]; [rewrite (proj1 (lo_len _ _ _ Hok)); lia|]. exists y. split; [done|]. by exists l. }
  intros ik w2 R2 I2 (l2 & Hl2 & Hik). destruct (N.eqb_spec ik (k_ikey (kpos kb 0))) as [Ek|_]; [|by apply Hrec].
  pose proof (rl_mono _ _ _ R2) as M2.
  eapply reads_bind; [apply reads_keylenx; [by apply Hlev|done]|].
  intros kx w3 R3 I3 (Hkx8 & l3 & Hl3 & Hkx). pose proof (rl_mono _ _ _ R3) as M3.
  eapply (reads_bind _ _ _ _ (fun r w' => (r <> 0%N -> guarded i w' r /\ is_Some (wtag w' !! r)) /\ exists l, hp w' !! p = Some (NLeaf l) /\ l_val l !! s = Some r)).
  { apply reads_leaf; [apply Hlev; by eapply mono_trans|]. intros w' l R I' H Hok.
    destruct (lookup_lt_is_Some_2 (l_val l) s) as [y Hy]; [rewrite (proj2 (proj2 (lo_len _ _ _ Hok))); lia|]. exists y. split; [done|].
    split; [|by exists l]. intros Hz. split; [|by eapply lo_isval]. unfold guarded. by rewrite (lo_val _ _ _ Hok s y (lptrs_val _ _ _ Hy) Hz). }
  intros ptr w4 R4 I4 (Hg & l4 & Hl4 & Hptr). pose proof (rl_mono _ _ _ R4) as M4.
  assert (Rely i w w4) as R5 by (eapply rely_trans; [exact R2|by eapply rely_trans]).
  destruct (N.eqb_spec ptr 0) as [->|Hz]; [by apply Hrec|]. destruct (Hg Hz) as [Hg1 Hg2]. clear Hg.
  rewrite search_kklx. destruct (N.eqb_spec kx (kklx kb)) as [Esk|_].
  - assert (M12 : Mono w1 w2) by (by eapply mono_trans). assert (M13 : Mono w1 w3) by (by eapply mono_trans).
    assert (M24 : Mono w2 w4) by (by eapply mono_trans). assert (M14 : Mono w1 w4) by (by eapply mono_trans).
    (** what a later, validated, world says about the slot *)
    assert (Hlater : forall w6 l6, Mono w4 w6 -> Inv w6 -> hp w6 !! p = Some (NLeaf l6) -> wseq w6 p = wseq w1 p -> spl l6 = false ->
      exists k v, kik k = kik kb /\ kklx k = kklx kb /\ wtag w4 !! ptr = Some (k, v) /\ is_bytes k /\ (k, v) ∈ wcalled w4).
    { intros w6 l6 M6 I6 H6 Hseq Hspl.
      destruct (mo_leaf _ _ M6 p l4 Hl4) as (l6' & E6 & S6 & P6). rewrite H6 in E6. injection E6 as <-.
      destruct (mo_leaf _ _ M14 p l1 H1) as (l4' & E4 & S4 & P4). rewrite Hl4 in E4. injection E4 as <-.
      destruct (mo_leaf _ _ M24 p l2 Hl2) as (l4' & E4 & S4' & P4'). rewrite Hl4 in E4. injection E4 as <-.
      destruct (mo_leaf _ _ M4 p l3 Hl3) as (l4' & E4 & S4'' & P4''). rewrite Hl4 in E4. injection E4 as <-.
      destruct (mo_leaf _ _ M12 p l1 H1) as (l2' & E2 & S2 & P2). rewrite Hl2 in E2. injection E2 as <-.
      destruct (mo_leaf _ _ M13 p l1 H1) as (l3' & E3 & S3 & P3). rewrite Hl3 in E3. injection E3 as <-.
      destruct P6 as [Hsp4 _]; [lia|done|]. destruct P4 as [_ P4]; [lia|done|]. destruct P4' as [Hsp2 P4']; [lia|done|]. destruct P4'' as [Hsp3 P4'']; [lia|done|].
      destruct P2 as [_ P2]; [lia|done|]. destruct P3 as [_ P3]; [lia|done|].
      destruct (P4 s Ha) as [Ha4 _]. destruct (P2 s Ha) as [Ha2 _]. destruct (P3 s Ha) as [Ha3 _].
      destruct (P4' s Ha2) as (_ & Q1 & _). destruct (P4'' s Ha3) as (_ & _ & Q2).
      pose proof (proj2 (iv_node _ I4 p _ Hl4)) as Hok4.
      pose proof (lo_tag _ _ _ Hok4 (lo_frz _ _ _ Hok4 Hsp4) s Ha4) as Hslot.
      destruct (slot_key _ _ _ I4 Hslot) as (k & v & h & [K1 K2] & K3 & K4 & K5 & K6 & K7 & K8).
      rewrite Hptr in K3. injection K3 as <-. rewrite Q1, Hik in K1. rewrite Q2, Hkx in K2. injection K1 as K1. injection K2 as K2.
      exists k, v. split; [rewrite <- K1; exact Ek|]. split; [congruence|]. done. }
    destruct (N.eqb_spec kx KSUF_KEYLENX) as [Ekx|Ekx].
    + eapply reads_bind; [apply reads_ksuf_eq; [by apply Hlev, R5|done|by apply R5|done]|]. intros eq w5 R6 I5 He. cbn beta in He.
      assert (Rely i w w5) as R7 by (by eapply rely_trans). destruct eq; [|by apply Hrec].
      destruct (He eq_refl) as (w7 & l7 & bg & bg' & M7 & M75 & I7 & Hl7 & Hb7 & Hbg & Hbg' & Hsf). clear He.
      apply reads_ret; [done|]. intros kx' ptr' [= <- <-]. split; [done|]. pose proof (rl_mono _ _ _ R6) as M45.
      split; [apply (rl_grd _ _ _ R6); [by apply R5|done]|]. split; [destruct Hg2 as [y Hy]; exists y; by apply M45|].
      intros w6 l6 M6 I6 H6 Hseq Hspl. destruct (Hlater w6 l6 ltac:(by eapply mono_trans) I6 H6 Hseq Hspl) as (k & v & K1 & K2 & K3 & K4 & K5).
      destruct (mo_leaf _ _ M75 p l7 Hl7) as (l5 & E5 & S5 & P5). destruct (mo_leaf _ _ M6 p l5 E5) as (l6' & E6 & S6 & P6).
      rewrite H6 in E6. injection E6 as <-.
      assert (M17 : Mono w1 w7) by (by eapply mono_trans). destruct (mo_leaf _ _ M17 p l1 H1) as (l7' & E7 & S7 & P7). rewrite Hl7 in E7. injection E7 as <-.
      destruct P6 as [Hsp5 _]; [lia|done|]. destruct P5 as [Hsp7 P5]; [lia|done|]. destruct P7 as [_ P7]; [lia|done|]. destruct (P7 s Ha) as (Ha7 & P7a & P7b).
      assert (bsfx bg s = Some (key_suffix (kpos kb 0))) as Hsf7.
      { rewrite <- (mo_bag _ _ M75 _ p bg bg' l7 l5 Hb7 Hbg Hbg' Hl7 E5 ltac:(lia) Hsp5 s Ha7). done. }
      pose proof (proj2 (iv_node _ I7 p _ Hl7)) as Hok7.
      pose proof (lo_tag _ _ _ Hok7 (lo_frz _ _ _ Hok7 Hsp7) s Ha7) as Hslot.
      destruct (slot_key _ _ _ I7 Hslot) as (k' & v' & h' & [L1 L2] & L3 & L4 & L5 & L6 & L7 & L8).
      (* the key of the slot did not change *)
      destruct (mo_leaf _ _ M7 p l4 Hl4) as (l7' & E7 & S7' & P7'). rewrite Hl7 in E7. injection E7 as <-.
      destruct (mo_leaf _ _ M14 p l1 H1) as (l4' & E4 & S4 & P4). rewrite Hl4 in E4. injection E4 as <-.
      destruct P7' as [Hsp4 P7']; [lia|done|]. destruct P4 as [_ P4]; [lia|done|]. destruct (P4 s Ha) as (Ha4 & _). destruct (P7' s Ha4) as (_ & N1 & N2).
      pose proof (proj2 (iv_node _ I4 p _ Hl4)) as Hok4.
      pose proof (lo_tag _ _ _ Hok4 (lo_frz _ _ _ Hok4 Hsp4) s Ha4) as Hslot4.
      destruct (slot_key _ _ _ I4 Hslot4) as (k4 & v4 & h4 & [O1 O2] & O3 & O4 & O5 & O6 & O7 & O8).
      rewrite Hptr in O3. injection O3 as <-. rewrite K3 in O5. injection O5 as <- <-.
      rewrite N1, O1 in L1. rewrite N2, O2 in L2. injection L1 as L1. injection L2 as L2.
      assert (k' = k) as ->.
      { apply (iv_same _ I7 k' v' k v); [done|by apply M7|congruence|congruence]. }
      assert (8 < length k) as H8 by (apply kklx_long; congruence).
      specialize (L6 H8). unfold sfx in L6. rewrite Hbg, Hsf7 in L6. rewrite suffix_pos in L6. cbn [Nat.mul] in L6. injection L6 as L6.
      assert (k = kb) as -> by (apply key_same2; try done). exists v. apply M6, M45. done.
    + cbn [bind]. apply reads_ret; [done|]. intros kx' ptr' [= <- <-]. split; [done|]. split; [done|]. split; [done|].
      intros w6 l6 M6 I6 H6 Hseq Hspl. destruct (Hlater w6 l6 M6 I6 H6 Hseq Hspl) as (k & v & K1 & K2 & K3 & K4 & K5).
      assert (length k <= 8) by (apply kklx_short; congruence).
      assert (k = kb) as -> by (apply key_same2; try done; lia). exists v. by apply M6.
  - assert (LAYER_KEYLENX <=? kx = false)%N as -> by (apply N.leb_gt; unfold LAYER_KEYLENX; destruct Hkx8 as [?| ->]; [lia|done]).
    cbn [andb]. by apply Hrec.
Qed.
End Scan.

Section Get.
Context (i : nat) (kb : bytes) (Hb : is_bytes kb) (t0 : N).
(** what a lookup may return: a value it may still use, and, unless the version counter
    wrapped around, one inserted for this key *)
Definition got (r : option N) (w : world) : Prop := forall ptr, r = Some ptr -> guarded i w ptr /\ is_Some (wtag w !! ptr) /\
  ((wclk w < t0 + 2 ^ 19)%N -> exists v, wtag w !! ptr = Some (kb, v)).
Definition gs_ok (w : world) (st : gstate) : Prop := match st with
  | GLayer r => exists k, vis w r k
  | GLeaf r p => (exists k, vis w r k) /\ vis w p 0
  | GSearch r p v => (exists k, vis w r k) /\ vis w p 0 /\ snap t0 w p v end.
Lemma ex_vis_mono w w' p : Mono w w' -> (exists k, vis w p k) -> exists k, vis w' p k.
Proof. intros M [k H]. exists k. by eapply vis_mono. Qed.
Lemma reads_get_loop F n st w : Inv w -> i ∈ wrun w -> (t0 <= wclk w)%N -> gs_ok w st ->
  reads i (get_loop F n (kpos kb 0) st) w got.
Proof.
  revert st w. induction n as [|n IH]; intros st w I Hrun Ht Hst; cbn [get_loop]; [apply reads_fuel|].
  assert (HIH : forall st w', Rely i w w' -> Inv w' -> gs_ok w' st -> reads i (get_loop F n (kpos kb 0) st) w' got).
  { intros st' w' R I' H'. apply IH; [done|by apply R| |done]. etrans; [done|]. apply (mo_clk _ _ (rl_mono _ _ _ R)). }
  destruct st as [r|r p|r p v].
  - destruct Hst as [k Hk]. eapply reads_bind; [by apply (reads_maybe_parent i F r k)|]. intros r' w1 R1 I1 [k1 Hv1].
    eapply reads_bind; [by apply (reads_reach i F F r' k1 r' k1)|]. intros p w2 R2 I2 Hv2.
    apply HIH; [by eapply rely_trans|done|]. split; [|done]. exists k1. eapply vis_mono; [apply R2|done].
  - destruct Hst as [Hr Hp]. eapply reads_bind; [apply (snap_stable i F p w t0); [apply Hp|done]|]. intros v w1 R1 I1 Hs1.
    pose proof (rl_mono _ _ _ R1) as M1. apply HIH; [done|done|]. split; [by eapply ex_vis_mono|]. split; [by eapply vis_mono|done].
  - destruct Hst as (Hr & Hp & Hs).
    eapply reads_bind; [apply (reads_flag i p 0 v_is_deleted w (fun b _ => b = false)); [apply Hp|intros; by eapply not_deleted]|].
    intros b w1 R1 I1 ->. cbn iota. pose proof (rl_mono _ _ _ R1) as M1.
    pose proof (ex_vis_mono _ _ _ M1 Hr) as Hr1. pose proof (vis_mono _ _ _ _ M1 Hp) as Hp1. pose proof (snap_mono _ _ _ _ _ M1 Hs) as Hs1.
    eapply (reads_bind _ _ _ _ (fun r w' => exists l, hp w' !! p = Some (NLeaf l) /\ l_perm l = r)).
    { apply reads_leaf; [apply Hp1|]. intros w' l R I' H _. exists (l_perm l). split; [done|]. by exists l. }
    intros perm w2 R2 I2 (l2 & Hl2 & <-). pose proof (rl_mono _ _ _ R2) as M2. assert (Rely i w w2) as R02 by (by eapply rely_trans).
    pose proof (ex_vis_mono _ _ _ M2 Hr1) as Hr2. pose proof (vis_mono _ _ _ _ M2 Hp1) as Hp2. pose proof (snap_mono _ _ _ _ _ M2 Hs1) as Hs2.
    assert (forall w', Rely i w w' -> (t0 <= wclk w')%N) as Hclk by (intros w' R; etrans; [exact Ht|apply (mo_clk _ _ (rl_mono _ _ _ R))]).
    destruct (is_frozen (l_perm l2)) eqn:Efr.
    { eapply reads_bind; [apply (snap_stable i F p w2 t0); [apply Hp2|by apply Hclk]|]. intros v' w3 R3 I3 Hs3. pose proof (rl_mono _ _ _ R3) as M3.
      apply HIH; [by eapply rely_trans|done|]. split; [by eapply ex_vis_mono|]. split; [by eapply vis_mono|done]. }
    pose proof (lo_perm _ _ _ (proj2 (iv_node _ I2 p _ Hl2)) Efr) as Hwf.
    eapply reads_bind; [apply (reads_scan i kb Hb (active_slots (l_perm l2)) p l2 w2 w2); try done|].
    { by apply R02. } { apply mono_refl. } { intros s Hs'. split; [done|]. by eapply actv_lt. }
    intros sn w3 R3 I3 Hsn. cbn beta in Hsn. pose proof (rl_mono _ _ _ R3) as M3. assert (Rely i w w3) as R03 by (by eapply rely_trans).
    pose proof (ex_vis_mono _ _ _ M3 Hr2) as Hr3. pose proof (vis_mono _ _ _ _ M3 Hp2) as Hp3. pose proof (snap_mono _ _ _ _ _ M3 Hs2) as Hs3.
    eapply reads_bind; [apply (reads_has_changed i p 0), Hp3|]. intros ch w4 R4 I4 (n4 & Hn4 & ->).
    pose proof (rl_mono _ _ _ R4) as M4. assert (Rely i w w4) as R04 by (by eapply rely_trans).
    pose proof (ex_vis_mono _ _ _ M4 Hr3) as Hr4. pose proof (vis_mono _ _ _ _ M4 Hp3) as Hp4. pose proof (snap_mono _ _ _ _ _ M4 Hs3) as Hs4.
    destruct (v_has_changed v (nver n4)) eqn:Ech.
    + eapply reads_bind; [apply (reads_advance i F p v _ w4 t0); [done|by apply Hclk]|]. intros [q v'] w5 R5 I5 [Hq Hs5]. cbn [fst snd] in *.
      pose proof (rl_mono _ _ _ R5) as M5. assert (Rely i w w5) as R05 by (by eapply rely_trans). pose proof (ex_vis_mono _ _ _ M5 Hr4) as Hr5.
      destruct (N.eqb_spec q p) as [->|_]; by apply HIH.
    + destruct sn as [[kx ptr]|].
      * destruct (Hsn kx ptr eq_refl) as (Hkx & Hg & [y Hy] & Hf).
        assert (LAYER_KEYLENX <=? kx = false)%N as -> by (apply N.leb_gt; unfold LAYER_KEYLENX; destruct Hkx as [?| ->]; [lia|done]).
        apply reads_ret; [done|]. intros ptr' [= <-]. split; [apply (rl_grd _ _ _ R4); [by apply R03|done]|].
        split; [exists y; by apply M4|]. intros Hc.
        destruct Hs2 as (w0 & l0 & I0 & M0 & H0 & Hv & Hsp0 & Hle). subst v.
        assert (Mono w2 w4) as M24 by (by eapply mono_trans).
        destruct (snap_unchanged t0 w0 w4 l0 p n4 I0 I4 ltac:(by eapply mono_trans) H0 Hsp0 Hle Hn4 Ech Hc) as (l4 & -> & Hseq & Hspl).
        apply (Hf w4 l4); try done. destruct (mo_leaf _ _ M0 p l0 H0) as (? & _ & S1 & _). destruct (mo_leaf _ _ M24 p l2 Hl2) as (? & _ & S2 & _). lia.
      * eapply reads_bind; [apply (reads_flag i p 0 v_is_dirty w4 (fun _ _ => True)); [apply Hp4|done]|].
        intros d w5 R5 I5 _. pose proof (rl_mono _ _ _ R5) as M5. assert (Rely i w w5) as R05 by (by eapply rely_trans).
        pose proof (ex_vis_mono _ _ _ M5 Hr4) as Hr5. pose proof (vis_mono _ _ _ _ M5 Hp4) as Hp5.
        destruct d.
        -- eapply reads_bind; [apply (snap_stable i F p w5 t0); [apply Hp5|by apply Hclk]|]. intros v' w6 R6 I6 Hs6. pose proof (rl_mono _ _ _ R6) as M6.
           apply HIH; [by eapply rely_trans|done|]. split; [by eapply ex_vis_mono|]. split; [by eapply vis_mono|done].
        -- eapply reads_bind; [apply reads_next, Hp5|]. intros nr w6 R6 I6 Hn. pose proof (rl_mono _ _ _ R6) as M6.
           destruct (N.eqb_spec (unmark_ptr nr) 0) as [E|Hne]; cbn [negb andb]; [by apply reads_ret|].
           destruct (is_marked nr); cbn [negb]; [by apply reads_ret|]. apply ptr_vis in Hn; [|done].
           eapply reads_bind; [apply reads_ikey; [apply Hn|lia]|]. intros nb w7 R7 I7 _. pose proof (rl_mono _ _ _ R7) as M7.
           destruct (N.leb _ _); [|by apply reads_ret]. apply HIH; [eapply rely_trans; [exact R05|by eapply rely_trans]|done|].
           split; [eapply ex_vis_mono; [exact M7|by eapply ex_vis_mono]|by eapply vis_mono].
Qed.
End Get.

Lemma reads_get i kb F w : is_bytes kb -> length kb <= 256 -> Inv w -> i ∈ wrun w ->
  reads i (get F kb) w (fun r w' => forall v, r = Some v -> (wclk w' < wclk w + 2 ^ 19)%N -> (kb, v) ∈ wcalled w').
Proof.
  intros Hb Hl I Hrun. unfold get. rewrite key_new_ok by done.
  eapply reads_bind; [apply (reads_root i w (fun r w' => exists k, vis w' r k)); by eauto|]. intros r w1 R1 I1 Hr.
  eapply reads_bind; [apply (reads_get_loop i kb Hb (wclk w) F F (GLayer r)); [done|by apply R1|apply (mo_clk _ _ (rl_mono _ _ _ R1))|done]|].
  intros o w2 R2 I2 Hg. destruct o as [h|]; [|by apply reads_ret]. destruct (Hg h eq_refl) as (Hg1 & [y0 Hy0] & Hg2).
  eapply (reads_bind _ _ _ _ (fun v w' => (wclk w2 <= wclk w')%N /\ exists k, wtag w' !! h = Some (k, v) /\ forall y, wtag w2 !! h = Some y -> y = (k, v))).
  { apply reads_load. intros w' R I'. assert (guarded i w' h) as Hg' by (apply (rl_grd _ _ _ R); [by apply R2, R1|done]).
    assert (is_Some (vals (wm w') !! h)) as [v Hv].
    { apply val_there; [done|by eapply guarded_some|]. exists y0. by apply (rl_mono _ _ _ R). }
    exists v. rewrite Hv. split; [done|]. split; [apply (mo_clk _ _ (rl_mono _ _ _ R))|]. destruct (iv_tag _ I' h v Hv) as [k Hk]. exists k. split; [done|].
    intros y Hy. apply (mo_tag _ _ (rl_mono _ _ _ R)) in Hy. congruence. }
  intros v w3 R3 I3 (Hc & k & Hk & Hu). apply reads_ret; [done|]. intros v' [= <-] Hclk. destruct Hg2 as [v2 Hv2]; [lia|].
  pose proof (Hu _ Hv2) as [= -> ->]. by apply (iv_called _ I3 h).
Qed.
Lemma cwp_peq {A} i (p q : P A) : peq p q -> forall w (Q : A -> world -> Prop), cwp i q w Q -> cwp i p w Q.
Proof.
  induction 1 as [| |R f k k' Hk IH]; intros w Q; cbn; [done..|].
  intros H w1 HR HI Hm. destruct (H w1 HR HI Hm) as (r & w2 & H1 & H2 & H3 & H4).
  exists r, w2. split; [done|]. split; [done|]. split; [done|]. by apply IH.
Qed.
