(** Proofs about the searches. *)
From Verif Require Import Base Perm PermFacts PermList SpecPerm PermLaws Search SpecSearch.

(** ** counting in ascending lists *)
Lemma ascending_tail a ks : ascending (a :: ks) -> ascending ks.
Proof. intros H i j x y Hij Hi Hj. apply (H (S i) (S j)); [lia|done|done]. Qed.
Lemma ascending_head a ks x : ascending (a :: ks) -> x ∈ ks -> (a < x)%N.
Proof.
  intros H Hx. apply elem_of_list_lookup in Hx as [i Hi]. apply (H 0 (S i)); [lia|done|done].
Qed.
Lemma n_below_cut ks t l : ascending ks -> l <= length ks ->
  (forall i x, i < l -> ks !! i = Some x -> (x < t)%N) ->
  (forall i x, l <= i -> ks !! i = Some x -> (t <= x)%N) -> n_below ks t = l.
Proof.
  revert l. induction ks as [|a ks IH]; intros l Ha Hl H1 H2; [cbn in *; lia|].
  unfold n_below in *. rewrite filter_cons. destruct l as [|l].
  - assert (~ (a < t)%N) by (pose proof (H2 0 a ltac:(lia) eq_refl); lia).
    rewrite decide_False by done. apply (IH 0).
    + by eapply ascending_tail.
    + lia.
    + intros; lia.
    + intros i x _ Hx. apply (H2 (S i) x); [lia|done].
  - rewrite decide_True by (apply (H1 0); [lia|done]). cbn [length]. f_equal. apply IH.
    + by eapply ascending_tail.
    + cbn in Hl. lia.
    + intros i x Hi Hx. apply (H1 (S i)); [lia|done].
    + intros i x Hi Hx. apply (H2 (S i)); [lia|done].
Qed.
Lemma n_not_above_cut ks t l : ascending ks -> l <= length ks ->
  (forall i x, i < l -> ks !! i = Some x -> (x <= t)%N) ->
  (forall i x, l <= i -> ks !! i = Some x -> (t < x)%N) -> n_not_above ks t = l.
Proof.
  revert l. induction ks as [|a ks IH]; intros l Ha Hl H1 H2; [cbn in *; lia|].
  unfold n_not_above in *. rewrite filter_cons. destruct l as [|l].
  - assert (~ (a <= t)%N) by (pose proof (H2 0 a ltac:(lia) eq_refl); lia).
    rewrite decide_False by done. apply (IH 0).
    + by eapply ascending_tail.
    + lia.
    + intros; lia.
    + intros i x _ Hx. apply (H2 (S i) x); [lia|done].
  - rewrite decide_True by (apply (H1 0); [lia|done]). cbn [length]. f_equal. apply IH.
    + by eapply ascending_tail.
    + cbn in Hl. lia.
    + intros i x Hi Hx. apply (H1 (S i)); [lia|done].
    + intros i x Hi Hx. apply (H2 (S i)); [lia|done].
Qed.

Section S.
Context (ks : list N) (t : N) (get : nat -> nat) (cmp : nat -> comparison).
Hypothesis Hasc : ascending ks.
Hypothesis Hcmp : forall i x, ks !! i = Some x -> cmp (get i) = (t ?= x)%N.

Definition lower_ok (r : kpos) : Prop :=
  match r with
  | KFound i p => i = n_below ks t /\ ks !! i = Some t /\ p = get i
  | KNotFound i => i = n_below ks t /\ t ∉ ks
  end.

Lemma found_below i : ks !! i = Some t -> i = n_below ks t.
Proof.
  intros Hi. symmetry. apply n_below_cut; [done| | |].
  - apply lookup_lt_Some in Hi. lia.
  - intros j x Hj Hx. by apply (Hasc j i).
  - intros j x Hj Hx. destruct (decide (i = j)) as [<-|]; [rewrite Hi in Hx; injection Hx; lia|].
    pose proof (Hasc i j t x ltac:(lia) Hi Hx). lia.
Qed.
Lemma cut_below l : l <= length ks -> (forall i x, i < l -> ks !! i = Some x -> (x < t)%N) ->
  (forall i x, l <= i -> ks !! i = Some x -> (t < x)%N) -> l = n_below ks t /\ t ∉ ks.
Proof.
  intros Hl H1 H2. split.
  - symmetry. apply n_below_cut; try done. intros i x Hi Hx. specialize (H2 i x Hi Hx). lia.
  - intros [i Hi]%elem_of_list_lookup. destruct (Nat.lt_ge_cases i l) as [H|H].
    + specialize (H1 i t H Hi). lia.
    + specialize (H2 i t H Hi). lia.
Qed.
Lemma found_not_above i : ks !! i = Some t -> i + 1 = n_not_above ks t.
Proof.
  intros Hi. symmetry. apply n_not_above_cut; [done| | |].
  - apply lookup_lt_Some in Hi. lia.
  - intros j x Hj Hx. destruct (decide (i = j)) as [<-|]; [rewrite Hi in Hx; injection Hx; lia|].
    pose proof (Hasc j i x t ltac:(lia) Hx Hi). lia.
  - intros j x Hj Hx. by apply (Hasc i j); [lia| |].
Qed.

Lemma lower_loop fuel : forall l r, r - l <= fuel -> l <= r <= length ks ->
  (forall i x, i < l -> ks !! i = Some x -> (x < t)%N) ->
  (forall i x, r <= i -> ks !! i = Some x -> (t < x)%N) ->
  exists p, lower_bound_loop get cmp fuel l r = Some p /\ lower_ok p.
Proof.
  induction fuel as [|fuel IH]; intros l r Hf Hlr H1 H2; cbn [lower_bound_loop].
  - assert (r = l) as -> by lia. rewrite Nat.ltb_irrefl. eexists; split; [done|]. apply cut_below; [lia|done|done].
  - destruct (Nat.ltb_spec l r) as [Hlt|].
    2:{ assert (r = l) as -> by lia. eexists; split; [done|]. apply cut_below; [lia|done|done]. }
    assert (Hm : l <= (l + r) / 2 < r) by lia. set (m := (l + r) / 2) in *. clearbody m.
    destruct (lookup_lt_is_Some_2 ks m ltac:(lia)) as [y Hy]. rewrite (Hcmp m y Hy).
    destruct (N.compare_spec t y) as [Heq|Hlt'|Hgt].
    + subst y. eexists; split; [done|]. cbn. split; [by apply found_below|]. done.
    + apply IH; [lia|lia|done|]. intros i x Hi Hx. destruct (decide (i = m)) as [->|].
      * rewrite Hy in Hx. injection Hx as <-. done.
      * pose proof (Hasc m i y x ltac:(lia) Hy Hx). lia.
    + apply IH; [lia|lia| |done]. intros i x Hi Hx. destruct (decide (i = m)) as [->|].
      * rewrite Hy in Hx. injection Hx as <-. done.
      * pose proof (Hasc i m x y ltac:(lia) Hx Hy). lia.
Qed.
Lemma lower_correct : exists p, lower_bound_by get cmp (length ks) = Some p /\ lower_ok p.
Proof.
  apply lower_loop; [lia|lia|intros; lia|]. intros i x Hi Hx. apply lookup_lt_Some in Hx. lia.
Qed.
Lemma upper_loop fuel : forall l r, r - l <= fuel -> l <= r <= length ks ->
  (forall i x, i < l -> ks !! i = Some x -> (x < t)%N) ->
  (forall i x, r <= i -> ks !! i = Some x -> (t < x)%N) ->
  upper_bound_loop get cmp fuel l r = Some (n_not_above ks t).
Proof.
  assert (Hend : forall l, l <= length ks -> (forall i x, i < l -> ks !! i = Some x -> (x < t)%N) ->
    (forall i x, l <= i -> ks !! i = Some x -> (t < x)%N) -> l = n_not_above ks t).
  { intros l Hl H1 H2. symmetry. apply n_not_above_cut; try done.
    intros i x Hi Hx. specialize (H1 i x Hi Hx). lia. }
  induction fuel as [|fuel IH]; intros l r Hf Hlr H1 H2; cbn [upper_bound_loop].
  - assert (r = l) as -> by lia. rewrite Nat.ltb_irrefl. f_equal. apply Hend; [lia|done|done].
  - destruct (Nat.ltb_spec l r) as [Hlt|].
    2:{ assert (r = l) as -> by lia. f_equal. apply Hend; [lia|done|done]. }
    assert (Hm : l <= (l + r) / 2 < r) by lia. set (m := (l + r) / 2) in *. clearbody m.
    destruct (lookup_lt_is_Some_2 ks m ltac:(lia)) as [y Hy]. rewrite (Hcmp m y Hy).
    destruct (N.compare_spec t y) as [Heq|Hlt'|Hgt].
    + subst y. f_equal. by apply found_not_above.
    + apply IH; [lia|lia|done|]. intros i x Hi Hx. destruct (decide (i = m)) as [->|].
      * rewrite Hy in Hx. injection Hx as <-. done.
      * pose proof (Hasc m i y x ltac:(lia) Hy Hx). lia.
    + apply IH; [lia|lia| |done]. intros i x Hi Hx. destruct (decide (i = m)) as [->|].
      * rewrite Hy in Hx. injection Hx as <-. done.
      * pose proof (Hasc i m x y ltac:(lia) Hx Hy). lia.
Qed.
Lemma upper_correct : upper_bound_by get cmp (length ks) = Some (n_not_above ks t).
Proof.
  apply upper_loop; [lia|lia|intros; lia|]. intros i x Hi Hx. apply lookup_lt_Some in Hx. lia.
Qed.
Lemma lower_linear l n : l + n = length ks ->
  (forall i x, i < l -> ks !! i = Some x -> (x < t)%N) ->
  lower_ok (lower_linear_loop get cmp (length ks) (seq l n)).
Proof.
  revert l. induction n as [|n IH]; intros l Hl H1; cbn [seq lower_linear_loop].
  - cbn. apply cut_below; [lia| |].
    + intros i x _ Hx. apply (H1 i x); [|done]. apply lookup_lt_Some in Hx. lia.
    + intros i x Hi Hx. apply lookup_lt_Some in Hx. lia.
  - destruct (lookup_lt_is_Some_2 ks l ltac:(lia)) as [y Hy]. rewrite (Hcmp l y Hy).
    destruct (N.compare_spec t y) as [Heq|Hlt'|Hgt].
    + subst y. cbn. split; [by apply found_below|]. done.
    + cbn. apply cut_below; [lia|done|]. intros i x Hi Hx. destruct (decide (i = l)) as [->|].
      * rewrite Hy in Hx. injection Hx as <-. done.
      * pose proof (Hasc l i y x ltac:(lia) Hy Hx). lia.
    + apply IH; [lia|]. intros i x Hi Hx. destruct (decide (i = l)) as [->|].
      * rewrite Hy in Hx. injection Hx as <-. done.
      * apply (H1 i x); [lia|done].
Qed.
Lemma lower_linear_correct : lower_ok (lower_bound_linear_by get cmp (length ks)).
Proof. apply lower_linear; [lia|intros; lia]. Qed.
Lemma upper_linear l n : l + n = length ks ->
  (forall i x, i < l -> ks !! i = Some x -> (x < t)%N) ->
  upper_linear_loop get cmp (length ks) (seq l n) = n_not_above ks t.
Proof.
  revert l. induction n as [|n IH]; intros l Hl H1; cbn [seq upper_linear_loop].
  - symmetry. apply n_not_above_cut; [done|lia| |].
    + intros i x _ Hx. assert (x < t)%N; [|lia]. apply (H1 i x); [|done]. apply lookup_lt_Some in Hx. lia.
    + intros i x Hi Hx. apply lookup_lt_Some in Hx. lia.
  - destruct (lookup_lt_is_Some_2 ks l ltac:(lia)) as [y Hy]. rewrite (Hcmp l y Hy).
    destruct (N.compare_spec t y) as [Heq|Hlt'|Hgt].
    + subst y. by apply found_not_above.
    + symmetry. apply n_not_above_cut; [done|lia| |].
      * intros i x Hi Hx. specialize (H1 i x Hi Hx). lia.
      * intros i x Hi Hx. destruct (decide (i = l)) as [->|].
        -- rewrite Hy in Hx. injection Hx as <-. done.
        -- pose proof (Hasc l i y x ltac:(lia) Hy Hx). lia.
    + apply IH; [lia|]. intros i x Hi Hx. destruct (decide (i = l)) as [->|].
      * rewrite Hy in Hx. injection Hx as <-. done.
      * apply (H1 i x); [lia|done].
Qed.
Lemma upper_linear_correct : upper_bound_linear_by get cmp (length ks) = n_not_above ks t.
Proof. apply upper_linear; [lia|intros; lia]. Qed.
End S.

Lemma upper_internode_direct ks t ik : ascending ks ->
  (forall i x, ks !! i = Some x -> ik i = x) ->
  upper_bound_internode_direct t ik (length ks) = Some (n_not_above ks t).
Proof.
  intros Ha Hk. apply upper_correct; [done|]. intros i x Hx. by rewrite (Hk i x Hx).
Qed.
Lemma make_sorted_get n i : n <= 15 -> i < n -> p_get (P15 15) (p15_make_sorted (P15 15) n) i = i.
Proof.
  intros Hn Hi.
  assert (H : forallb (fun n => forallb (fun i => Nat.eqb (p_get (P15 15) (p15_make_sorted (P15 15) n) i) i) (seq 0 n)) (seq 0 16) = true)
    by (vm_compute; reflexivity).
  rewrite forallb_forall in H. specialize (H n ltac:(apply in_seq; lia)).
  rewrite forallb_forall in H. specialize (H i ltac:(apply in_seq; lia)). by apply Nat.eqb_eq.
Qed.
Lemma upper_internode_perm ks t ik : length ks <= 15 -> ascending ks ->
  (forall i x, ks !! i = Some x -> ik i = x) ->
  upper_bound_internode_perm t ik (length ks) = Some (n_not_above ks t).
Proof.
  intros Hl Ha Hk. apply upper_correct; [done|]. intros i x Hx. pose proof (lookup_lt_Some _ _ _ Hx).
  rewrite make_sorted_get by lia. by rewrite (Hk i x Hx).
Qed.

(** ** vectors *)
Lemma find_exact_shift ks t : forall i, find_exact_scalar_from i ks t = Nat.add i <$> find_exact_scalar_from 0 ks t.
Proof.
  induction ks as [|k ks IH]; intros i; [done|]. cbn. destruct (k =? t)%N; [cbn; f_equal; lia|].
  rewrite IH, (IH 1). destruct (find_exact_scalar_from 0 ks t); cbn; [f_equal; lia|done].
Qed.
Lemma list_ind2 {A} (Q : list A -> Prop) : Q [] -> (forall a, Q [a]) ->
  (forall a b l, Q l -> Q (a :: b :: l)) -> forall l, Q l.
Proof.
  intros H0 H1 H2 l. enough (Q l /\ forall a, Q (a :: l)) by tauto.
  induction l as [|x l [IH1 IH2]]; auto.
Qed.
Lemma list_ind4 {A} (Q : list A -> Prop) : Q [] -> (forall a, Q [a]) -> (forall a b, Q [a; b]) ->
  (forall a b c, Q [a; b; c]) -> (forall a b c d l, Q l -> Q (a :: b :: c :: d :: l)) -> forall l, Q l.
Proof.
  intros H0 H1 H2 H3 H4 l.
  enough (Q l /\ (forall a, Q (a :: l)) /\ (forall a b, Q (a :: b :: l)) /\ (forall a b c, Q (a :: b :: c :: l))) by tauto.
  induction l as [|x l (I1 & I2 & I3 & I4)]; auto 10.
Qed.
Lemma sse2_exact ks t : forall i, find_exact_sse2_from i ks t = find_exact_scalar_from i ks t.
Proof.
  induction ks as [|a|a b l IH] using list_ind2; intros i; [done|done|].
  cbn [find_exact_sse2_from find_exact_scalar_from cmpeq_epi64 map]. rewrite IH.
  destruct (a =? t)%N, (b =? t)%N; cbn; try done. by rewrite <- Nat.add_assoc.
Qed.
Lemma avx2_exact ks t : forall i, find_exact_avx2_from i ks t = find_exact_scalar_from i ks t.
Proof.
  induction ks as [|a|a b|a b c|a b c d l IH] using list_ind4; intros i; [done|done|done|done|].
  cbn [find_exact_avx2_from find_exact_scalar_from cmpeq_epi64 map]. rewrite IH.
  rewrite <- !Nat.add_assoc.
  destruct (a =? t)%N, (b =? t)%N, (c =? t)%N, (d =? t)%N; cbn; done.
Qed.
Lemma sse2_all ks t : forall mask i, find_all_sse2_from mask i ks t = find_all_scalar_from mask i ks t.
Proof.
  induction ks as [|a|a b l IH] using list_ind2; intros mask i; [done|done|].
  cbn [find_all_sse2_from find_all_scalar_from cmpeq_epi64 map]. rewrite IH, <- Nat.add_assoc.
  destruct (a =? t)%N, (b =? t)%N; done.
Qed.
Lemma avx2_all ks t : forall mask i, find_all_avx2_from mask i ks t = find_all_scalar_from mask i ks t.
Proof.
  induction ks as [|a|a b|a b c|a b c d l IH] using list_ind4; intros mask i; cbn [find_all_avx2_from];
    try apply sse2_all.
  cbn [find_all_scalar_from cmpeq_epi64 map]. rewrite IH, <- !Nat.add_assoc.
  destruct (a =? t)%N, (b =? t)%N, (c =? t)%N, (d =? t)%N; done.
Qed.
Lemma exact_all_equal ks t : find_exact_avx2 ks t = find_exact_scalar ks t /\
  find_exact_sse2 ks t = find_exact_scalar ks t.
Proof. split; [apply avx2_exact|apply sse2_exact]. Qed.
Lemma matches_all_equal ks len t : Nat.min len (length ks) <= 32 ->
  find_all_avx2 ks len t = find_all_scalar ks len t /\ find_all_sse2 ks len t = find_all_scalar ks len t.
Proof.
  intros H. unfold find_all_avx2, find_all_sse2, find_all_scalar. rewrite avx2_all, sse2_all.
  assert (take len ks = take (len `min` 32) ks) as ->; [|done].
  destruct (Nat.le_ge_cases len 32); [by rewrite Nat.min_l|].
  rewrite Nat.min_r by done. destruct (decide (len = 32)) as [->|]; [done|]. by rewrite !take_ge by lia.
Qed.
(** what the scalar versions compute *)
Lemma find_exact_spec ks t : match find_exact_scalar ks t with
  | Some i => ks !! i = Some t /\ forall j, j < i -> ks !! j <> Some t
  | None => t ∉ ks end.
Proof.
  unfold find_exact_scalar. induction ks as [|k ks IH]; [set_solver|]. cbn [find_exact_scalar_from].
  destruct (N.eqb_spec k t) as [->|Hne].
  - split; [done|intros; lia].
  - rewrite find_exact_shift. destruct (find_exact_scalar_from 0 ks t) as [i|]; cbn.
    + destruct IH as [IH1 IH2]. split; [done|]. intros [|j] Hj; cbn; [congruence|]. apply IH2. lia.
    + set_solver.
Qed.
Lemma find_all_spec ks t : forall mask i j, i + length ks <= 32 -> j < 32 ->
  N.testbit (find_all_scalar_from mask i ks t) (N.of_nat j) =
  N.testbit mask (N.of_nat j) || (bool_decide (i <= j) && bool_decide (ks !! (j - i) = Some t)).
Proof.
  induction ks as [|k ks IH]; intros mask i j Hi Hj; cbn [find_all_scalar_from].
  - rewrite lookup_nil, (bool_decide_false (None = Some t)) by done. by rewrite andb_false_r, orb_false_r.
  - rewrite IH by (cbn in *; lia).
    assert (Hs : N.testbit (set_bit32 mask i) (N.of_nat j) = N.testbit mask (N.of_nat j) || bool_decide (i = j)).
    { unfold set_bit32. rewrite N.lor_spec. f_equal.
      assert (Hm : (N.of_nat i mod 32 = N.of_nat i)%N) by (apply N.mod_small; cbn in Hi; lia).
      rewrite Hm, N.shiftl_1_l. case_bool_decide as E.
      - subst. apply N.pow2_bits_true.
      - apply N.pow2_bits_false. lia. }
    destruct (N.eqb_spec k t) as [->|Hne]; rewrite ?Hs.
    + rewrite <- orb_assoc. f_equal. destruct (decide (i = j)) as [->|Hij].
      * rewrite (bool_decide_true (j = j)), (bool_decide_true (j <= j)), Nat.sub_diag by lia. cbn [orb andb lookup list_lookup]. by rewrite bool_decide_true.
      * rewrite (bool_decide_false (i = j)) by done. cbn [orb]. destruct (decide (i < j)).
        -- rewrite !(bool_decide_true (_ <= _)) by lia. replace (j - i) with (S (j - (i + 1))) by lia. done.
        -- rewrite !(bool_decide_false (_ <= _)) by lia. done.
    + f_equal. destruct (decide (i = j)) as [->|Hij].
      * rewrite (bool_decide_false (j + 1 <= j)), Nat.sub_diag by lia. cbn [lookup list_lookup].
        rewrite (bool_decide_false (Some k = Some t)) by congruence. by rewrite andb_false_r.
      * destruct (decide (i < j)).
        -- rewrite !(bool_decide_true (_ <= _)) by lia. replace (j - i) with (S (j - (i + 1))) by lia. done.
        -- rewrite !(bool_decide_false (_ <= _)) by lia. done.
Qed.
Lemma count_le_loop_spec ks t : forall c, count_le_loop c ks t = c + n_not_above ks t.
Proof.
  unfold n_not_above. induction ks as [|k ks IH]; intros c; [cbn; lia|]. cbn [count_le_loop].
  rewrite IH, filter_cons. destruct (N.leb_spec k t).
  - rewrite decide_True by done. cbn. lia.
  - rewrite decide_False by lia. done.
Qed.
Lemma count_avx2_small ks t : (t < 2 ^ 63)%N -> Forall (fun k => k < 2 ^ 63)%N ks ->
  forall c, count_le_avx2_loop c ks t = count_le_loop c ks t.
Proof.
  intros Ht. induction ks as [|a|a b|a b c'|a b c' d l IH] using list_ind4; intros H c; [done|done|done|done|].
  rewrite !Forall_cons in H. destruct H as (Ha & Hb & Hc & Hd & Hl).
  cbn [count_le_avx2_loop count_le_loop cmpgt_epi64 map]. rewrite IH by done.
  assert (E : forall x, (x < 2 ^ 63)%N -> (as_i64 t <? as_i64 x)%Z = negb (x <=? t)%N).
  { intros x Hx. unfold as_i64. rewrite (proj2 (N.ltb_lt x _)), (proj2 (N.ltb_lt t _)) by done.
    destruct (N.leb_spec x t); cbn; [apply Z.ltb_ge|apply Z.ltb_lt]; lia. }
  rewrite !E by done.
  assert (EQ : forall x y l, x = y -> count_le_loop x l t = count_le_loop y l t) by (intros; subst; done).
  apply EQ. clear.
  destruct (a <=? t)%N, (b <=? t)%N, (c' <=? t)%N, (d <=? t)%N; cbn -[Nat.add]; rewrite ?Nat.add_0_r; done.
Qed.
Lemma count_equal_small ks size t : (t < 2 ^ 63)%N -> Forall (fun k => k < 2 ^ 63)%N (take size ks) ->
  count_le_avx2 ks size t = count_le_scalar ks size t.
Proof. intros. by apply count_avx2_small. Qed.
Lemma count_scalar_spec ks size t : count_le_scalar ks size t = n_not_above (take size ks) t.
Proof. unfold count_le_scalar. rewrite count_le_loop_spec. done. Qed.
Lemma matches_spec ks len t j : Nat.min len (length ks) <= 32 -> j < 32 ->
  N.testbit (find_all_scalar ks len t) (N.of_nat j) = bool_decide (j < len /\ ks !! j = Some t).
Proof.
  intros H Hj. unfold find_all_scalar. rewrite find_all_spec.
  - rewrite N.bits_0, (bool_decide_true (0 <= j)) by lia. rewrite Nat.sub_0_r. cbn [orb andb].
    apply bool_decide_ext. split.
    + intros Hx. apply lookup_take_Some in Hx. split; [lia|apply Hx].
    + intros [H1 H2]. rewrite lookup_take by lia. done.
  - rewrite take_length. lia.
  - done.
Qed.
Lemma count_le_differs : exists ks size t,
  Forall u64 ks /\ u64 t /\ size <= length ks /\ count_le_avx2 ks size t <> count_le_scalar ks size t.
Proof.
  exists [2 ^ 63; 2 ^ 63; 2 ^ 63; 2 ^ 63]%N, 4, 1%N.
  split; [repeat constructor|split; [constructor|split; [cbn; lia|vm_compute; discriminate]]].
Qed.
