(** Bit-level facts about the packed permutation words. *)
From Verif Require Import Base Perm.
Local Open Scope nat_scope.

Lemma wones_spec m n : N.testbit (wones m) n = (n <? m)%N.
Proof.
  unfold wones. destruct (N.ltb_spec n m).
  - apply N.ones_spec_low; lia.
  - apply N.ones_spec_high; lia.
Qed.
Lemma wshl_spec m x k n :
  N.testbit (wshl m x k) n = (k <=? n)%N && N.testbit x (n - k) && (n <? m)%N.
Proof.
  unfold wshl. rewrite N.land_spec, wones_spec. f_equal.
  destruct (N.leb_spec k n); simpl.
  - apply N.shiftl_spec_high'; lia.
  - apply N.shiftl_spec_low; lia.
Qed.
Lemma wnot_spec m x n : N.testbit (wnot m x) n = negb (N.testbit x n) && (n <? m)%N.
Proof.
  unfold wnot. rewrite N.lxor_spec, N.land_spec, wones_spec.
  destruct (N.testbit x n), (n <? m)%N; reflexivity.
Qed.
Lemma wshl_one m k : (k < m)%N -> wshl m 1 k = (2 ^ k)%N.
Proof.
  intros H. apply N.bits_inj; intros n. rewrite wshl_spec.
  rewrite N.pow2_bits_eqb.
  assert (H1 : forall x, N.testbit 1 x = (x =? 0)%N) by (intros []; reflexivity).
  rewrite H1.
  destruct (N.leb_spec k n); cbn [andb].
  - destruct (N.eqb_spec k n), (N.eqb_spec (n - k) 0), (N.ltb_spec n m); try reflexivity; lia.
  - destruct (N.eqb_spec k n); [lia|reflexivity].
Qed.
Lemma wsub_low m k n : (k < m)%N -> N.testbit (wsub m (wshl m 1 k) 1) n = (n <? k)%N.
Proof.
  intros H. rewrite wshl_one by done. unfold wsub.
  rewrite N.land_spec, wones_spec.
  replace (2^k - 1)%N with (N.ones k) by (rewrite N.ones_equiv; lia).
  pose proof (wones_spec k n) as Hk. unfold wones in Hk. rewrite Hk.
  destruct (N.ltb_spec n k), (N.ltb_spec n m); try reflexivity; lia.
Qed.

(** low field arithmetic: adding to / subtracting from the size field does not
    touch the higher bits *)
Lemma testbit_mod_div x b n :
  (b <= n)%N -> N.testbit x n = N.testbit (x / 2^b) (n - b).
Proof. intros. rewrite N.div_pow2_bits. f_equal. lia. Qed.

Lemma land_ones_mod x b : N.land x (N.ones b) = (x mod 2^b)%N.
Proof. apply N.land_ones. Qed.

Lemma add_low_high x b y n :
  (x mod 2^b + y < 2^b)%N -> (b <= n)%N -> N.testbit (x + y) n = N.testbit x n.
Proof.
  intros H Hn. rewrite (testbit_mod_div (x+y) b), (testbit_mod_div x b) by done. f_equal.
  pose proof (N.pow_nonzero 2 b ltac:(lia)).
  rewrite (N.div_mod x (2^b)) at 1 by done.
  replace (2 ^ b * (x / 2 ^ b) + x mod 2 ^ b + y)%N
    with ((x mod 2^b + y) + (x / 2^b) * 2^b)%N by lia.
  rewrite N.div_add by done. rewrite (N.div_small (_ + y)) by done. lia.
Qed.
Lemma add_low_mod x b y :
  (x mod 2^b + y < 2^b)%N -> ((x + y) mod 2^b = x mod 2^b + y)%N.
Proof.
  intros H. pose proof (N.pow_nonzero 2 b ltac:(lia)).
  rewrite (N.div_mod x (2^b)) at 1 by done.
  replace (2 ^ b * (x / 2 ^ b) + x mod 2 ^ b + y)%N
    with ((x mod 2^b + y) + (x / 2^b) * 2^b)%N by lia.
  rewrite N.mod_add by done. apply N.mod_small; done.
Qed.
Lemma sub_low_high x b y n :
  (y <= x mod 2^b)%N -> (b <= n)%N -> N.testbit (x - y) n = N.testbit x n.
Proof.
  intros H Hn. rewrite (testbit_mod_div (x-y) b), (testbit_mod_div x b) by done. f_equal.
  pose proof (N.pow_nonzero 2 b ltac:(lia)) as H0.
  rewrite (N.div_mod x (2^b)) at 1 by done.
  replace (2 ^ b * (x / 2 ^ b) + x mod 2 ^ b - y)%N
    with ((x mod 2^b - y) + (x / 2^b) * 2^b)%N
    by (revert H; generalize (x mod 2^b)%N; generalize (x / 2^b)%N; generalize (2^b)%N;
        clear; intros; lia).
  rewrite N.div_add by done. rewrite (N.div_small (_ - y)); [lia|].
  pose proof (N.mod_lt x (2^b) H0). lia.
Qed.
Lemma sub_low_mod x b y :
  (y <= x mod 2^b)%N -> ((x - y) mod 2^b = x mod 2^b - y)%N.
Proof.
  intros H. pose proof (N.pow_nonzero 2 b ltac:(lia)) as H0.
  rewrite (N.div_mod x (2^b)) at 1 by done.
  replace (2 ^ b * (x / 2 ^ b) + x mod 2 ^ b - y)%N
    with ((x mod 2^b - y) + (x / 2^b) * 2^b)%N
    by (revert H; generalize (x mod 2^b)%N; generalize (x / 2^b)%N; generalize (2^b)%N;
        clear; intros; lia).
  rewrite N.mod_add by done. apply N.mod_small.
  pose proof (N.mod_lt x (2^b) H0). lia.
Qed.

(** configurations for which the packing makes sense *)
Record pcfg_ok (P : pcfg) : Prop := {
  ok_B : 1 <= pB P;
  ok_W : 1 <= pW P;
  ok_WB : (N.of_nat (pW P) < 2 ^ N.of_nat (pB P))%N;
  ok_M : (pW P + 1) * pB P <= pM P }.

Lemma P24_ok : pcfg_ok P24.
Proof. split; simpl; try lia. Qed.
Lemma P15_ok w : 1 <= w <= 15 -> pcfg_ok (P15 w).
Proof. intros H. split; simpl; lia. Qed.

Section Facts.
Context (P : pcfg) (OK : pcfg_ok P).
Local Notation B := (pB P).
Local Notation W := (pW P).
Local Notation M := (N.of_nat (pM P)).

Definition p_slots (v : N) : list nat := map (p_get P v) (seq 0 W).

Record p_wf (v : N) : Prop := {
  wf_lt : (v < 2 ^ M)%N;
  wf_size : p_size P v <= W;
  wf_perm : p_slots v ≡ₚ seq 0 W }.

Lemma slot_mask_spec n : N.testbit (slot_mask P) n = (n <? N.of_nat B)%N.
Proof. exact (wones_spec (N.of_nat B) n). Qed.

Lemma p_size_mod v : N.of_nat (p_size P v) = (v mod 2 ^ N.of_nat B)%N.
Proof. unfold p_size, slot_mask. rewrite N2Nat.id, N.land_ones. done. Qed.

Lemma p_get_inj_bits v i v' j :
  (forall b, (b < N.of_nat B)%N ->
     N.testbit v (b + shift_of P i) = N.testbit v' (b + shift_of P j)) ->
  p_get P v i = p_get P v' j.
Proof.
  intros H. unfold p_get. f_equal. apply N.bits_inj; intros b.
  rewrite !N.land_spec, slot_mask_spec, !N.shiftr_spec'.
  destruct (N.ltb_spec b (N.of_nat B)); [|by rewrite !andb_false_r].
  by rewrite H.
Qed.

Lemma p_get_bits v i b : (b < N.of_nat B)%N ->
  N.testbit (N.of_nat (p_get P v i)) b = N.testbit v (b + shift_of P i).
Proof.
  intros H. unfold p_get. rewrite N2Nat.id, N.land_spec, slot_mask_spec, N.shiftr_spec'.
  destruct (N.ltb_spec b (N.of_nat B)); [|lia]. by rewrite andb_true_r.
Qed.
Lemma p_get_bits_high v i b : (N.of_nat B <= b)%N ->
  N.testbit (N.of_nat (p_get P v i)) b = false.
Proof.
  intros H. unfold p_get. rewrite N2Nat.id, N.land_spec, slot_mask_spec.
  destruct (N.ltb_spec b (N.of_nat B)); [lia|]. by rewrite andb_false_r.
Qed.

Lemma p_get_eq_nat v i s : (N.of_nat s < 2 ^ N.of_nat B)%N ->
  (forall b, (b < N.of_nat B)%N ->
     N.testbit v (b + shift_of P i) = N.testbit (N.of_nat s) b) ->
  p_get P v i = s.
Proof.
  intros Hs H. apply Nat2N.inj. apply N.bits_inj; intros b.
  destruct (N.ltb_spec b (N.of_nat B)).
  - rewrite p_get_bits by done. by apply H.
  - rewrite p_get_bits_high by done. symmetry.
    destruct (decide (N.of_nat s = 0)%N) as [->|]; [apply N.bits_0|].
    apply N.bits_above_log2. apply N.log2_lt_pow2; [lia|].
    eapply N.lt_le_trans; [exact Hs|]. apply N.pow_le_mono_r; lia.
Qed.

Lemma p_get_lt v i : (N.of_nat (p_get P v i) < 2 ^ N.of_nat B)%N.
Proof.
  unfold p_get, slot_mask. rewrite N2Nat.id, N.land_ones.
  apply N.mod_lt. apply N.pow_nonzero; lia.
Qed.

Lemma p_size_inj_bits v v' :
  (forall b, (b < N.of_nat B)%N -> N.testbit v b = N.testbit v' b) ->
  p_size P v = p_size P v'.
Proof.
  intros H. unfold p_size. f_equal. apply N.bits_inj; intros b.
  rewrite !N.land_spec, slot_mask_spec.
  destruct (N.ltb_spec b (N.of_nat B)); [|by rewrite !andb_false_r].
  by rewrite H.
Qed.

Lemma lt_pow2_bits v m : (forall n, (m <= n)%N -> N.testbit v n = false) -> (v < 2 ^ m)%N.
Proof.
  intros H. destruct (N.lt_ge_cases v (2^m)) as [|Hge]; [done|]. exfalso.
  assert (0 < v)%N by (pose proof (N.pow_nonzero 2 m ltac:(lia)); lia).
  pose proof (N.bit_log2 v ltac:(lia)) as Hb.
  rewrite H in Hb; [done|]. apply N.log2_le_pow2; lia.
Qed.
Lemma bits_lt_pow2 v m n : (v < 2 ^ m)%N -> (m <= n)%N -> N.testbit v n = false.
Proof.
  intros H Hn. destruct (decide (v = 0)%N) as [->|]; [apply N.bits_0|].
  apply N.bits_above_log2. apply N.log2_lt_pow2; [lia|].
  eapply N.lt_le_trans; [exact H|]. apply N.pow_le_mono_r; lia.
Qed.

Lemma mulB_le i j : i < j -> i * B + B <= j * B.
Proof. intros; nia. Qed.
Lemma mulB_leq i j : i <= j -> i * B <= j * B.
Proof. intros; nia. Qed.
Lemma shift_lt_M i : i < W -> i * B + B + B <= pM P.
Proof. intros Hi. pose proof (ok_M P OK). nia. Qed.

Local Ltac bits :=
  rewrite ?N.lor_spec, ?N.land_spec, ?N.lxor_spec, ?wshl_spec, ?wnot_spec, ?slot_mask_spec,
          ?N.shiftr_spec', ?wones_spec;
  rewrite ?N.lor_spec, ?N.land_spec, ?N.lxor_spec, ?wshl_spec, ?wnot_spec, ?slot_mask_spec,
          ?N.shiftr_spec', ?wones_spec;
  rewrite ?N.lor_spec, ?N.land_spec, ?N.lxor_spec, ?wshl_spec, ?wnot_spec, ?slot_mask_spec,
          ?N.shiftr_spec', ?wones_spec.
Local Ltac cmps :=
  repeat match goal with
  | |- context [(?a <? ?b)%N] => destruct (N.ltb_spec a b); try lia; cbn [andb orb negb]
  | |- context [(?a <=? ?b)%N] => destruct (N.leb_spec a b); try lia; cbn [andb orb negb]
  end.
Local Ltac bdone :=
  cbn [andb orb negb];
  rewrite ?andb_true_r, ?andb_false_r, ?orb_false_r, ?orb_true_r;
  cbn [andb orb negb];
  first [ reflexivity | f_equal; lia | idtac ].

Lemma p_size_of_nat_lt v : (N.of_nat (p_size P v) < 2 ^ N.of_nat B)%N.
Proof. rewrite p_size_mod. apply N.mod_lt, N.pow_nonzero; lia. Qed.

Lemma wadd1_bit v n :
  p_size P v < W -> (v < 2 ^ M)%N -> (N.of_nat B <= n)%N -> (n < M)%N ->
  N.testbit (wadd M v 1) n = N.testbit v n.
Proof.
  intros Hs Hv Hn HM. unfold wadd. rewrite N.land_spec, wones_spec.
  destruct (N.ltb_spec n M); [|lia]. rewrite andb_true_r.
  apply (add_low_high v (N.of_nat B)); [|done].
  rewrite <- p_size_mod. pose proof (ok_WB P OK). lia.
Qed.

Lemma wsub1_bit v n :
  0 < p_size P v -> (N.of_nat B <= n)%N -> (n < M)%N ->
  N.testbit (wsub M v 1) n = N.testbit v n.
Proof.
  intros Hs Hn HM. unfold wsub. rewrite N.land_spec, wones_spec.
  destruct (N.ltb_spec n M); [|lia]. rewrite andb_true_r.
  apply (sub_low_high v (N.of_nat B)); [|done].
  rewrite <- p_size_mod. lia.
Qed.

(** *** insert_from_back *)
Lemma insert_get v i j :
  p_size P v < W -> (v < 2^M)%N -> i <= p_size P v -> j < W ->
  p_get P (p_insert_from_back P v i).1 j
  = if Nat.ltb j i then p_get P v j
    else if Nat.eqb j i then p_back P v else p_get P v (j - 1).
Proof.
  intros Hs Hv Hi Hj. cbn [p_insert_from_back fst].
  pose proof (shift_lt_M i ltac:(lia)) as HiM. pose proof (shift_lt_M j Hj) as HjM.
  pose proof (ok_B P OK).
  destruct (Nat.ltb_spec j i) as [Hlt|Hge].
  - apply p_get_inj_bits; intros b Hb. pose proof (mulB_le j i Hlt).
    bits. rewrite wsub_low by (unfold shift_of; lia).
    rewrite wadd1_bit by (unfold shift_of; lia).
    unfold shift_of. cmps; bdone.
  - destruct (Nat.eqb_spec j i) as [->|Hne].
    + apply p_get_eq_nat; [apply p_get_lt|]; intros b Hb.
      bits. rewrite wsub_low by (unfold shift_of; lia).
      unfold shift_of. cmps; bdone.
    + assert (Hlt : i < j) by lia. pose proof (mulB_le i j Hlt).
      apply p_get_inj_bits; intros b Hb.
      bits. rewrite wsub_low by (unfold shift_of; lia).
      rewrite (bits_lt_pow2 (N.of_nat (p_back P v)) (N.of_nat B)) by
        (first [apply p_get_lt | unfold shift_of; lia]).
      unfold shift_of. replace ((j - 1) * B + B) with (j * B) by nia.
      cmps; bdone.
Qed.

Lemma insert_size v i :
  p_size P v < W -> (v < 2^M)%N -> i <= p_size P v ->
  p_size P (p_insert_from_back P v i).1 = S (p_size P v).
Proof.
  intros Hs Hv Hi. cbn [p_insert_from_back fst].
  pose proof (shift_lt_M i ltac:(lia)) as HiM. pose proof (ok_B P OK).
  assert (Hadd : p_size P (v + 1)%N = S (p_size P v)).
  { apply Nat2N.inj. rewrite p_size_mod, add_low_mod.
    - rewrite <- p_size_mod. lia.
    - rewrite <- p_size_mod. pose proof (ok_WB P OK). lia. }
  rewrite <- Hadd. apply p_size_inj_bits. intros b Hb.
  bits. rewrite wsub_low by (unfold shift_of; lia).
  unfold wadd. bits. unfold shift_of. cmps; bdone.
Qed.

Lemma insert_lt v i :
  i < W -> ((p_insert_from_back P v i).1 < 2^M)%N.
Proof.
  intros Hi. pose proof (shift_lt_M i ltac:(lia)) as HiM. pose proof (ok_B P OK).
  apply lt_pow2_bits. intros n Hn. cbn [p_insert_from_back fst].
  bits. rewrite wsub_low by (unfold shift_of; lia). unfold wadd. bits.
  unfold shift_of. cmps; bdone.
Qed.

(** *** words built field by field *)
Definition build (f : nat -> nat) (l : list nat) (v0 : N) : N :=
  fold_left (fun v i => N.lor v (wshl M (N.of_nat (f i)) (shift_of P i))) l v0.

Lemma build_bits f l v0 j b :
  (forall i, i ∈ l -> i < W /\ (N.of_nat (f i) < 2 ^ N.of_nat B)%N) ->
  (b < N.of_nat B)%N -> j < W ->
  N.testbit (build f l v0) (b + shift_of P j)
  = N.testbit v0 (b + shift_of P j) || (bool_decide (j ∈ l) && N.testbit (N.of_nat (f j)) b).
Proof.
  intros Hl Hb Hj. revert v0 Hl. induction l as [|i l IH]; intros v0 Hl; cbn [build fold_left].
  - rewrite bool_decide_false by apply not_elem_of_nil. by rewrite orb_false_r.
  - change (fold_left _ l ?v) with (build f l v).
    destruct (Hl i ltac:(by left)) as [Hi Hfi].
    rewrite IH by (intros; apply Hl; by right).
    rewrite N.lor_spec, wshl_spec.
    pose proof (shift_lt_M i Hi). pose proof (shift_lt_M j Hj). pose proof (ok_B P OK).
    destruct (decide (i = j)) as [->|Hne].
    + rewrite (bool_decide_true (j ∈ j :: l)) by (by left).
      replace (b + shift_of P j - shift_of P j)%N with b by lia.
      unfold shift_of. cmps.
    + assert (Hz : (shift_of P i <=? b + shift_of P j)%N
                   && N.testbit (N.of_nat (f i)) (b + shift_of P j - shift_of P i) = false).
      { destruct (decide (i < j)) as [Hlt|Hge].
        - pose proof (mulB_le i j Hlt).
          rewrite (bits_lt_pow2 (N.of_nat (f i)) (N.of_nat B)); [by rewrite andb_false_r|done|].
          unfold shift_of; lia.
        - pose proof (mulB_le j i ltac:(lia)). unfold shift_of. cmps; bdone. }
      rewrite Hz. cbn [andb]. rewrite orb_false_r. f_equal. f_equal.
      apply bool_decide_ext. rewrite elem_of_cons. split; [by right|intros [?|?]; congruence].
Qed.
Lemma build_bits_low f l v0 b :
  (b < N.of_nat B)%N -> N.testbit (build f l v0) b = N.testbit v0 b.
Proof.
  intros Hb. revert v0. induction l as [|i l IH]; intros v0; cbn [build fold_left]; [done|].
  change (fold_left _ l ?v) with (build f l v). rewrite IH, N.lor_spec, wshl_spec.
  unfold shift_of. cmps; bdone.
Qed.
Lemma build_lt f l v0 : (v0 < 2^M)%N -> (build f l v0 < 2^M)%N.
Proof.
  revert v0. induction l as [|i l IH]; intros v0 H; cbn [build fold_left]; [done|].
  change (fold_left _ l ?v) with (build f l v). apply IH.
  apply lt_pow2_bits. intros n Hn. rewrite N.lor_spec, wshl_spec, (bits_lt_pow2 v0 M) by done.
  cmps; bdone.
Qed.

Lemma small_bits_high x j b : (x < 2 ^ N.of_nat B)%N -> N.testbit x (b + shift_of P j) = false.
Proof. intros H. apply (bits_lt_pow2 x (N.of_nat B)); [done|]. unfold shift_of; lia. Qed.

Lemma W_ltB x : x <= W -> (N.of_nat x < 2 ^ N.of_nat B)%N.
Proof. intros. pose proof (ok_WB P OK). lia. Qed.

Lemma W_lt_M : (N.of_nat W < 2 ^ M)%N.
Proof.
  pose proof (W_ltB W ltac:(lia)). eapply N.lt_le_trans; [done|].
  apply N.pow_le_mono_r; [lia|]. pose proof (ok_M P OK). nia.
Qed.

Lemma size_small x : x <= W -> p_size P (N.of_nat x) = x.
Proof.
  intros. apply Nat2N.inj. rewrite p_size_mod. apply N.mod_small, W_ltB; lia.
Qed.

Lemma empty_size : p_size P (p_empty P) = 0.
Proof.
  rewrite <- (size_small 0) by lia. apply p_size_inj_bits. intros b Hb.
  apply (build_bits_low (fun i => W - 1 - i)). done.
Qed.
Lemma empty_get j : j < W -> p_get P (p_empty P) j = W - 1 - j.
Proof.
  intros Hj. apply p_get_eq_nat; [apply W_ltB; lia|]. intros b Hb.
  pose proof (build_bits (fun i => W - 1 - i) (seq 0 W) 0 j b) as Hbb.
  unfold build in Hbb. unfold p_empty, p_initial. rewrite Hbb; [|..|done|done].
  - rewrite bool_decide_true by (apply elem_of_seq; lia).
    rewrite N.bits_0. reflexivity.
  - intros i [? ?]%elem_of_seq. split; [lia|]. apply W_ltB; lia.
Qed.
Lemma empty_lt : (p_empty P < 2^M)%N.
Proof. apply (build_lt (fun i => W - 1 - i)). pose proof (N.pow_nonzero 2 M). lia. Qed.

Lemma sorted_bits j b : j < W -> (b < N.of_nat B)%N ->
  N.testbit (p_sorted P) (b + shift_of P j) = N.testbit (N.of_nat j) b.
Proof.
  intros Hj Hb. pose proof (build_bits id (seq 0 W) 0 j b) as Hbb.
  unfold build, id in Hbb. unfold p_sorted. rewrite Hbb; [|..|done|done].
  - rewrite bool_decide_true by (apply elem_of_seq; lia). by rewrite N.bits_0.
  - intros i [? ?]%elem_of_seq. split; [lia|]. apply W_ltB; lia.
Qed.
Lemma sorted_bits_low b : (b < N.of_nat B)%N -> N.testbit (p_sorted P) b = false.
Proof.
  intros Hb. pose proof (build_bits_low id (seq 0 W) 0 b Hb) as H.
  unfold build, id in H. unfold p_sorted. by rewrite H.
Qed.
Lemma sorted_lt : (p_sorted P < 2^M)%N.
Proof. apply (build_lt id). pose proof (N.pow_nonzero 2 M). lia. Qed.

Lemma make_sorted_get n j : n <= W -> j < W ->
  p_get P (p_make_sorted P n) j = if Nat.ltb j n then j else W - 1 - (j - n).
Proof.
  intros Hn Hj. unfold p_make_sorted. destruct (Nat.eqb_spec n W) as [->|Hne].
  - destruct (Nat.ltb_spec j W); [|lia].
    apply p_get_eq_nat; [apply W_ltB; lia|]. intros b Hb.
    rewrite N.lor_spec, sorted_bits by done.
    rewrite small_bits_high by (apply W_ltB; lia). by rewrite orb_false_r.
  - set (v1 := fold_left _ (seq 0 n) _).
    assert (Hv1 : forall b, (b < N.of_nat B)%N ->
      N.testbit v1 (b + shift_of P j) = bool_decide (j ∈ seq 0 n) && N.testbit (N.of_nat j) b).
    { intros b Hb. pose proof (build_bits id (seq 0 n) (N.of_nat n) j b) as Hbb.
      unfold build, id in Hbb. unfold v1. rewrite Hbb; [|..|done|done].
      - rewrite small_bits_high by (apply W_ltB; lia). done.
      - intros i [? ?]%elem_of_seq. split; [lia|]. apply W_ltB; lia. }
    set (f := fun pos => W - 1 - (pos - n)).
    change (fold_left _ (seq n (W - n)) v1) with (build f (seq n (W-n)) v1).
    apply p_get_eq_nat; [apply W_ltB; destruct (Nat.ltb_spec j n); lia|]. intros b Hb.
    rewrite build_bits; [|..|done|done].
    + rewrite Hv1 by done. destruct (Nat.ltb_spec j n).
      * rewrite bool_decide_true by (apply elem_of_seq; lia).
        rewrite bool_decide_false by (rewrite elem_of_seq; lia). bdone.
      * rewrite bool_decide_false by (rewrite elem_of_seq; lia).
        rewrite bool_decide_true by (apply elem_of_seq; lia). reflexivity.
    + intros i [? ?]%elem_of_seq. split; [lia|]. apply W_ltB. unfold f. lia.
Qed.
Lemma make_sorted_size n : n <= W -> p_size P (p_make_sorted P n) = n.
Proof.
  intros Hn. transitivity (p_size P (N.of_nat n)); [|by apply size_small]. unfold p_make_sorted.
  destruct (Nat.eqb_spec n W) as [->|Hne]; apply p_size_inj_bits; intros b Hb.
  - rewrite N.lor_spec, sorted_bits_low by done. done.
  - set (f := fun pos => W - 1 - (pos - n)).
    change (fold_left _ (seq n (W - n)) ?v) with (build f (seq n (W-n)) v).
    rewrite build_bits_low by done.
    apply (build_bits_low id); done.
Qed.
Lemma make_sorted_lt n : n <= W -> (p_make_sorted P n < 2^M)%N.
Proof.
  intros Hn. unfold p_make_sorted. pose proof W_lt_M. destruct (Nat.eqb_spec n W) as [->|Hne].
  - apply lt_pow2_bits. intros k Hk. rewrite N.lor_spec.
    rewrite (bits_lt_pow2 _ M) by (done || apply sorted_lt).
    rewrite (bits_lt_pow2 _ M) by done. done.
  - set (f := fun pos => W - 1 - (pos - n)).
    change (fold_left _ (seq n (W - n)) ?v) with (build f (seq n (W-n)) v).
    apply build_lt. apply (build_lt id). lia.
Qed.

(** permuter.rs' make_sorted (mask variant) is the same word *)
Lemma p15_make_sorted_same n : n <= W -> p15_make_sorted P n = p_make_sorted P n.
Proof.
  intros Hn. unfold p15_make_sorted, p_make_sorted.
  destruct (Nat.eqb_spec n W) as [->|Hne]; [done|]. f_equal.
  pose proof (ok_M P OK). pose proof (ok_B P OK). pose proof W_lt_M.
  assert (HnB : n * B + B + B <= pM P) by nia.
  apply N.bits_inj; intros k. rewrite N.lor_spec, N.land_spec, wshl_spec.
  rewrite wsub_low by lia.
  change (fold_left _ (seq 0 n) ?v) with (build id (seq 0 n) v).
  destruct (N.lt_ge_cases k (N.of_nat B)) as [Hlo|Hhi].
  { rewrite build_bits_low by done. cmps; bdone. }
  destruct (N.lt_ge_cases k (N.of_nat ((W+1) * B))) as [Hin|Hout].
  - (* k = b + shift_of j *)
    set (j := N.to_nat (k - N.of_nat B) / B). set (b := N.of_nat (N.to_nat (k - N.of_nat B) mod B)).
    pose proof (Nat.div_mod (N.to_nat (k - N.of_nat B)) B ltac:(lia)) as Hdm.
    pose proof (Nat.mod_upper_bound (N.to_nat (k - N.of_nat B)) B ltac:(lia)) as Hub.
    assert (Hk : k = (b + shift_of P j)%N) by (unfold b, shift_of, j; nia).
    assert (Hj : j < W) by (unfold j; apply Nat.div_lt_upper_bound; nia).
    assert (Hb : (b < N.of_nat B)%N) by (unfold b; lia).
    clearbody j b. clear Hdm Hub. rewrite Hk in *.
    rewrite build_bits; [|..|done|done].
    + rewrite sorted_bits by done. rewrite small_bits_high by (apply W_ltB; lia).
      cbn [orb]. unfold id. pose proof (shift_lt_M j Hj).
      destruct (decide (j < n)) as [Hjn|Hjn].
      * rewrite bool_decide_true by (apply elem_of_seq; lia). pose proof (mulB_le j n Hjn).
        unfold shift_of. cmps; bdone.
      * rewrite bool_decide_false by (rewrite elem_of_seq; lia).
        pose proof (mulB_leq n j ltac:(lia)).
        unfold shift_of. cmps; bdone.
    + intros i [? ?]%elem_of_seq. split; [lia|]. apply W_ltB. unfold id; lia.
  - (* above all fields both sides are zero *)
    assert (Hz : forall l v0, (forall i, i ∈ l -> i < W) -> N.testbit v0 k = false ->
                  N.testbit (build id l v0) k = false).
    { induction l as [|i l IH]; intros v0 Hl Hv0; cbn [build fold_left]; [done|].
      change (fold_left _ l ?v) with (build id l v). apply IH; [intros; apply Hl; by right|].
      rewrite N.lor_spec, Hv0, wshl_spec. cbn [orb].
      assert (Hi : i < W) by (apply Hl; by left).
      rewrite (bits_lt_pow2 (N.of_nat (id i)) (N.of_nat B)).
      - by rewrite andb_false_r.
      - apply W_ltB. unfold id; lia.
      - unfold shift_of. nia. }
    assert (Hnk : N.testbit (N.of_nat n) k = false).
    { apply (bits_lt_pow2 _ (N.of_nat B)); [apply W_ltB; lia|done]. }
    rewrite (Hz (seq 0 n)); [|intros i [? ?]%elem_of_seq; lia|done].
    rewrite Hnk.
    replace (N.testbit (p_sorted P) k) with false; [done|]. symmetry.
    apply (Hz (seq 0 W)); [intros i [? ?]%elem_of_seq; lia|]. apply N.bits_0.
Qed.

(** *** set_size, set *)
Lemma set_size_get v n j : n <= W -> j < W -> (v < 2^M)%N ->
  p_get P (p_set_size P v n) j = p_get P v j.
Proof.
  intros Hn Hj Hv. apply p_get_inj_bits. intros b Hb. unfold p_set_size. bits.
  rewrite (small_bits_high (N.of_nat n)) by (apply W_ltB; lia).
  pose proof (shift_lt_M j Hj). unfold shift_of. cmps; bdone.
Qed.
Lemma set_size_size v n : n <= W -> p_size P (p_set_size P v n) = n.
Proof.
  intros Hn. transitivity (p_size P (N.of_nat n)); [|by apply size_small].
  apply p_size_inj_bits. intros b Hb. unfold p_set_size. bits. cmps; bdone.
Qed.
Lemma set_size_lt v n : n <= W -> (v < 2^M)%N -> (p_set_size P v n < 2^M)%N.
Proof.
  intros Hn Hv. apply lt_pow2_bits. intros k Hk. unfold p_set_size. bits.
  rewrite (bits_lt_pow2 v M) by done. pose proof W_lt_M.
  rewrite (bits_lt_pow2 (N.of_nat n) M) by lia. done.
Qed.
Lemma set_get v i s j : i < W -> s < W -> j < W ->
  p_get P (p_set P v i s) j = if Nat.eqb j i then s else p_get P v j.
Proof.
  intros Hi Hs Hj. pose proof (shift_lt_M j Hj). pose proof (shift_lt_M i Hi).
  destruct (Nat.eqb_spec j i) as [->|Hne].
  - apply p_get_eq_nat; [apply W_ltB; lia|]. intros b Hb. unfold p_set. bits.
    unfold shift_of. cmps; bdone.
  - apply p_get_inj_bits. intros b Hb. unfold p_set. bits.
    destruct (decide (i < j)) as [Hlt|Hge].
    + pose proof (mulB_le i j Hlt).
      rewrite (bits_lt_pow2 (N.of_nat s) (N.of_nat B)) by
        (first [apply W_ltB; lia | unfold shift_of; lia]).
      unfold shift_of. cmps; bdone.
    + pose proof (mulB_le j i ltac:(lia)). unfold shift_of. cmps; bdone.
Qed.

Lemma set_size_same v i s : i < W -> p_size P (p_set P v i s) = p_size P v.
Proof.
  intros Hi. pose proof (shift_lt_M i Hi). pose proof (ok_B P OK).
  apply p_size_inj_bits. intros b Hb. unfold p_set. bits. unfold shift_of in *. cmps; bdone.
Qed.

(** *** exchange / swap_free_slots *)
Lemma exchange_get v i j k : i < W -> j < W -> k < W ->
  p_get P (p_exchange P v i j) k
  = if Nat.eqb k i then p_get P v j else if Nat.eqb k j then p_get P v i else p_get P v k.
Proof.
  intros Hi Hj Hk. unfold p_exchange.
  pose proof (shift_lt_M j Hj). pose proof (shift_lt_M i Hi). pose proof (shift_lt_M k Hk).
  destruct (Nat.eqb_spec i j) as [->|Hij].
  { destruct (Nat.eqb_spec k j) as [->|]; done. }
  assert (Hoff : forall a, a < W -> a <> k -> forall d b, (b < N.of_nat B)%N ->
     (d < 2 ^ N.of_nat B)%N -> N.testbit (wshl M d (shift_of P a)) (b + shift_of P k) = false).
  { intros a Ha Hak d b Hb Hd. rewrite wshl_spec. destruct (decide (a < k)) as [Hlt|Hge].
    - pose proof (mulB_le a k Hlt). rewrite (bits_lt_pow2 d (N.of_nat B)); [|done|unfold shift_of; lia].
      by rewrite andb_false_r.
    - pose proof (mulB_le k a ltac:(lia)). unfold shift_of. cmps; bdone. }
  set (diff := N.land _ (slot_mask P)).
  assert (Hd : (diff < 2 ^ N.of_nat B)%N).
  { unfold diff, slot_mask. rewrite N.land_ones. apply N.mod_lt, N.pow_nonzero; lia. }
  assert (Hdb : forall b, (b < N.of_nat B)%N -> N.testbit diff b =
       xorb (N.testbit v (b + shift_of P i)) (N.testbit v (b + shift_of P j))).
  { intros b Hb. unfold diff. bits. cmps; bdone. }
  clearbody diff.
  destruct (Nat.eqb_spec k i) as [->|Hki]; [|destruct (Nat.eqb_spec k j) as [->|Hkj]];
    apply p_get_inj_bits; intros b Hb; rewrite N.lxor_spec, N.lor_spec.
  - rewrite (Hoff j) by done. rewrite wshl_spec.
    replace (b + shift_of P i - shift_of P i)%N with b by lia. rewrite Hdb by done.
    unfold shift_of in *. cmps; bdone.
  - rewrite (Hoff i) by done. rewrite wshl_spec.
    replace (b + shift_of P j - shift_of P j)%N with b by lia. rewrite Hdb by done.
    unfold shift_of in *. cmps; bdone.
  - rewrite !Hoff by done. by rewrite xorb_false_r.
Qed.
Lemma exchange_size v i j : p_size P (p_exchange P v i j) = p_size P v.
Proof.
  unfold p_exchange. destruct (Nat.eqb i j); [done|]. apply p_size_inj_bits. intros b Hb.
  rewrite N.lxor_spec, N.lor_spec, !wshl_spec. unfold shift_of. cmps.
Qed.
Lemma exchange_lt v i j : (v < 2^M)%N -> (p_exchange P v i j < 2^M)%N.
Proof.
  intros Hv. unfold p_exchange. destruct (Nat.eqb i j); [done|]. apply lt_pow2_bits. intros b Hb.
  rewrite N.lxor_spec, N.lor_spec, !wshl_spec. rewrite (bits_lt_pow2 v M) by done.
  destruct (N.ltb_spec b M); [lia|]. by rewrite !andb_false_r.
Qed.

(** *** remove_to_back, remove, rotate *)
Lemma width_mask_spec n : (n < N.of_nat ((W + 1) * B))%N -> N.testbit (p_width_mask P) n = true.
Proof.
  intros Hn. pose proof (ok_M P OK). unfold p_width_mask.
  destruct (Nat.leb_spec (pM P) ((W+1) * B)).
  - rewrite wones_spec. apply N.ltb_lt. lia.
  - rewrite wsub_low by lia. apply N.ltb_lt; lia.
Qed.
Lemma width_mask_M n : (M <= n)%N -> N.testbit (p_width_mask P) n = false.
Proof.
  intros Hn. unfold p_width_mask. destruct (Nat.leb_spec (pM P) ((W+1) * B)).
  - rewrite wones_spec. apply N.ltb_ge. lia.
  - rewrite wsub_low by lia. apply N.ltb_ge; lia.
Qed.
Lemma width_mask_high n : (N.of_nat ((W + 1) * B) <= n)%N -> N.testbit (p_width_mask P) n = false.
Proof.
  intros Hn. pose proof (ok_M P OK). unfold p_width_mask.
  destruct (Nat.leb_spec (pM P) ((W+1) * B)).
  - rewrite wones_spec. apply N.ltb_ge. lia.
  - rewrite wsub_low by lia. apply N.ltb_ge; lia.
Qed.
Lemma masked_size v : p_size P (N.land v (p_width_mask P)) = p_size P v.
Proof.
  apply p_size_inj_bits. intros b Hb. rewrite N.land_spec, width_mask_spec by
    (pose proof (ok_B P OK); nia). bdone.
Qed.
Lemma field_in j b : j < W -> (b < N.of_nat B)%N -> (b + shift_of P j < N.of_nat ((W+1) * B))%N.
Proof. intros. unfold shift_of. nia. Qed.

Lemma remove_to_back_get v i j :
  (v < 2^M)%N -> i < p_size P v -> p_size P v <= W -> j < W ->
  p_get P (p_remove_to_back P v i) j
  = if Nat.ltb j i then p_get P v j
    else if Nat.eqb j (W - 1) then p_get P v i else p_get P v (j + 1).
Proof.
  intros Hv Hi Hs Hj. unfold p_remove_to_back.
  set (x := N.land v (p_width_mask P)).
  assert (Hxs : p_size P x = p_size P v) by apply masked_size.
  assert (Hx : forall k b, k < W -> (b < N.of_nat B)%N ->
            N.testbit x (b + shift_of P k) = N.testbit v (b + shift_of P k)).
  { intros k b Hk Hb. unfold x. rewrite N.land_spec, width_mask_spec by (by apply field_in). bdone. }
  assert (Hxh : forall n, (N.of_nat ((W + 1) * B) <= n)%N -> N.testbit x n = false).
  { intros n Hn. unfold x. rewrite N.land_spec, width_mask_high by done. bdone. }
  clearbody x.
  pose proof (shift_lt_M i ltac:(lia)) as HiM. pose proof (shift_lt_M j Hj) as HjM.
  pose proof (ok_B P OK). pose proof (ok_M P OK).
  destruct (Nat.ltb_spec j i) as [Hlt|Hge]; [|destruct (Nat.eqb_spec j (W-1)) as [->|Hne]];
    apply p_get_inj_bits; intros b Hb; bits; rewrite !wsub_low by (unfold shift_of; lia).
  - pose proof (mulB_le j i Hlt). pose proof (mulB_leq i (W-1) ltac:(lia)).
    rewrite wsub1_bit by (unfold shift_of; lia). rewrite Hx by (done || lia).
    assert (Hsm : (N.of_nat ((W - 1 - i) * B) <=? b + shift_of P j)%N
          && (N.testbit x (b + shift_of P j - N.of_nat ((W - 1 - i) * B))
              && (negb (b + shift_of P j - N.of_nat ((W - 1 - i) * B) <? shift_of P i)%N
                  && (b + shift_of P j - N.of_nat ((W - 1 - i) * B) <? M)%N)) = false).
    { unfold shift_of. cmps; bdone. }
    rewrite Hsm. unfold shift_of. cmps; bdone.
  - assert (Hsh : (b + shift_of P (W - 1) - N.of_nat ((W - 1 - i) * B) = b + shift_of P i)%N)
      by (unfold shift_of; nia).
    rewrite Hsh. rewrite Hx by (done || lia).
    assert (Hz : N.testbit x (b + shift_of P (W - 1) + N.of_nat B) = false).
    { apply Hxh. unfold shift_of. nia. }
    rewrite Hz.
    assert (N.of_nat ((W - 1 - i) * B) <= b + shift_of P (W-1))%N by (unfold shift_of; nia).
    pose proof (mulB_leq i (W-1) ltac:(lia)).
    unfold shift_of in *. cmps; bdone.
  - pose proof (mulB_leq i j ltac:(lia)).
    replace (b + shift_of P j + N.of_nat B)%N with (b + shift_of P (j+1))%N
      by (unfold shift_of; nia).
    rewrite Hx by (done || lia).
    assert (Hsm : (N.of_nat ((W - 1 - i) * B) <=? b + shift_of P j)%N
          && (N.testbit x (b + shift_of P j - N.of_nat ((W - 1 - i) * B))
              && (negb (b + shift_of P j - N.of_nat ((W - 1 - i) * B) <? shift_of P i)%N
                  && (b + shift_of P j - N.of_nat ((W - 1 - i) * B) <? M)%N)) = false).
    { assert (b + shift_of P j < N.of_nat ((W - 1 - i) * B) + shift_of P i)%N
        by (unfold shift_of; nia).
      cmps; bdone. }
    rewrite Hsm. unfold shift_of. cmps; bdone.
Qed.

Lemma wsub_size v : 0 < p_size P v -> p_size P (v - 1)%N = p_size P v - 1.
Proof.
  intros H. apply Nat2N.inj. rewrite p_size_mod, sub_low_mod.
  - rewrite <- p_size_mod. lia.
  - rewrite <- p_size_mod. lia.
Qed.

Lemma remove_to_back_size v i :
  (v < 2^M)%N -> i < p_size P v -> p_size P v <= W ->
  p_size P (p_remove_to_back P v i) = p_size P v - 1.
Proof.
  intros Hv Hi Hs. unfold p_remove_to_back.
  set (x := N.land v (p_width_mask P)).
  assert (Hxs : p_size P x = p_size P v) by apply masked_size. clearbody x.
  rewrite <- Hxs, <- wsub_size by lia. apply p_size_inj_bits. intros b Hb.
  pose proof (shift_lt_M i ltac:(lia)) as HiM. pose proof (ok_B P OK).
  bits; rewrite !wsub_low by (unfold shift_of; lia). unfold wsub. bits.
  unfold shift_of. cmps; bdone.
Qed.
Lemma remove_to_back_lt v i : i < W -> (p_remove_to_back P v i < 2^M)%N.
Proof.
  intros Hi. apply lt_pow2_bits. intros n Hn. unfold p_remove_to_back.
  pose proof (shift_lt_M i ltac:(lia)) as HiM. pose proof (ok_B P OK) as HokB.
  bits; rewrite !wsub_low by (unfold shift_of; lia). unfold wsub. bits.
  rewrite width_mask_M by lia. bits.
  unfold shift_of. cmps; bdone.
Qed.

Lemma rot_mask_spec sz i n : sz <= W -> i + 1 < sz ->
  N.testbit (wshl M (wsub M (wshl M (wshl M 1 (N.of_nat ((sz - i - 1) * B))) (N.of_nat B)) 1) (shift_of P i)) n
  = (shift_of P i <=? n)%N && (n <? N.of_nat (sz * B + B))%N.
Proof.
  intros Hs Hi. pose proof (ok_M P OK). pose proof (ok_B P OK).
  assert (He : wshl M (wshl M 1 (N.of_nat ((sz - i - 1) * B))) (N.of_nat B)
          = wshl M 1 (N.of_nat ((sz - i) * B))).
  { apply N.bits_inj; intros k. rewrite !wshl_spec.
    replace ((sz - i) * B) with ((sz - i - 1) * B + B) by nia.
    assert ((sz - i - 1) * B + B <= pM P) by nia.
    destruct (N.ltb_spec k M); [|by rewrite !andb_false_r]. rewrite !andb_true_r.
    destruct (N.leb_spec (N.of_nat B) k); cbn [andb].
    - replace (k - N.of_nat B - N.of_nat ((sz - i - 1) * B))%N
        with (k - N.of_nat ((sz - i - 1) * B + B))%N by lia.
      cmps; bdone.
    - generalize ((sz - i - 1) * B); intros q. cmps; bdone. }
  rewrite He, wshl_spec, wsub_low by nia.
  replace (sz * B + B) with ((sz - i) * B + (i * B + B)) by nia.
  assert ((sz - i) * B + (i * B + B) <= pM P) by nia.
  unfold shift_of. cmps; bdone.
Qed.

Lemma remove_get v i j :
  (v < 2^M)%N -> i < p_size P v -> p_size P v <= W -> j < W ->
  p_get P (p_remove P v i) j
  = if Nat.ltb j i then p_get P v j
    else if Nat.ltb j (p_size P v - 1) then p_get P v (j + 1)
    else if Nat.eqb j (p_size P v - 1) then p_get P v i else p_get P v j.
Proof.
  intros Hv Hi Hs Hj. unfold p_remove. pose proof (ok_M P OK). pose proof (ok_B P OK).
  pose proof (shift_lt_M i ltac:(lia)) as HiM. pose proof (ok_B P OK) as HokB. pose proof (shift_lt_M j Hj) as HjM.
  destruct (Nat.eqb_spec (i + 1) (p_size P v)) as [He|Hne].
  { transitivity (p_get P v j).
    - apply p_get_inj_bits; intros b Hb. apply wsub1_bit; unfold shift_of; lia.
    - destruct (Nat.ltb_spec j i); [done|]. destruct (Nat.ltb_spec j (p_size P v - 1)); [lia|].
      destruct (Nat.eqb_spec j (p_size P v - 1)); [|done]. f_equal; lia. }
  set (rm := wshl M (wsub M _ 1) (shift_of P i)).
  assert (Hrm : forall n, N.testbit rm n
     = (shift_of P i <=? n)%N && (n <? N.of_nat (p_size P v * B + B))%N)
    by (intros; unfold rm; apply rot_mask_spec; lia).
  clearbody rm.
  set (sz := p_size P v) in *.
  assert (Hszb : sz * B + B <= pM P) by nia.
  assert (Hfield : forall k b, (b < N.of_nat B)%N -> k < sz ->
             (b + shift_of P k < N.of_nat (sz * B + B))%N).
  { intros k b Hb Hk. pose proof (mulB_le k sz Hk). unfold shift_of. lia. }
  assert (Hfield2 : forall k b, (b < N.of_nat B)%N -> sz <= k ->
             (N.of_nat (sz * B + B) <= b + shift_of P k)%N).
  { intros k b Hb Hk. pose proof (mulB_leq sz k Hk). unfold shift_of. lia. }
  destruct (Nat.ltb_spec j i) as [Hlt|Hge];
    [|destruct (Nat.ltb_spec j (sz - 1)) as [Hlt2|Hge2];
      [|destruct (Nat.eqb_spec j (sz - 1)) as [->|Hne2]]];
    apply p_get_inj_bits; intros b Hb; bits; rewrite !Hrm.
  - pose proof (mulB_le j i Hlt). rewrite wsub1_bit by (unfold shift_of; lia).
    unfold shift_of. cmps; bdone.
  - pose proof (Hfield j b Hb ltac:(lia)). pose proof (Hfield (j+1) b Hb ltac:(lia)).
    pose proof (mulB_leq i j Hge).
    replace (b + shift_of P j + N.of_nat B)%N with (b + shift_of P (j+1))%N
      by (unfold shift_of; nia).
    assert (Hz : (N.of_nat ((sz - i - 1) * B) <=? b + shift_of P j)%N &&
       (N.testbit v (b + shift_of P j - N.of_nat ((sz - i - 1) * B)) &&
        ((shift_of P i <=? b + shift_of P j - N.of_nat ((sz - i - 1) * B))%N &&
         (b + shift_of P j - N.of_nat ((sz - i - 1) * B) <? N.of_nat (sz * B + B))%N)) = false).
    { assert (b + shift_of P j < N.of_nat ((sz - i - 1) * B) + shift_of P i)%N
        by (unfold shift_of; nia).
      cmps; bdone. }
    rewrite Hz.
    assert (shift_of P i <= b + shift_of P j)%N by (unfold shift_of; lia).
    assert (shift_of P i <= b + shift_of P (j+1))%N by (unfold shift_of; nia).
    cmps; bdone.
  - pose proof (Hfield (sz-1) b Hb ltac:(lia)).
    replace (b + shift_of P (sz-1) + N.of_nat B)%N with (b + shift_of P sz)%N
      by (unfold shift_of; nia).
    pose proof (Hfield2 sz b Hb ltac:(lia)).
    replace (b + shift_of P (sz-1) - N.of_nat ((sz - i - 1) * B))%N with (b + shift_of P i)%N
      by (unfold shift_of; nia).
    assert (N.of_nat ((sz - i - 1) * B) <= b + shift_of P (sz - 1))%N by (unfold shift_of; nia).
    pose proof (Hfield i b Hb ltac:(lia)).
    assert (shift_of P i <= b + shift_of P (sz-1))%N by (unfold shift_of; nia).
    cmps; bdone.
  - pose proof (Hfield2 j b Hb ltac:(lia)). rewrite wsub1_bit by (unfold shift_of; lia).
    assert (b + shift_of P j < M)%N by (unfold shift_of; lia).
    cmps; bdone.
Qed.
Lemma remove_size v i :
  (v < 2^M)%N -> i < p_size P v -> p_size P v <= W ->
  p_size P (p_remove P v i) = p_size P v - 1.
Proof.
  intros Hv Hi Hs. unfold p_remove. pose proof (ok_M P OK). pose proof (ok_B P OK).
  rewrite <- wsub_size by lia.
  destruct (Nat.eqb_spec (i + 1) (p_size P v)) as [He|Hne].
  - apply p_size_inj_bits. intros b Hb. unfold wsub. bits. cmps; first [nia|bdone].
  - set (rm := wshl M (wsub M _ 1) (shift_of P i)).
  assert (Hrm : forall n, N.testbit rm n
     = (shift_of P i <=? n)%N && (n <? N.of_nat (p_size P v * B + B))%N)
    by (intros; unfold rm; apply rot_mask_spec; lia).
  clearbody rm.
    apply p_size_inj_bits. intros b Hb. bits. rewrite !Hrm. unfold wsub. bits.
    assert (B <= pM P) by nia.
    unfold shift_of. cmps; bdone.
Qed.
Lemma remove_lt v i :
  (v < 2^M)%N -> i < p_size P v -> p_size P v <= W -> (p_remove P v i < 2^M)%N.
Proof.
  intros Hv Hi Hs. apply lt_pow2_bits. intros n Hn. unfold p_remove.
  pose proof (ok_M P OK).
  destruct (Nat.eqb_spec (i + 1) (p_size P v)) as [He|Hne].
  - unfold wsub. bits. cmps; bdone.
  - set (rm := wshl M (wsub M _ 1) (shift_of P i)).
  assert (Hrm : forall n, N.testbit rm n
     = (shift_of P i <=? n)%N && (n <? N.of_nat (p_size P v * B + B))%N)
    by (intros; unfold rm; apply rot_mask_spec; lia).
  clearbody rm.
    bits. rewrite !Hrm. unfold wsub. bits.
    assert (p_size P v * B + B <= pM P) by nia. cmps; bdone.
Qed.

(** rotate (i,j): positions >= i are rotated left by j - i *)
Lemma rotate_get v i j k :
  (v < 2^M)%N -> i <= j -> j <= W -> k < W ->
  p_get P (p_rotate P v i j) k
  = if Nat.ltb k i then p_get P v k
    else if Nat.ltb (k + (j - i)) W then p_get P v (k + (j - i))
    else p_get P v (k + (j - i) - W + i).
Proof.
  intros Hv Hij Hj Hk. unfold p_rotate.
  destruct (Nat.eqb_spec i j) as [->|Hne].
  { cbn [orb]. destruct (Nat.ltb_spec k j); [done|].
    destruct (Nat.ltb_spec (k + (j-j)) W); [|lia]. f_equal; lia. }
  destruct (Nat.eqb_spec i W) as [->|HneW].
  { cbn [orb]. destruct (Nat.ltb_spec k W); [done|lia]. }
  cbn [orb].
  set (x := N.land v (p_width_mask P)).
  assert (Hx : forall k b, k < W -> (b < N.of_nat B)%N ->
            N.testbit x (b + shift_of P k) = N.testbit v (b + shift_of P k)).
  { intros m b Hm Hb. unfold x. rewrite N.land_spec, width_mask_spec by (by apply field_in). bdone. }
  assert (Hxh : forall n, (N.of_nat ((W + 1) * B) <= n)%N -> N.testbit x n = false).
  { intros n Hn. unfold x. rewrite N.land_spec, width_mask_high by done. bdone. }
  clearbody x.
  pose proof (shift_lt_M i ltac:(lia)) as HiM. pose proof (ok_B P OK) as HokB. pose proof (shift_lt_M k Hk) as HkM.
  pose proof (ok_B P OK). pose proof (ok_M P OK).
  destruct (Nat.ltb_spec k i) as [Hlt|Hge]; [|destruct (Nat.ltb_spec (k + (j-i)) W) as [Hlt2|Hge2]];
    apply p_get_inj_bits; intros b Hb; bits; rewrite !wsub_low by (unfold shift_of; lia).
  - pose proof (mulB_le k i Hlt). rewrite Hx by (done || lia).
    assert (Hsm : (N.of_nat ((W - j) * B) <=? b + shift_of P k)%N
          && (N.testbit x (b + shift_of P k - N.of_nat ((W - j) * B))
              && (negb (b + shift_of P k - N.of_nat ((W - j) * B) <? shift_of P i)%N
                  && (b + shift_of P k - N.of_nat ((W - j) * B) <? M)%N)) = false).
    { assert (b + shift_of P k < N.of_nat ((W - j) * B) + shift_of P i)%N
        by (unfold shift_of; nia). cmps; bdone. }
    rewrite Hsm. unfold shift_of. cmps; bdone.
  - pose proof (mulB_leq i k Hge).
    replace (b + shift_of P k + N.of_nat ((j - i) * B))%N with (b + shift_of P (k + (j - i)))%N
      by (unfold shift_of; nia).
    rewrite (Hx (k + (j-i))) by (done || lia).
    assert (Hsm : (N.of_nat ((W - j) * B) <=? b + shift_of P k)%N
          && (N.testbit x (b + shift_of P k - N.of_nat ((W - j) * B))
              && (negb (b + shift_of P k - N.of_nat ((W - j) * B) <? shift_of P i)%N
                  && (b + shift_of P k - N.of_nat ((W - j) * B) <? M)%N)) = false).
    { assert (b + shift_of P k < N.of_nat ((W - j) * B) + shift_of P i)%N
        by (unfold shift_of; nia). cmps; bdone. }
    rewrite Hsm. unfold shift_of. cmps; bdone.
  - pose proof (mulB_leq i k Hge).
    replace (b + shift_of P k - N.of_nat ((W - j) * B))%N
      with (b + shift_of P (k + (j - i) - W + i))%N by (unfold shift_of; nia).
    rewrite (Hx (k + (j - i) - W + i)) by (done || lia).
    assert (Hz : N.testbit x (b + shift_of P k + N.of_nat ((j - i) * B)) = false).
    { apply Hxh. unfold shift_of. nia. }
    rewrite Hz.
    assert (N.of_nat ((W - j) * B) <= b + shift_of P k)%N by (unfold shift_of; nia).
    pose proof (mulB_leq i (k + (j - i) - W + i) ltac:(lia)).
    assert ((k + (j - i) - W + i) < W) as Hlt3 by lia.
    pose proof (shift_lt_M _ Hlt3).
    unfold shift_of in *. cmps; bdone.
Qed.
Lemma rotate_size v i j :
  i <= j -> j <= W -> p_size P (p_rotate P v i j) = p_size P v.
Proof.
  intros Hij Hj. unfold p_rotate. destruct (Nat.eqb_spec i j) as [->|Hne]; [done|].
  destruct (Nat.eqb_spec i W) as [->|HneW]; [done|]. cbn [orb].
  pose proof (shift_lt_M i ltac:(lia)) as HiM. pose proof (ok_B P OK) as HokB. pose proof (ok_B P OK).
  rewrite <- (masked_size v). apply p_size_inj_bits. intros b Hb.
  set (x := N.land v (p_width_mask P)). clearbody x.
  bits; rewrite !wsub_low by (unfold shift_of; lia).
  unfold shift_of. generalize ((W - j) * B) ((j - i) * B) (i * B). intros.
  cmps; bdone.
Qed.
Lemma rotate_lt v i j :
  (v < 2^M)%N -> i <= j -> j <= W -> (p_rotate P v i j < 2^M)%N.
Proof.
  intros Hv Hij Hj. unfold p_rotate. destruct (Nat.eqb_spec i j) as [->|Hne]; [done|].
  destruct (Nat.eqb_spec i W) as [->|HneW]; [done|]. cbn [orb].
  pose proof (shift_lt_M i ltac:(lia)) as HiM. pose proof (ok_B P OK) as HokB.
  apply lt_pow2_bits. intros n Hn.
  bits; rewrite !wsub_low by (unfold shift_of; lia).
  generalize ((W - j) * B) ((j - i) * B). intros q1 q2.
  rewrite (bits_lt_pow2 v M n), (width_mask_M (n + _)) by (done || lia).
  unfold shift_of. cmps; bdone.
Qed.
End Facts.
