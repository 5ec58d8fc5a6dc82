(** List-level view of the permutation operations: every operation acts on the list
    of slots as the obvious list operation, and keeps it a permutation. *)
From Verif Require Import Base Perm PermFacts.

Section L.
Context (P : pcfg) (OK : pcfg_ok P).
Local Notation B := (pB P).
Local Notation W := (pW P).
Local Notation M := (N.of_nat (pM P)).
Local Notation slots := (p_slots P).

Lemma slots_length v : length (slots v) = W.
Proof. unfold p_slots. by rewrite map_length, seq_length. Qed.
Lemma slots_lookup v j : j < W -> slots v !! j = Some (p_get P v j).
Proof. intros H. unfold p_slots. rewrite list_lookup_fmap, lookup_seq_lt by done. done. Qed.
Lemma slots_lookup_inv v j s : slots v !! j = Some s -> j < W /\ s = p_get P v j.
Proof.
  intros H. pose proof (lookup_lt_Some _ _ _ H) as Hl. rewrite slots_length in Hl.
  rewrite slots_lookup in H by done. split; congruence.
Qed.
Lemma slots_eq v l :
  length l = W -> (forall j, j < W -> l !! j = Some (p_get P v j)) -> slots v = l.
Proof.
  intros Hl H. apply list_eq_same_length with W; [done|apply slots_length|].
  intros j x y Hj Hx Hy. rewrite slots_lookup in Hx by done. rewrite H in Hy by done. congruence.
Qed.


Lemma slots_insert v i : p_wf P v -> p_size P v < W -> i <= p_size P v ->
  slots (p_insert_from_back P v i).1
  = take i (slots v) ++ p_back P v :: drop i (take (W - 1) (slots v)).
Proof.
  intros [Hlt _ _] Hs Hi. apply slots_eq.
  - rewrite app_length, take_length; cbn [length].
    rewrite drop_length, take_length, slots_length. lia.
  - intros j Hj. rewrite insert_get by done.
    destruct (Nat.ltb_spec j i).
    + rewrite lookup_app_l by (rewrite take_length, slots_length; lia).
      rewrite lookup_take, slots_lookup by lia. done.
    + rewrite lookup_app_r by (rewrite take_length, slots_length; lia).
      rewrite take_length, slots_length. replace (i `min` W) with i by lia.
      destruct (Nat.eqb_spec j i) as [->|Hne].
      * by rewrite Nat.sub_diag.
      * rewrite lookup_cons_ne_0 by lia. replace (pred (j - i)) with (j - i - 1) by lia.
        rewrite lookup_drop. replace (i + (j - i - 1)) with (j - 1) by lia.
        rewrite lookup_take, slots_lookup by lia. done.
Qed.

Lemma slots_split_last v : slots v = take (W - 1) (slots v) ++ [p_back P v].
Proof.
  pose proof (ok_W P OK).
  rewrite <- (take_drop (W-1) (slots v)) at 1. f_equal.
  rewrite (drop_S _ (p_get P v (W-1))) by (apply slots_lookup; lia).
  f_equal. rewrite drop_ge; [done|]. rewrite slots_length. lia.
Qed.

Lemma insert_wf v i : p_wf P v -> p_size P v < W -> i <= p_size P v ->
  p_wf P (p_insert_from_back P v i).1.
Proof.
  intros Hwf Hs Hi. split.
  - apply insert_lt; first [done|lia|apply Hwf].
  - rewrite insert_size; first [lia|done|apply Hwf].
  - rewrite slots_insert by done. rewrite <- (wf_perm _ _ Hwf).
    rewrite (slots_split_last v) at 3.
    rewrite <- (take_drop i (take (W-1) (slots v))) at 2.
    rewrite take_take. replace (i `min` (W - 1)) with i by lia.
    rewrite <- app_assoc. f_equiv. rewrite <- Permutation_cons_append. done.
Qed.

Lemma slots_remove_to_back v i : p_wf P v -> i < p_size P v ->
  slots (p_remove_to_back P v i) = take i (slots v) ++ drop (i + 1) (slots v) ++ [p_get P v i].
Proof.
  intros [Hlt Hs _] Hi. apply slots_eq.
  - rewrite !app_length, take_length, drop_length, slots_length; cbn [length]. lia.
  - intros j Hj. rewrite remove_to_back_get by done.
    destruct (Nat.ltb_spec j i).
    + rewrite lookup_app_l by (rewrite take_length, slots_length; lia).
      rewrite lookup_take, slots_lookup by lia. done.
    + rewrite lookup_app_r by (rewrite take_length, slots_length; lia).
      rewrite take_length, slots_length. replace (i `min` W) with i by lia.
      destruct (Nat.eqb_spec j (W-1)) as [->|Hne].
      * rewrite lookup_app_r by (rewrite drop_length, slots_length; lia).
        rewrite drop_length, slots_length. replace (W - 1 - i - (W - (i+1))) with 0 by lia. done.
      * rewrite lookup_app_l by (rewrite drop_length, slots_length; lia).
        rewrite lookup_drop, slots_lookup by lia. do 2 f_equal. lia.
Qed.
Lemma slots_split_at v i : i < W ->
  slots v = take i (slots v) ++ p_get P v i :: drop (i + 1) (slots v).
Proof.
  intros Hi. replace (i+1) with (S i) by lia. symmetry. apply take_drop_middle.
  by apply slots_lookup.
Qed.
Lemma remove_to_back_wf v i : p_wf P v -> i < p_size P v -> p_wf P (p_remove_to_back P v i).
Proof.
  intros Hwf Hi. pose proof (wf_size _ _ Hwf). split.
  - apply remove_to_back_lt; done || lia.
  - rewrite remove_to_back_size; first [lia|done|apply Hwf].
  - rewrite slots_remove_to_back by done. rewrite <- (wf_perm _ _ Hwf).
    rewrite (slots_split_at v i) at 3 by lia. f_equiv. by rewrite <- Permutation_cons_append.
Qed.

Lemma slots_remove v i : p_wf P v -> i < p_size P v ->
  slots (p_remove P v i)
  = take i (slots v) ++ drop (i + 1) (take (p_size P v) (slots v))
      ++ p_get P v i :: drop (p_size P v) (slots v).
Proof.
  intros [Hlt Hs _] Hi. apply slots_eq.
  - rewrite !app_length, take_length; cbn [length].
    rewrite !drop_length, take_length, slots_length. lia.
  - intros j Hj. rewrite remove_get by done.
    destruct (Nat.ltb_spec j i).
    + rewrite lookup_app_l by (rewrite take_length, slots_length; lia).
      rewrite lookup_take, slots_lookup by lia. done.
    + rewrite lookup_app_r by (rewrite take_length, slots_length; lia).
      rewrite take_length, slots_length. replace (i `min` W) with i by lia.
      destruct (Nat.ltb_spec j (p_size P v - 1)).
      * rewrite lookup_app_l by (rewrite drop_length, take_length, slots_length; lia).
        rewrite lookup_drop, lookup_take, slots_lookup by lia. do 2 f_equal. lia.
      * rewrite lookup_app_r by (rewrite drop_length, take_length, slots_length; lia).
        rewrite drop_length, take_length, slots_length.
        destruct (Nat.eqb_spec j (p_size P v - 1)) as [->|Hne].
        -- replace (_ - _ - _) with 0 by lia. done.
        -- rewrite lookup_cons_ne_0 by lia.
           rewrite lookup_drop, slots_lookup by lia. do 2 f_equal. lia.
Qed.
Lemma remove_wf v i : p_wf P v -> i < p_size P v -> p_wf P (p_remove P v i).
Proof.
  intros Hwf Hi. pose proof (wf_size _ _ Hwf). split.
  - apply remove_lt; done || apply Hwf.
  - rewrite remove_size; first [lia|done|apply Hwf].
  - rewrite slots_remove by done. rewrite <- (wf_perm _ _ Hwf).
    rewrite (slots_split_at v i) at 4 by lia. f_equiv.
    rewrite <- Permutation_middle. f_equiv.
    rewrite <- (take_drop (p_size P v) (slots v)) at 3.
    rewrite drop_app_le by (rewrite take_length, slots_length; lia). done.
Qed.

Lemma slots_exchange v i j : i < W -> j < W ->
  slots (p_exchange P v i j) = <[i := p_get P v j]> (<[j := p_get P v i]> (slots v)).
Proof.
  intros Hi Hj. apply slots_eq.
  - by rewrite !insert_length, slots_length.
  - intros k Hk. rewrite exchange_get by done.
    destruct (Nat.eqb_spec k i) as [->|Hne].
    + rewrite list_lookup_insert; [done|]. by rewrite insert_length, slots_length.
    + rewrite list_lookup_insert_ne by done.
      destruct (Nat.eqb_spec k j) as [->|Hne2].
      * rewrite list_lookup_insert; [done|]. by rewrite slots_length.
      * rewrite list_lookup_insert_ne by done. by apply slots_lookup.
Qed.
Lemma exchange_wf v i j : p_wf P v -> i < W -> j < W -> p_wf P (p_exchange P v i j).
Proof.
  intros Hwf Hi Hj. split.
  - apply exchange_lt; done || apply Hwf.
  - rewrite exchange_size; first [done|apply Hwf].
  - rewrite <- (wf_perm _ _ Hwf).
    apply NoDup_Permutation.
    + rewrite slots_exchange by done. apply NoDup_alt. intros a b x Ha Hb.
      assert (Hnd : NoDup (slots v)) by (rewrite (wf_perm _ _ Hwf); apply NoDup_seq).
      rewrite NoDup_alt in Hnd.
      pose proof (lookup_lt_Some _ _ _ Ha) as Hal. pose proof (lookup_lt_Some _ _ _ Hb) as Hbl.
      rewrite !insert_length, slots_length in Hal, Hbl.
      rewrite <- slots_exchange in Ha, Hb by done.
      rewrite slots_lookup, exchange_get in Ha, Hb by done.
      injection Ha as Ha. injection Hb as Hb. rewrite <- Hb in Ha. clear Hb.
      assert (Hinj : forall a b, a < W -> b < W -> p_get P v a = p_get P v b -> a = b).
      { intros a' b' Ha' Hb' E. apply (Hnd a' b' (p_get P v a')); [by apply slots_lookup|].
        rewrite slots_lookup by done. by f_equal. }
      destruct (Nat.eqb_spec a i), (Nat.eqb_spec b i), (Nat.eqb_spec a j), (Nat.eqb_spec b j);
        apply Hinj in Ha; subst; done || lia.
    + rewrite (wf_perm _ _ Hwf). apply NoDup_seq.
    + intros x. rewrite !elem_of_list_lookup. split.
      * intros [k Hk]. apply slots_lookup_inv in Hk as [Hk ->]. rewrite exchange_get by done.
        destruct (Nat.eqb k i); [exists j; by apply slots_lookup|].
        destruct (Nat.eqb k j); [exists i; by apply slots_lookup|].
        exists k; by apply slots_lookup.
      * intros [k Hk]. apply slots_lookup_inv in Hk as [Hk ->].
        destruct (decide (k = i)) as [->|Hki];
          [exists j|destruct (decide (k = j)) as [->|Hkj]; [exists i|exists k]];
          rewrite slots_lookup, exchange_get by done;
          repeat match goal with |- context [Nat.eqb ?a ?b] => destruct (Nat.eqb_spec a b) end;
          subst; done.
Qed.

Lemma slots_rotate v i j : p_wf P v -> i <= j -> j <= W ->
  slots (p_rotate P v i j) = take i (slots v) ++ drop j (slots v) ++ take (j - i) (drop i (slots v)).
Proof.
  intros [Hlt Hs _] Hi Hj. apply slots_eq.
  - rewrite !app_length, !take_length, !drop_length, slots_length. lia.
  - intros k Hk. rewrite rotate_get by done.
    destruct (Nat.ltb_spec k i).
    + rewrite lookup_app_l by (rewrite take_length, slots_length; lia).
      rewrite lookup_take, slots_lookup by lia. done.
    + rewrite lookup_app_r by (rewrite take_length, slots_length; lia).
      rewrite take_length, slots_length. replace (i `min` W) with i by lia.
      destruct (Nat.ltb_spec (k + (j-i)) W).
      * rewrite lookup_app_l by (rewrite drop_length, slots_length; lia).
        rewrite lookup_drop, slots_lookup by lia. do 2 f_equal. lia.
      * rewrite lookup_app_r by (rewrite drop_length, slots_length; lia).
        rewrite drop_length, slots_length.
        rewrite lookup_take, lookup_drop, slots_lookup by lia. do 2 f_equal. lia.
Qed.
Lemma rotate_wf v i j : p_wf P v -> i <= j -> j <= W -> p_wf P (p_rotate P v i j).
Proof.
  intros Hwf Hi Hj. split.
  - apply rotate_lt; done || apply Hwf.
  - rewrite rotate_size; first [done|apply Hwf].
  - rewrite slots_rotate by done. rewrite <- (wf_perm _ _ Hwf).
    rewrite <- (take_drop i (slots v)) at 4. f_equiv.
    rewrite <- (take_drop (j - i) (drop i (slots v))) at 2. rewrite drop_drop.
    replace (i + (j - i)) with j by lia. apply Permutation_app_comm.
Qed.

Lemma slots_set_size v n : p_wf P v -> n <= W -> slots (p_set_size P v n) = slots v.
Proof.
  intros [Hlt _ _] Hn. apply slots_eq; [apply slots_length|]. intros j Hj.
  rewrite set_size_get, slots_lookup by done. done.
Qed.
Lemma set_size_wf v n : p_wf P v -> n <= W -> p_wf P (p_set_size P v n).
Proof.
  intros Hwf Hn. split.
  - apply set_size_lt; done || apply Hwf.
  - rewrite set_size_size; done.
  - rewrite slots_set_size by done. apply Hwf.
Qed.

Lemma rev_seq_lookup a n j : j < n -> rev (seq a n) !! j = Some (a + n - 1 - j).
Proof.
  revert a j. induction n as [|n IH]; intros a j Hj; [lia|].
  rewrite seq_S, rev_app_distr. cbn. destruct j as [|j]; cbn; [f_equal; lia|].
  rewrite IH by lia. f_equal. lia.
Qed.
Lemma slots_empty : slots (p_empty P) = rev (seq 0 W).
Proof.
  apply slots_eq; [by rewrite rev_length, seq_length|]. intros j Hj.
  rewrite empty_get, rev_seq_lookup by done. f_equal; lia.
Qed.
Lemma empty_wf : p_wf P (p_empty P).
Proof.
  split; [by apply empty_lt| rewrite empty_size by done; lia |].
  rewrite slots_empty. symmetry. apply Permutation_rev.
Qed.
Lemma slots_make_sorted n : n <= W -> slots (p_make_sorted P n) = seq 0 n ++ rev (seq n (W - n)).
Proof.
  intros Hn. apply slots_eq; [rewrite app_length, rev_length, !seq_length; lia|]. intros j Hj.
  rewrite make_sorted_get by done. destruct (Nat.ltb_spec j n).
  - rewrite lookup_app_l by (rewrite seq_length; lia). by rewrite lookup_seq_lt by lia.
  - rewrite lookup_app_r by (rewrite seq_length; lia). rewrite seq_length.
    rewrite rev_seq_lookup by lia. f_equal. lia.
Qed.
Lemma make_sorted_wf n : n <= W -> p_wf P (p_make_sorted P n).
Proof.
  intros Hn. split; [by apply make_sorted_lt| by rewrite make_sorted_size|].
  rewrite slots_make_sorted by done.
  replace W with (n + (W - n)) at 2 by lia. rewrite seq_app. cbn.
  f_equiv. symmetry. apply Permutation_rev.
Qed.

(** consequences used by the tree proofs *)
Lemma wf_get_lt v j : p_wf P v -> j < W -> p_get P v j < W.
Proof.
  intros Hwf Hj. assert (p_get P v j ∈ slots v) as Hin.
  { apply elem_of_list_lookup. exists j. by apply slots_lookup. }
  rewrite (wf_perm _ _ Hwf) in Hin. apply elem_of_seq in Hin. lia.
Qed.
Lemma wf_get_inj v i j : p_wf P v -> i < W -> j < W -> p_get P v i = p_get P v j -> i = j.
Proof.
  intros Hwf Hi Hj E.
  assert (Hnd : NoDup (slots v)) by (rewrite (wf_perm _ _ Hwf); apply NoDup_seq).
  rewrite NoDup_alt in Hnd. apply (Hnd i j (p_get P v i)); rewrite slots_lookup by done; congruence.
Qed.
Lemma wf_get_surj v s : p_wf P v -> s < W -> exists j, j < W /\ p_get P v j = s.
Proof.
  intros Hwf Hs. assert (s ∈ slots v) as Hin.
  { rewrite (wf_perm _ _ Hwf). apply elem_of_seq. lia. }
  apply elem_of_list_lookup in Hin as [j Hj]. apply slots_lookup_inv in Hj as [? ->]. eauto.
Qed.

(** the debug validity check accepts exactly the words whose fields are a permutation *)
Lemma p_valid_iff v : p_valid P v = true <-> p_size P v <= W /\ slots v ≡ₚ seq 0 W.
Proof.
  unfold p_valid. rewrite !andb_true_iff, !forallb_forall, Nat.leb_le. split.
  - intros [[Hs Hlt] Hex]. split; [done|]. symmetry. 
    apply submseteq_Permutation_length_eq; [by rewrite slots_length, seq_length|].
    apply NoDup_submseteq; [apply NoDup_seq|]. intros s [_ Hin]%elem_of_seq.
    specialize (Hex s ltac:(apply in_seq; lia)). apply existsb_exists in Hex as [i [Hi He]].
    apply in_seq in Hi. apply Nat.eqb_eq in He. apply elem_of_list_lookup. exists i.
    rewrite slots_lookup by lia. by f_equal.
  - intros [Hs Hp]. split_and!; [done|..].
    + intros i Hi%in_seq. apply Nat.ltb_lt.
      assert (p_get P v i ∈ slots v) as Hin
        by (apply elem_of_list_lookup; exists i; apply slots_lookup; lia).
      rewrite Hp in Hin. apply elem_of_seq in Hin. lia.
    + intros s Hsq%in_seq. apply existsb_exists.
      assert (s ∈ slots v) as Hin by (rewrite Hp; apply elem_of_seq; lia).
      apply elem_of_list_lookup in Hin as [i Hi]. apply slots_lookup_inv in Hi as [Hi ->].
      exists i. split; [apply in_seq; lia|]. apply Nat.eqb_refl.
Qed.
End L.

(** *** freezing (24-slot words) *)
Lemma freeze_mask_spec n : N.testbit freeze_mask n = (120 <=? n)%N && (n <? 125)%N.
Proof.
  unfold freeze_mask. destruct (N.leb_spec 120 n); cbn [andb].
  - rewrite N.shiftl_spec_high' by done. change 31%N with (N.ones 5).
    pose proof (wones_spec 5 (n - 120)) as H0. unfold wones in H0. rewrite H0.
    destruct (N.ltb_spec (n-120) 5), (N.ltb_spec n 125); done || lia.
  - by rewrite N.shiftl_spec_low.
Qed.
Lemma shift23 : shift_of P24 23 = 120%N. Proof. reflexivity. Qed.
Lemma is_frozen_get v : is_frozen v = Nat.eqb (p_get P24 v 23) 31.
Proof.
  unfold is_frozen. apply eq_true_iff_eq. rewrite N.eqb_eq, Nat.eqb_eq. split.
  - intros H. apply p_get_eq_nat; [done|]. intros b Hb.
    assert (Hx : N.testbit (N.land v freeze_mask) (b + 120) = N.testbit freeze_mask (b + 120))
      by (by rewrite H).
    rewrite N.land_spec, freeze_mask_spec in Hx. cbn in Hb.
    assert (H1 : (120 <=? b + 120)%N = true) by (apply N.leb_le; lia).
    assert (H2 : (b + 120 <? 125)%N = true) by (apply N.ltb_lt; lia).
    rewrite H1, H2, andb_true_r in Hx. rewrite shift23, Hx. cbn [andb].
    change (N.of_nat 31) with (N.ones 5).
    pose proof (wones_spec 5 b) as H0. unfold wones in H0. rewrite H0. symmetry. apply N.ltb_lt. lia.
  - intros H. apply N.bits_inj; intros n. rewrite N.land_spec, freeze_mask_spec.
    destruct (N.leb_spec 120 n); cbn [andb]; [|apply andb_false_r].
    destruct (N.ltb_spec n 125); cbn [andb]; [|apply andb_false_r]. rewrite andb_true_r.
    pose proof (p_get_bits P24 v 23 (n - 120)) as Hb. rewrite H, shift23 in Hb.
    replace (n - 120 + 120)%N with n in Hb by lia. rewrite <- Hb by (cbn; lia).
    change (N.of_nat 31) with (N.ones 5).
    pose proof (wones_spec 5 (n-120)) as H0'. unfold wones in H0'. rewrite H0'. apply N.ltb_lt. lia.
Qed.
Lemma wf_not_frozen v : p_wf P24 v -> is_frozen v = false.
Proof.
  intros Hwf. rewrite is_frozen_get. apply Nat.eqb_neq.
  pose proof (wf_get_lt P24 v 23 Hwf ltac:(cbn; lia)) as H. cbn in H. lia.
Qed.
Lemma freeze_raw_bits v n : (n < 128)%N ->
  N.testbit (freeze_raw v) n = if (120 <=? n)%N && (n <? 125)%N then true else N.testbit v n.
Proof.
  intros Hn. unfold freeze_raw. rewrite N.lor_spec, N.land_spec, wnot_spec, freeze_mask_spec.
  destruct (N.ltb_spec n 128); [|lia].
  destruct ((120 <=? n)%N && (n <? 125)%N); cbn; [by rewrite orb_true_r|].
  by rewrite andb_true_r, orb_false_r.
Qed.
Lemma freeze_is_frozen v : is_frozen (freeze_raw v) = true.
Proof.
  unfold is_frozen. apply N.eqb_eq, N.bits_inj; intros n. unfold freeze_raw.
  rewrite N.land_spec, N.lor_spec. destruct (N.testbit freeze_mask n); rewrite ?orb_true_r; cbn;
    [done|apply andb_false_r].
Qed.
Lemma freeze_size v : p_size P24 (freeze_raw v) = p_size P24 v.
Proof.
  apply p_size_inj_bits. intros b Hb. cbn in Hb. rewrite freeze_raw_bits by lia.
  destruct (N.leb_spec 120 b); [lia|done].
Qed.
Lemma freeze_get v j : j < 23 -> p_get P24 (freeze_raw v) j = p_get P24 v j.
Proof.
  intros Hj. apply p_get_inj_bits. intros b Hb. cbn in Hb. unfold shift_of. cbn [pB P24].
  rewrite freeze_raw_bits by lia. destruct (N.leb_spec 120 (b + N.of_nat (j * 5 + 5))); [lia|done].
Qed.
Lemma unfreeze_freeze v : (v < 2 ^ 128)%N ->
  unfreeze_raw (freeze_raw v) (get_slot23 v) = v.
Proof.
  intros Hv. apply N.bits_inj; intros n. unfold unfreeze_raw.
  rewrite N.lor_spec, N.land_spec, wnot_spec, freeze_mask_spec, wshl_spec.
  destruct (N.ltb_spec n 128).
  - rewrite freeze_raw_bits by done. unfold get_slot23. change 31%N with (wones 5).
    rewrite N.land_spec, N.shiftr_spec', wones_spec.
    destruct (N.leb_spec 120 n), (N.ltb_spec n 125); cbn [andb negb orb];
      rewrite ?andb_true_r, ?orb_false_r; try lia; try done.
    + replace (n - 120 + 120)%N with n by lia.
      destruct (N.ltb_spec (n - 120) 5); [by rewrite andb_true_r|lia].
  - rewrite (bits_lt_pow2 v 128) by done. by rewrite !andb_false_r.
Qed.
