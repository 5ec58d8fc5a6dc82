(** Proofs of the permutation laws of SpecPerm.v. *)
From Verif Require Import Base Perm PermFacts PermList SpecPerm.

Section L.
Context (P : pcfg) (OK : pcfg_ok P).
Local Notation W := (pW P).

Lemma perm_word_wf v : perm_word P v <-> p_wf P v.
Proof.
  unfold perm_word, is_permutation. split.
  - intros [Hlt [Hs [Hnd Hin]]]. split; [done..|].
    apply NoDup_Permutation; [done|apply NoDup_seq|]. intros s.
    change (p_slots P v) with (slots_of P v).
    rewrite Hin, elem_of_seq. lia.
  - intros [Hlt Hs Hp]. change (p_slots P v) with (slots_of P v) in Hp. split_and!; [done..| |].
    + rewrite Hp. apply NoDup_seq.
    + intros s. rewrite Hp, elem_of_seq. lia.
Qed.

Lemma step_wf v o : p_wf P v -> op_pre P v o -> p_wf P (op_apply P v o).
Proof.
  intros Hwf. destruct o; cbn [op_pre op_apply]; intros Hpre; destruct_and?.
  - by apply insert_wf.
  - by apply remove_wf.
  - by apply remove_to_back_wf.
  - by apply exchange_wf.
  - by apply rotate_wf.
  - apply exchange_wf; done || lia.
  - by apply set_size_wf.
Qed.
Lemma steps_wf l v : p_wf P v -> ops_pre P v l -> p_wf P (fold_left (op_apply P) l v).
Proof.
  revert v. induction l as [|o l IH]; intros v Hwf; cbn; [done|]. intros [Hp Hl].
  apply IH; [by apply step_wf|done].
Qed.
Lemma ops_permutation v l :
  v = p_empty P \/ (exists n, n <= W /\ v = p_make_sorted P n) ->
  ops_pre P v l -> is_permutation P (fold_left (op_apply P) l v).
Proof.
  intros Hv Hl. apply perm_word_wf. apply steps_wf; [|done].
  destruct Hv as [->|[n [Hn ->]]]; [by apply empty_wf|by apply make_sorted_wf].
Qed.

Lemma active_length v : p_size P v <= W -> length (active P v) = p_size P v.
Proof.
  intros. unfold active. rewrite take_length.
  pose proof (slots_length P v) as HL. change (p_slots P v) with (slots_of P v) in HL. lia.
Qed.

Lemma insert_law_holds : insert_law P.
Proof.
  intros v i Hw Hs Hi. destruct (p_insert_from_back P v i) as [v' slot] eqn:E.
  apply perm_word_wf in Hw.
  assert (Hv' : v' = (p_insert_from_back P v i).1) by (by rewrite E).
  assert (Hslot : slot = p_back P v) by (unfold p_insert_from_back in E; congruence).
  pose proof (slots_length P v) as HL.
  pose proof (slots_insert P OK v i Hw Hs Hi) as HS. rewrite <- Hv' in HS.
  pose proof (insert_size P OK v i Hs (wf_lt _ _ Hw) Hi) as Hsz. rewrite <- Hv' in Hsz.
  split; [apply perm_word_wf; rewrite Hv'; by apply insert_wf|].
  unfold active, free. change (slots_of P) with (p_slots P). rewrite Hsz, HS, Hslot.
  set (l := p_slots P v) in *. set (n := p_size P v) in *.
  assert (Hti : length (take i l) = i) by (rewrite take_length; lia).
  split.
  - rewrite (take_app_ge (take i l)) by lia. rewrite Hti, take_take.
    replace (i `min` n) with i by lia. f_equal.
    replace (S n - i) with (S (n - i)) by lia. cbn [take]. f_equal.
    rewrite !skipn_firstn_comm, take_take. f_equal. lia.
  - rewrite (drop_app_ge (take i l)) by lia. rewrite Hti.
    replace (S n - i) with (S (n - i)) by lia. cbn [drop].
    rewrite drop_drop. replace (i + (n - i)) with n by lia.
    unfold l at 1. rewrite (slots_split_last P OK v) at 1.
    rewrite drop_app_le; [done|]. rewrite take_length. fold l. lia.
Qed.

Lemma remove_law_holds : remove_law P.
Proof.
  intros v i s Hw Hs. apply perm_word_wf in Hw.
  pose proof (lookup_lt_Some _ _ _ Hs) as Hi. rewrite active_length in Hi by apply Hw.
  pose proof (wf_size _ _ Hw) as HW. pose proof (slots_length P v) as HL.
  assert (s = p_get P v i) as ->.
  { unfold active in Hs. rewrite lookup_take in Hs by done.
    change (slots_of P v) with (p_slots P v) in Hs. rewrite slots_lookup in Hs by lia. congruence. }
  split; [apply perm_word_wf; by apply remove_wf|].
  unfold active, free. change (slots_of P) with (p_slots P).
  rewrite remove_size by (done || apply Hw).
  rewrite slots_remove by done.
  set (l := p_slots P v) in *. set (n := p_size P v) in *.
  rewrite app_assoc.
  assert (Hlen : length (take i l ++ drop (i + 1) (take n l)) = n - 1)
    by (rewrite app_length, drop_length, !take_length; lia).
  rewrite take_app_alt, drop_app_alt by done. split; [|done].
  rewrite take_take. do 2 f_equal; lia.
Qed.
Lemma remove_to_back_law_holds : remove_to_back_law P.
Proof.
  intros v i s Hw Hs. apply perm_word_wf in Hw.
  pose proof (lookup_lt_Some _ _ _ Hs) as Hi. rewrite active_length in Hi by apply Hw.
  pose proof (wf_size _ _ Hw) as HW. pose proof (slots_length P v) as HL.
  assert (s = p_get P v i) as ->.
  { unfold active in Hs. rewrite lookup_take in Hs by done.
    change (slots_of P v) with (p_slots P v) in Hs. rewrite slots_lookup in Hs by lia. congruence. }
  split; [apply perm_word_wf; by apply remove_to_back_wf|].
  unfold active, free. change (slots_of P) with (p_slots P).
  rewrite remove_to_back_size by (done || apply Hw).
  rewrite slots_remove_to_back by done.
  set (l := p_slots P v) in *. set (n := p_size P v) in *.
  assert (Hti : length (take i l) = i) by (rewrite take_length; lia).
  split.
  - rewrite (take_app_ge (take i l)) by lia. rewrite Hti.
    rewrite take_app_le by (rewrite drop_length; lia).
    rewrite take_take, skipn_firstn_comm. f_equal; [f_equal; lia|].
    replace (S i) with (i + 1) by lia. f_equal. lia.
  - rewrite (drop_app_ge (take i l)) by lia. rewrite Hti.
    rewrite drop_app_le by (rewrite drop_length; lia).
    rewrite drop_drop. do 2 f_equal. lia.
Qed.
Lemma exchange_law_holds : exchange_law P.
Proof.
  intros v i j a b Hw Ha Hb. apply perm_word_wf in Hw.
  change (slots_of P) with (p_slots P) in *.
  apply slots_lookup_inv in Ha as [Hi ->]. apply slots_lookup_inv in Hb as [Hj ->].
  split_and!; [apply perm_word_wf; by apply exchange_wf|by apply exchange_size|by apply slots_exchange].
Qed.
Lemma swap_free_law_holds : swap_free_law P.
Proof.
  intros v i j Hw [Hi1 Hi] [Hj1 Hj]. apply perm_word_wf in Hw.
  unfold p_swap_free_slots, active.
  change (slots_of P) with (p_slots P) in *.
  split_and!; [apply perm_word_wf; by apply exchange_wf|..].
  - rewrite exchange_size, slots_exchange by done.
    rewrite !take_insert by lia. done.
  - rewrite exchange_get, Nat.eqb_refl by done. done.
  - rewrite exchange_get, Nat.eqb_refl by done. destruct (Nat.eqb_spec j i) as [->|]; done.
Qed.
Lemma rotate_law_holds : rotate_law P.
Proof.
  intros v i j Hw Hi Hj. apply perm_word_wf in Hw.
  split_and!; [apply perm_word_wf; by apply rotate_wf|by apply rotate_size|by apply slots_rotate].
Qed.
Lemma set_size_law_holds : set_size_law P.
Proof.
  intros v n Hw Hn. apply perm_word_wf in Hw.
  split_and!; [apply perm_word_wf; by apply set_size_wf|by apply set_size_size|by apply slots_set_size].
Qed.
Lemma empty_law_holds : empty_law P.
Proof.
  pose proof (ok_W P OK).
  split_and!; [by apply perm_word_wf, empty_wf|..].
  - unfold active. by rewrite empty_size.
  - pose proof (ok_W P OK). unfold p_back. rewrite empty_get by (done || lia). lia.
Qed.
Lemma make_sorted_law_holds : make_sorted_law P (p_make_sorted P).
Proof.
  intros n Hn. split_and!; [by apply perm_word_wf, make_sorted_wf|..].
  - unfold active. rewrite make_sorted_size by done. change (slots_of P) with (p_slots P).
    rewrite slots_make_sorted by done. rewrite take_app_alt; [done|]. by rewrite seq_length.
  - intros Hlt. pose proof (ok_W P OK). unfold p_back. rewrite make_sorted_get by (done || lia).
    destruct (Nat.ltb_spec (W - 1) n); lia.
Qed.
Lemma p15_make_sorted_law_holds : make_sorted_law P (p15_make_sorted P).
Proof. intros n Hn. rewrite p15_make_sorted_same by done. by apply make_sorted_law_holds. Qed.
Lemma valid_iff v : p_valid P v = true <-> is_permutation P v.
Proof.
  rewrite p_valid_iff by done. unfold is_permutation. change (slots_of P) with (p_slots P).
  split; intros [Hs Hp]; (split; [done|]).
  - split; [rewrite Hp; apply NoDup_seq|]. intros s. rewrite Hp, elem_of_seq. lia.
  - destruct Hp as [Hnd Hin]. apply NoDup_Permutation; [done|apply NoDup_seq|].
    intros s. rewrite Hin, elem_of_seq. lia.
Qed.
Lemma accessor_law_holds : accessor_law P.
Proof.
  intros v off Hw Ho. apply perm_word_wf in Hw. pose proof (slots_length P v) as HL.
  change (p_slots P v) with (slots_of P v) in HL. pose proof (ok_W P OK).
  assert (HF : length (free P v) = W - p_size P v) by (unfold free; rewrite drop_length; lia).
  assert (forall k, k < W - p_size P v -> free P v !! k = Some (p_get P v (p_size P v + k))) as HG.
  { intros k Hk. unfold free. rewrite lookup_drop. apply (slots_lookup P). lia. }
  rewrite last_lookup, HF. split.
  - rewrite HG by lia. unfold p_back. do 2 f_equal. lia.
  - rewrite HG by lia. unfold p_back_at_offset. do 2 f_equal. lia.
Qed.
Lemma set_law_holds : set_law P.
Proof.
  intros v i s Hw Hi Hs. pose proof (slots_length P v) as HL.
  change (p_slots P v) with (slots_of P v) in HL. split.
  - apply (slots_eq P); [by rewrite insert_length|]. intros j Hj. rewrite (set_get P OK) by done.
    destruct (Nat.eqb_spec j i) as [->|Hne].
    + apply list_lookup_insert. lia.
    + rewrite list_lookup_insert_ne by done. by apply (slots_lookup P).
  - by apply (set_size_same P OK).
Qed.
End L.

(** freezing of the one-word permuter (positions 13 and 14 exist for widths 14 and 15) *)
Lemma p15_frozen_get w v : p15_is_frozen_raw v = Nat.eqb (p_get (P15 w) v 13) 15.
Proof.
  unfold p15_is_frozen_raw, p_get. change (shift_of (P15 w) 13) with 56%N.
  change (slot_mask (P15 w)) with 15%N. set (x := N.land _ _). apply eq_true_iff_eq.
  rewrite N.eqb_eq, Nat.eqb_eq. lia.
Qed.
Lemma p15_freeze_bits v n : (n < 64)%N ->
  N.testbit (p15_freeze_raw v) n = if (56 <=? n)%N && (n <? 60)%N then true else N.testbit v n.
Proof.
  intros Hn. unfold p15_freeze_raw. rewrite N.lor_spec, N.land_spec, wnot_spec, wshl_spec.
  change 15%N with (wones 4) at 1 2. rewrite wones_spec.
  destruct (N.leb_spec 56 n), (N.ltb_spec n 60), (N.ltb_spec (n - 56) 4), (N.ltb_spec n 64);
    cbn [andb orb negb]; rewrite ?andb_false_r, ?andb_true_r, ?orb_false_r, ?orb_true_r; done || lia.
Qed.
Lemma p15_freeze w v : 14 <= w <= 15 -> perm_word (P15 w) v ->
  p15_is_frozen_raw v = false /\
  p15_is_frozen_raw (p15_freeze_raw v) = true /\
  p_size (P15 w) (p15_freeze_raw v) = p_size (P15 w) v /\
  (forall j, j < w -> j <> 13 -> p_get (P15 w) (p15_freeze_raw v) j = p_get (P15 w) v j).
Proof.
  intros Hw Hv. pose proof (P15_ok w ltac:(lia)) as OK. apply perm_word_wf in Hv. split_and!.
  - rewrite (p15_frozen_get w). apply Nat.eqb_neq.
    pose proof (wf_get_lt (P15 w) v 13 Hv ltac:(cbn; lia)) as H. cbn in H. lia.
  - rewrite (p15_frozen_get w). apply Nat.eqb_eq. apply p_get_eq_nat; [done|]. intros b Hb. cbn in Hb.
    change (shift_of (P15 w) 13) with 56%N. rewrite p15_freeze_bits by lia.
    destruct (N.leb_spec 56 (b + 56)), (N.ltb_spec (b + 56) 60); try lia. cbn [andb].
    change (N.of_nat 15) with (wones 4). rewrite wones_spec. symmetry. apply N.ltb_lt. lia.
  - apply p_size_inj_bits. intros b Hb. cbn in Hb. rewrite p15_freeze_bits by lia.
    destruct (N.leb_spec 56 b); [lia|done].
  - intros j Hj Hne. apply p_get_inj_bits. intros b Hb. cbn in Hb. unfold shift_of. cbn [pB P15].
    rewrite p15_freeze_bits by lia.
    destruct (N.leb_spec 56 (b + N.of_nat (j * 4 + 4))), (N.ltb_spec (b + N.of_nat (j * 4 + 4)) 60);
      cbn [andb]; try done; lia.
Qed.
