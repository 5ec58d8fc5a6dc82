(** Arithmetic of version words. *)
From Verif Require Import Base Prog Version.
Local Open Scope N_scope.

Definition b2 (b : bool) : N := if b then 1 else 0.
(** a word from its fields: lock, inserting, splitting, counter, unused, deleted, root, leaf *)
Definition enc (lk ins spl : bool) (c : N) (un de ro lf : bool) : N :=
  b2 lk + 2 * b2 ins + 4 * b2 spl + 8 * c + 2 ^ 28 * b2 un + 2 ^ 29 * b2 de
  + 2 ^ 30 * b2 ro + 2 ^ 31 * b2 lf.

Lemma b2_le b : b2 b <= 1. Proof. destruct b; cbn; lia. Qed.

Lemma enc_lt lk ins spl c un de ro lf : c < 2 ^ 25 -> enc lk ins spl c un de ro lf < 2 ^ 32.
Proof.
  unfold enc. intros. pose proof (b2_le lk); pose proof (b2_le ins); pose proof (b2_le spl);
  pose proof (b2_le un); pose proof (b2_le de); pose proof (b2_le ro); pose proof (b2_le lf).
  change (2 ^ 25) with 33554432 in *. change (2^28) with 268435456. change (2^29) with 536870912.
  change (2^30) with 1073741824. change (2^31) with 2147483648. change (2^32) with 4294967296. lia.
Qed.

Definition bit (w k : N) : bool := N.testbit w k.
Definition vcnt (w : N) : N := (w / 8) mod 2 ^ 25.

Lemma bit_div w k : b2 (bit w k) = (w / 2 ^ k) mod 2.
Proof. unfold bit. pose proof (N.testbit_spec' w k) as H. destruct (N.testbit w k); exact H. Qed.

Lemma div_step w a b : a <> 0 -> b <> 0 -> w / a = b * (w / (a * b)) + (w / a) mod b.
Proof. intros. rewrite <- N.div_div by done. now apply N.div_mod. Qed.
Lemma enc_of w : w < 2 ^ 32 ->
  w = enc (bit w 0) (bit w 1) (bit w 2) (vcnt w) (bit w 28) (bit w 29) (bit w 30) (bit w 31).
Proof.
  intros Hw. unfold enc. rewrite !bit_div. unfold vcnt.
  change (2^0) with 1. change (2^1) with 2. change (2^2) with 4.
  change (2 ^ 25) with 33554432. change (2^28) with 268435456. change (2^29) with 536870912.
  change (2^30) with 1073741824. change (2^31) with 2147483648. change (2^32) with 4294967296 in *.
  pose proof (div_step w 1 2 ltac:(discriminate) ltac:(discriminate)) as E0.
  pose proof (div_step w 2 2 ltac:(discriminate) ltac:(discriminate)) as E1.
  pose proof (div_step w 4 2 ltac:(discriminate) ltac:(discriminate)) as E2.
  pose proof (div_step w 8 33554432 ltac:(discriminate) ltac:(discriminate)) as E3.
  pose proof (div_step w 268435456 2 ltac:(discriminate) ltac:(discriminate)) as E4.
  pose proof (div_step w 536870912 2 ltac:(discriminate) ltac:(discriminate)) as E5.
  pose proof (div_step w 1073741824 2 ltac:(discriminate) ltac:(discriminate)) as E6.
  pose proof (div_step w 2147483648 2 ltac:(discriminate) ltac:(discriminate)) as E7.
  pose proof (N.div_small _ _ Hw) as E8.
  change (1 * 2) with 2 in *. change (2 * 2) with 4 in *. change (4 * 2) with 8 in *.
  change (8 * 33554432) with 268435456 in *. change (268435456 * 2) with 536870912 in *.
  change (536870912 * 2) with 1073741824 in *. change (1073741824 * 2) with 2147483648 in *.
  change (2147483648 * 2) with 4294967296 in *. rewrite E8 in E7.
  pose proof (N.div_1_r w) as E9. clear Hw E8. revert E9.
  generalize dependent ((w / 1) mod 2). generalize dependent ((w / 2) mod 2). generalize dependent ((w / 4) mod 2).
  generalize dependent ((w / 8) mod 33554432). generalize dependent ((w / 268435456) mod 2).
  generalize dependent ((w / 536870912) mod 2). generalize dependent ((w / 1073741824) mod 2).
  generalize dependent ((w / 2147483648) mod 2). generalize (w / 1). generalize (w / 2). generalize (w / 4).
  generalize (w / 8). generalize (w / 268435456). generalize (w / 536870912). generalize (w / 1073741824).
  generalize (w / 2147483648). clear. intros. lia.
Qed.

Lemma enc_fields lk ins spl c un de ro lf : c < 2 ^ 25 ->
  let w := enc lk ins spl c un de ro lf in
  bit w 0 = lk /\ bit w 1 = ins /\ bit w 2 = spl /\ vcnt w = c /\ bit w 28 = un /\
  bit w 29 = de /\ bit w 30 = ro /\ bit w 31 = lf.
Proof.
  intros Hc w.
  assert (Hb : forall a b, b2 a = b2 b -> a = b) by (intros [] []; cbn; lia).
  assert (He : w = b2 lk + 2 * b2 ins + 4 * b2 spl + 8 * c + 268435456 * b2 un + 536870912 * b2 de
    + 1073741824 * b2 ro + 2147483648 * b2 lf) by reflexivity.
  pose proof (b2_le lk); pose proof (b2_le ins); pose proof (b2_le spl);
  pose proof (b2_le un); pose proof (b2_le de); pose proof (b2_le ro); pose proof (b2_le lf).
  change (2 ^ 25) with 33554432 in *.
  repeat split; try apply Hb; rewrite ?bit_div; unfold vcnt;
  change (2^0) with 1; change (2^1) with 2; change (2^2) with 4;
  change (2 ^ 25) with 33554432; change (2^28) with 268435456; change (2^29) with 536870912;
  change (2^30) with 1073741824; change (2^31) with 2147483648;
  generalize dependent (b2 lk); generalize dependent (b2 ins); generalize dependent (b2 spl);
  generalize dependent (b2 un); generalize dependent (b2 de); generalize dependent (b2 ro);
  generalize dependent (b2 lf); clear -Hc; intros; lia.
Qed.

(** equality of words bit by bit *)
Lemma word_eq a b : a < 2 ^ 32 -> b < 2 ^ 32 ->
  bit a 0 = bit b 0 -> bit a 1 = bit b 1 -> bit a 2 = bit b 2 -> vcnt a = vcnt b ->
  bit a 28 = bit b 28 -> bit a 29 = bit b 29 -> bit a 30 = bit b 30 -> bit a 31 = bit b 31 ->
  a = b.
Proof.
  intros Ha Hb E0 E1 E2 E3 E4 E5 E6 E7. rewrite (enc_of a Ha), (enc_of b Hb).
  rewrite E0, E1, E2, E3, E4, E5, E6, E7. reflexivity.
Qed.

Lemma vcnt_bits w : vcnt w = N.land (N.shiftr w 3) (N.ones 25).
Proof. rewrite N.land_ones, N.shiftr_div_pow2. reflexivity. Qed.
Lemma vcnt_bit w k : k < 25 -> N.testbit (vcnt w) k = bit w (k + 3).
Proof.
  intros. rewrite vcnt_bits, N.land_spec, N.shiftr_spec' , N.ones_spec_low by lia.
  now rewrite andb_true_r.
Qed.
Lemma vcnt_bit_high w k : 25 <= k -> N.testbit (vcnt w) k = false.
Proof. intros. rewrite vcnt_bits, N.land_spec, (N.ones_spec_high 25) by lia. apply andb_false_r. Qed.
Lemma vcnt_lt w : vcnt w < 2 ^ 25.
Proof. apply N.mod_lt. discriminate. Qed.

Lemma vcnt_ext a b : (forall k, 3 <= k < 28 -> bit a k = bit b k) -> vcnt a = vcnt b.
Proof.
  intros H. apply N.bits_inj. intros k. destruct (N.lt_ge_cases k 25).
  - rewrite !vcnt_bit by lia. apply H. lia.
  - now rewrite !vcnt_bit_high by lia.
Qed.

Lemma bit_lor a b k : bit (N.lor a b) k = bit a k || bit b k.
Proof. apply N.lor_spec. Qed.
Lemma bit_land a b k : bit (N.land a b) k = bit a k && bit b k.
Proof. apply N.land_spec. Qed.

Lemma lt32_bits w : (forall k, 32 <= k -> bit w k = false) -> w < 2 ^ 32.
Proof.
  intros H. destruct (N.eq_0_gt_0_cases w) as [->|Hp]; [reflexivity|].
  apply N.log2_lt_pow2; [lia|]. destruct (N.lt_ge_cases (N.log2 w) 32); [done|].
  specialize (H (N.log2 w) ltac:(lia)). unfold bit in H. rewrite N.bit_log2 in H by lia. discriminate.
Qed.
Lemma bits_lt32 w k : w < 2 ^ 32 -> 32 <= k -> bit w k = false.
Proof.
  intros Hw Hk. unfold bit. destruct (N.eq_0_gt_0_cases w) as [->|Hp]; [apply N.bits_0|].
  apply N.bits_above_log2. apply N.lt_le_trans with 32; [|done]. apply N.log2_lt_pow2; lia.
Qed.
Lemma lor_lt a b : a < 2 ^ 32 -> b < 2 ^ 32 -> N.lor a b < 2 ^ 32.
Proof. intros. apply lt32_bits. intros. now rewrite bit_lor, !bits_lt32. Qed.
Lemma land_lt a b : b < 2 ^ 32 -> N.land a b < 2 ^ 32.
Proof. intros. apply lt32_bits. intros. rewrite bit_land, (bits_lt32 b) by done. apply andb_false_r. Qed.

(** enumerate the bits 3..27 *)
Lemma bits_3_27 (Q : N -> Prop) :
  Forall Q [3;4;5;6;7;8;9;10;11;12;13;14;15;16;17;18;19;20;21;22;23;24;25;26;27] ->
  forall k, 3 <= k < 28 -> Q k.
Proof.
  intros H k Hk. rewrite Forall_forall in H. apply H.
  assert (k ∈ map N.of_nat (seq 3 25)); [|done].
  apply elem_of_list_fmap. exists (N.to_nat k). split; [lia|]. apply elem_of_seq. lia.
Qed.
Ltac enum_bits := apply bits_3_27; repeat (constructor; [reflexivity|]); constructor.
Lemma bit_const_and (b : bool) x k : bit x k = b -> forall w, bit (N.land w x) k = bit w k && b.
Proof. intros <- w. apply bit_land. Qed.

Ltac vb := repeat first [ rewrite bit_lor | rewrite bit_land ].

Lemma has_bit v k : v_has v (2 ^ k) = bit v k.
Proof.
  unfold v_has, bit. destruct (N.testbit v k) eqn:E.
  - destruct (N.eqb_spec (N.land v (2 ^ k)) 0) as [H|]; [|done].
    apply (f_equal (fun x => N.testbit x k)) in H.
    rewrite N.land_spec, N.bits_0, E, N.pow2_bits_true in H. discriminate.
  - apply negb_false_iff, N.eqb_eq, N.bits_inj. intros j. rewrite N.land_spec, N.bits_0.
    destruct (N.eq_dec j k) as [->|]; [now rewrite E|].
    rewrite N.pow2_bits_false by congruence. apply andb_false_r.
Qed.
Lemma is_locked_bit v : v_is_locked v = bit v 0. Proof. exact (has_bit v 0). Qed.
Lemma is_inserting_bit v : v_is_inserting v = bit v 1. Proof. exact (has_bit v 1). Qed.
Lemma is_splitting_bit v : v_is_splitting v = bit v 2. Proof. exact (has_bit v 2). Qed.
Lemma is_deleted_bit v : v_is_deleted v = bit v 29. Proof. exact (has_bit v 29). Qed.
Lemma is_root_bit v : v_is_root v = bit v 30. Proof. exact (has_bit v 30). Qed.
Lemma is_leaf_bit v : v_is_leaf v = bit v 31. Proof. exact (has_bit v 31). Qed.

Lemma land_small v m n : m < 2 ^ n -> N.land v m < 2 ^ n.
Proof.
  intros Hm. destruct (N.eq_0_gt_0_cases (N.land v m)) as [->|Hp]; [lia|].
  apply N.log2_lt_pow2; [lia|].
  destruct (N.eq_0_gt_0_cases m) as [->|]; [rewrite N.land_0_r in Hp; lia|].
  eapply N.le_lt_trans; [apply N.log2_land|].
  eapply N.le_lt_trans; [apply N.le_min_r|]. apply N.log2_lt_pow2; lia.
Qed.
Lemma land8 v m : m < 8 -> N.land v m = N.land (b2 (bit v 0) + 2 * b2 (bit v 1) + 4 * b2 (bit v 2)) m.
Proof.
  intros Hm. apply N.bits_inj. intros k. rewrite !N.land_spec.
  destruct (N.lt_ge_cases k 3) as [Hk|Hk].
  - f_equal. assert (k = 0 \/ k = 1 \/ k = 2) as [->|[->| ->]] by lia; unfold bit;
    destruct (N.testbit v 0), (N.testbit v 1), (N.testbit v 2); reflexivity.
  - assert (N.testbit m k = false) as ->; [|now rewrite !andb_false_r].
    destruct (N.eq_0_gt_0_cases m) as [->|]; [apply N.bits_0|].
    apply N.bits_above_log2. apply N.lt_le_trans with 3; [|done]. apply N.log2_lt_pow2; [lia|exact Hm].
Qed.
Lemma is_dirty_bits v : v_is_dirty v = bit v 1 || bit v 2.
Proof.
  unfold v_is_dirty, v_has, DIRTY_MASK. rewrite land8 by reflexivity.
  destruct (bit v 0), (bit v 1), (bit v 2); reflexivity.
Qed.
Lemma can_lock_bits v : v_can_lock v = negb (bit v 0) && negb (bit v 1) && negb (bit v 2).
Proof.
  unfold v_can_lock. change (N.lor LOCK_BIT DIRTY_MASK) with 7. rewrite land8 by reflexivity.
  destruct (bit v 0), (bit v 1), (bit v 2); reflexivity.
Qed.

Definition vok (w : N) : Prop := w < 2 ^ 32 /\ bit w 28 = false.

(** a word operation that only touches flag bits *)
Ltac flags := intros; apply vcnt_ext; enum_bits.

Lemma lor_vcnt w c : (forall k, 3 <= k < 28 -> bit c k = false) -> vcnt (N.lor w c) = vcnt w.
Proof. intros H. apply vcnt_ext. intros k Hk. now rewrite bit_lor, H, orb_false_r. Qed.
Lemma land_vcnt w c : (forall k, 3 <= k < 28 -> bit c k = true) -> vcnt (N.land w c) = vcnt w.
Proof. intros H. apply vcnt_ext. intros k Hk. now rewrite bit_land, H, andb_true_r. Qed.

Lemma locked_vcnt v : vcnt (v_locked v) = vcnt v.
Proof. unfold v_locked. rewrite !lor_vcnt; [done| |]; enum_bits. Qed.
Lemma ins_vcnt v : vcnt (N.lor v INSERTING_BIT) = vcnt v. Proof. apply lor_vcnt. enum_bits. Qed.
Lemma spl_vcnt v : vcnt (N.lor v SPLITTING_BIT) = vcnt v. Proof. apply lor_vcnt. enum_bits. Qed.
Lemma del_vcnt v : vcnt (N.lor v DELETED_BIT) = vcnt v. Proof. apply lor_vcnt. enum_bits. Qed.
Lemma root_vcnt v : vcnt (v_mark_root v) = vcnt v. Proof. apply lor_vcnt. enum_bits. Qed.
Lemma nonroot_vcnt v : vcnt (v_mark_nonroot v) = vcnt v. Proof. apply land_vcnt. enum_bits. Qed.

(** the counter after an unlock *)
Definition bump (spl ins : bool) (c : N) : N :=
  if spl then ((c / 64 + 1) * 64) mod 2 ^ 25 else (c + b2 ins) mod 2 ^ 25.

Lemma enc_carry lk ins spl c de ro lf x : x <= 64 -> c < 2 ^ 25 ->
  exists un, enc lk ins spl c false de ro lf + 8 * x = enc lk ins spl ((c + x) mod 2 ^ 25) un de ro lf.
Proof.
  intros Hx Hc.
  assert (E : forall c un, enc lk ins spl c un de ro lf = b2 lk + 2 * b2 ins + 4 * b2 spl + 8 * c
    + 268435456 * b2 un + 536870912 * b2 de + 1073741824 * b2 ro + 2147483648 * b2 lf) by reflexivity.
  change (2 ^ 25) with 33554432 in *. destruct (N.lt_ge_cases (c + x) 33554432).
  - exists false. rewrite N.mod_small by done. rewrite !E. lia.
  - exists true. assert ((c + x) mod 33554432 = c + x - 33554432) as -> by lia.
    rewrite !E. cbn [b2]. lia.
Qed.

Lemma wones32 : wones 32 = 2 ^ 32 - 1. Proof. reflexivity. Qed.
Lemma wadd_exact a b : a + b < 2 ^ 32 -> wadd 32 a b = a + b.
Proof. intros. unfold wadd, wones. rewrite N.land_ones. now apply N.mod_small. Qed.

Lemma mask_split lk ins spl c un de ro lf : c < 2 ^ 25 ->
  N.land (enc lk ins spl c un de ro lf) SPLIT_UNLOCK_MASK
  = enc false false false (64 * (c / 64)) false de false lf.
Proof.
  intros Hc. assert (Hc' : 64 * (c / 64) < 2 ^ 25) by (change (2^25) with 33554432 in *; lia).
  pose proof (enc_fields lk ins spl c un de ro lf Hc) as (H0 & H1 & H2 & H3 & H4 & H5 & H6 & H7).
  set (w := enc lk ins spl c un de ro lf) in *.
  pose proof (enc_fields false false false (64 * (c / 64)) false de false lf Hc')
    as (G0 & G1 & G2 & G3 & G4 & G5 & G6 & G7).
  set (w' := enc false false false (64 * (c / 64)) false de false lf) in *.
  assert (HV : vcnt (N.land w SPLIT_UNLOCK_MASK) = vcnt w').
  { rewrite G3. apply N.bits_inj. intros k.
    assert (Hx : 64 * (c / 64) = N.shiftl (N.shiftr c 6) 6).
    { rewrite N.shiftl_mul_pow2, N.shiftr_div_pow2. apply N.mul_comm. }
    destruct (N.lt_ge_cases k 25).
    - rewrite vcnt_bit, bit_land by done. rewrite <- vcnt_bit, H3, Hx by done.
      destruct (N.lt_ge_cases k 6).
      + rewrite N.shiftl_spec_low by done.
        assert (k = 0 \/ k = 1 \/ k = 2 \/ k = 3 \/ k = 4 \/ k = 5) as Hk by (clear -H8; lia).
        destruct Hk as [->|[->|[->|[->|[->| ->]]]]]; apply andb_false_r.
      + rewrite N.shiftl_spec_high', N.shiftr_spec' by done.
        replace (k - 6 + 6) with k by (clear -H8; lia).
        assert (bit SPLIT_UNLOCK_MASK (k + 3) = true) as ->; [|apply andb_true_r].
        assert (Hk : 9 <= k + 3 < 28) by (clear -H H8; lia). revert Hk. generalize (k + 3). clear.
        assert (A : forall k, 3 <= k < 28 -> 9 <= k -> bit SPLIT_UNLOCK_MASK k = true).
        { apply (bits_3_27 (fun k => 9 <= k -> bit SPLIT_UNLOCK_MASK k = true)).
          repeat (constructor; [intros; first [reflexivity|lia]|]). constructor. }
        intros; apply A; lia.
    - rewrite vcnt_bit_high by done. symmetry.
      unfold bit in *. destruct (N.eq_0_gt_0_cases (64 * (c / 64))) as [->|]; [apply N.bits_0|].
      apply N.bits_above_log2. apply N.lt_le_trans with 25; [|done]. now apply N.log2_lt_pow2. }
  apply word_eq; try done; rewrite ?bit_land.
  - apply land_lt. reflexivity.
  - now apply enc_lt.
  - rewrite G0. apply andb_false_r.
  - rewrite G1. apply andb_false_r.
  - rewrite G2. apply andb_false_r.
  - rewrite G4. apply andb_false_r.
  - rewrite G5, H5. apply andb_true_r.
  - rewrite G6. apply andb_false_r.
  - rewrite G7, H7. apply andb_true_r.
Qed.

Lemma mask_plain lk ins spl c un de ro lf : c < 2 ^ 25 ->
  N.land (enc lk ins spl c un de ro lf) UNLOCK_MASK = enc false false false c false de ro lf.
Proof.
  intros Hc. pose proof (enc_fields lk ins spl c un de ro lf Hc) as (H0 & H1 & H2 & H3 & H4 & H5 & H6 & H7).
  set (w := enc lk ins spl c un de ro lf) in *.
  pose proof (enc_fields false false false c false de ro lf Hc) as (G0 & G1 & G2 & G3 & G4 & G5 & G6 & G7).
  set (w' := enc false false false c false de ro lf) in *.
  apply word_eq; rewrite ?bit_land.
  - apply land_lt. reflexivity.
  - now apply enc_lt.
  - rewrite G0. apply andb_false_r.
  - rewrite G1. apply andb_false_r.
  - rewrite G2. apply andb_false_r.
  - rewrite land_vcnt; [congruence|enum_bits].
  - rewrite G4. apply andb_false_r.
  - rewrite G5, H5. apply andb_true_r.
  - rewrite G6, H6. apply andb_true_r.
  - rewrite G7, H7. apply andb_true_r.
Qed.

Lemma vok_enc w : vok w ->
  w = enc (bit w 0) (bit w 1) (bit w 2) (vcnt w) false (bit w 29) (bit w 30) (bit w 31).
Proof. intros [Hw Hu]. rewrite (enc_of w Hw) at 1. now rewrite Hu. Qed.

Lemma vok_add w x : vok w -> x <= 64 -> w + 8 * x < 2 ^ 32.
Proof.
  intros Hw Hx. rewrite (vok_enc w Hw).
  destruct (enc_carry (bit w 0) (bit w 1) (bit w 2) (vcnt w) (bit w 29) (bit w 30) (bit w 31) x Hx (vcnt_lt w))
    as [un E].
  rewrite E. apply enc_lt. apply N.mod_lt. discriminate.
Qed.

Lemma ins_shift w : wshl 32 (N.land w INSERTING_BIT) 2 = 8 * b2 (bit w 1).
Proof.
  unfold wshl. rewrite (land8 w INSERTING_BIT) by reflexivity.
  destruct (bit w 0), (bit w 1), (bit w 2); reflexivity.
Qed.

(** dropping a guard *)
Lemma unlock_enc w : vok w ->
  v_unlock w = enc false false false (bump (bit w 2) (bit w 1) (vcnt w)) false (bit w 29)
                   (negb (bit w 2) && bit w 30) (bit w 31).
Proof.
  intros Hw. unfold v_unlock. rewrite is_splitting_bit.
  destruct (bit w 2) eqn:E2.
  - rewrite wadd_exact by (apply (vok_add w 64); [done|lia]).
    rewrite (vok_enc w Hw) at 1. change VSPLIT_LOWBIT with (8 * 64).
    destruct (enc_carry (bit w 0) (bit w 1) (bit w 2) (vcnt w) (bit w 29) (bit w 30) (bit w 31) 64
      ltac:(lia) (vcnt_lt w)) as [un ->].
    rewrite mask_split by (apply N.mod_lt; discriminate). cbn [negb andb bump]. f_equal.
    pose proof (vcnt_lt w). revert H. generalize (vcnt w). clear. intros c H.
    change (2 ^ 25) with 33554432 in *. lia.
  - rewrite ins_shift. assert (Hb := b2_le (bit w 1)).
    rewrite wadd_exact by (apply vok_add; [done|lia]).
    rewrite (vok_enc w Hw) at 1.
    destruct (enc_carry (bit w 0) (bit w 1) (bit w 2) (vcnt w) (bit w 29) (bit w 30) (bit w 31) (b2 (bit w 1))
      ltac:(lia) (vcnt_lt w)) as [un ->].
    rewrite mask_plain by (apply N.mod_lt; discriminate). reflexivity.
Qed.
Lemma unlock_for_split_eq w : bit w 2 = true -> v_unlock_for_split w = v_unlock w.
Proof. intros H. unfold v_unlock. now rewrite is_splitting_bit, H. Qed.
Lemma bump_lt spl ins c : bump spl ins c < 2 ^ 25.
Proof. unfold bump. destruct spl; apply N.mod_lt; discriminate. Qed.

(** what an unlock does to the fields *)
Lemma unlock_fields w : vok w ->
  vok (v_unlock w) /\ bit (v_unlock w) 0 = false /\ bit (v_unlock w) 1 = false /\
  bit (v_unlock w) 2 = false /\ vcnt (v_unlock w) = bump (bit w 2) (bit w 1) (vcnt w) /\
  bit (v_unlock w) 29 = bit w 29 /\ bit (v_unlock w) 30 = negb (bit w 2) && bit w 30 /\
  bit (v_unlock w) 31 = bit w 31.
Proof.
  intros Hw. rewrite (unlock_enc w Hw).
  pose proof (enc_fields false false false (bump (bit w 2) (bit w 1) (vcnt w)) false (bit w 29)
    (negb (bit w 2) && bit w 30) (bit w 31) (bump_lt _ _ _)) as (H0 & H1 & H2 & H3 & H4 & H5 & H6 & H7).
  repeat split; try done. apply enc_lt, bump_lt.
Qed.
Lemma bump_growth spl ins c : spl || ins = true -> c < 2 ^ 25 ->
  exists d, 1 <= d <= 64 /\ bump spl ins c = (c + d) mod 2 ^ 25 /\
    (spl = true -> (c + d) / 64 = c / 64 + 1).
Proof.
  intros H Hc. unfold bump. destruct spl.
  - exists (64 - c mod 64). assert (Hm : c mod 64 < 64) by (apply N.mod_lt; discriminate).
    assert (E : (c / 64 + 1) * 64 = c + (64 - c mod 64)) by lia.
    split; [lia|]. split; [by rewrite E|]. intros _. rewrite <- E. apply N.div_mul. discriminate.
  - cbn in H. subst ins. exists 1. cbn. split; [lia|done].
Qed.

(** fields under the flag operations *)
Lemma vok_lor w c : vok w -> vok c -> vok (N.lor w c).
Proof. intros [A B] [C D]. split; [now apply lor_lt|]. now rewrite bit_lor, B, D. Qed.
Lemma vok_mark_nonroot w : vok w -> vok (v_mark_nonroot w).
Proof.
  intros [A B]. unfold v_mark_nonroot. split; [apply land_lt; reflexivity|]. now rewrite bit_land, B.
Qed.
Lemma vok_const c : c < 2 ^ 32 -> bit c 28 = false -> vok c. Proof. by split. Qed.
