(** Proofs: the version word without synchronisation; the lock of a new split sibling. *)
From Verif Require Import Base Prog Version VersionTry SpecVersion VersionFacts VersionLaws VersionSt SpecVersionSt.

(** ** the two words inside a section: the shared one has its two lowest bits set *)
Definition held_of (w : N) : N := v_locked w.
Lemma held_gop g w : held_of (st_gop g w) = gw g (held_of w).
Proof.
  unfold held_of, v_locked. apply N.bits_inj. intros k.
  destruct g; cbn [st_gop gw]; unfold st_guard_mark_insert, st_guard_mark_split, st_guard_mark_deleted, st_guard_mark_nonroot, v_mark_nonroot;
    rewrite ?N.lor_spec, ?N.land_spec, ?N.lor_spec.
  - destruct (N.testbit w k), (N.testbit LOCK_BIT k), (N.testbit INSERTING_BIT k); done.
  - destruct (N.testbit w k), (N.testbit LOCK_BIT k), (N.testbit INSERTING_BIT k), (N.testbit SPLITTING_BIT k); done.
  - destruct (N.testbit w k), (N.testbit LOCK_BIT k), (N.testbit INSERTING_BIT k), (N.testbit SPLITTING_BIT k), (N.testbit DELETED_BIT k); done.
  - destruct (N.eq_dec k 0) as [->|H0]; [by cbn; rewrite !orb_true_r|]. destruct (N.eq_dec k 1) as [->|H1]; [by cbn; rewrite !orb_true_r|].
    assert (N.testbit LOCK_BIT k = false) as -> by (change LOCK_BIT with (2 ^ 0)%N; apply N.pow2_bits_false; congruence).
    assert (N.testbit INSERTING_BIT k = false) as -> by (change INSERTING_BIT with (2 ^ 1)%N; apply N.pow2_bits_false; congruence).
    by rewrite !orb_false_r.
Qed.
(** an unsynchronised word inside a section *)
Definition sw (w : N) : Prop := vok w /\ bit w 0 = false /\ bit w 1 = false.
Lemma sw_gop g w : sw w -> sw (st_gop g w).
Proof.
  intros (V & A & B). assert (vok (st_gop g w)).
  { destruct g; cbn [st_gop]; unfold st_guard_mark_insert, st_guard_mark_split, st_guard_mark_deleted; [done|..|exact (vok_mark_nonroot w V)];
      apply vok_lor; try done; by apply vok_const. }
  unfold sw. destruct g; cbn [st_gop] in *; unfold st_guard_mark_insert, st_guard_mark_split, st_guard_mark_deleted, st_guard_mark_nonroot in *; ands; try done; vbits; done.
Qed.
Lemma st_unlock_enc w : vok w ->
  v_st_unlock w = enc false false false (bump (bit w 2) true (vcnt w)) false (bit w 29) (negb (bit w 2) && bit w 30) (bit w 31).
Proof.
  intros Hw. unfold v_st_unlock. rewrite is_splitting_bit.
  destruct (bit w 2) eqn:E2.
  - transitivity (v_unlock w); [unfold v_unlock; by rewrite is_splitting_bit, E2|]. rewrite unlock_enc by done. by rewrite E2.
  - rewrite wadd_exact by (apply (vok_add w 1); [done|lia]).
    rewrite (vok_enc w Hw) at 1. change VINSERT_LOWBIT with (8 * 1)%N.
    destruct (enc_carry (bit w 0) (bit w 1) (bit w 2) (vcnt w) (bit w 29) (bit w 30) (bit w 31) 1 ltac:(lia) (vcnt_lt w)) as [un ->].
    by rewrite mask_plain by (apply N.mod_lt; discriminate).
Qed.
Lemma st_unlock_same w : sw w -> v_st_unlock w = v_unlock (held_of w).
Proof.
  intros (V & A & B). destruct (locked_W w V) as (V' & _). rewrite st_unlock_enc, unlock_enc by done.
  unfold held_of. rewrite locked_vcnt.
  assert (bit (v_locked w) 1 = true /\ bit (v_locked w) 2 = bit w 2 /\ bit (v_locked w) 29 = bit w 29 /\ bit (v_locked w) 30 = bit w 30 /\ bit (v_locked w) 31 = bit w 31) as (-> & -> & -> & -> & ->); [|done].
  unfold v_locked. ands; vbits; done.
Qed.
Lemma held_inserting w : bit (held_of w) 1 = true.
Proof. unfold held_of, v_locked. vbits. done. Qed.
Lemma gops_same l : forall w n, sw w ->
  let w' := fold_left (fun w g => st_gop g w) l w in
  sw w' /\ run (run_gops l (held_of w)) (mk_vmem (held_of w) n) = Ok (held_of w', mk_vmem (held_of w') n).
Proof.
  induction l as [|g l IH]; intros w n H; [done|]. cbn [fold_left run_gops].
  rewrite run_bind, run_gop_alone by apply held_inserting. rewrite <- held_gop. by apply IH, sw_gop.
Qed.
Lemma sop_same F o w n : clean w -> clean (st_sop o w).2 /\
  run (run_sop (S F) o) (mk_vmem w n) = Ok ((st_sop o w).1, mk_vmem (st_sop o w).2 n).
Proof.
  intros H. pose proof H as (V & A & B & C). destruct o as [l| | | |old|old| | |]; cbn [st_sop fst snd run_sop].
  - rewrite run_bind, run_lock_alone by done. unfold st_guard_drop, st_lock.
    destruct (gops_same l w (n + 1) (conj V (conj A B))) as [Hs R]. set (w' := fold_left _ l w) in *.
    rewrite st_unlock_same by done. split.
    + destruct Hs as (V1 & A1 & B1). destruct (locked_W w' V1) as (V2 & _). destruct (unlock_fields (v_locked w') V2) as (U0 & U1 & U2 & U3 & _). done.
    + unfold section. rewrite run_bind.
      change (run (enter ;;; (lv' <- run_gops l (v_locked w) ;; leave ;;; guard_drop vrd vwr lv')) (mk_vmem (v_locked w) n))
        with (run (lv' <- run_gops l (v_locked w) ;; leave ;;; guard_drop vrd vwr lv') (mk_vmem (v_locked w) (n + 1))).
      rewrite run_bind. change (v_locked w) with (held_of w). rewrite R. cbn -[v_unlock held_of]. unfold vwr. cbn -[v_unlock held_of]. by rewrite Nat.add_sub.
  - split; [|done]. unfold st_mark_root, clean. assert (vok (N.lor w ROOT_BIT)) by (by apply vok_lor, vok_const). ands; try done; vbits; done.
  - split; [|done]. unfold clean. pose proof (vok_mark_nonroot w V). unfold v_mark_nonroot, st_mark_nonroot in *. ands; try done; vbits; done.
  - split; [done|]. cbn -[v_is_dirty]. rewrite clean_not_dirty by done. done.
  - done.
  - done.
  - done.
  - done.
  - done.
Qed.
Lemma sops_same F l : forall w n, clean w ->
  run (run_sops (S F) l) (mk_vmem w n) = Ok ((st_sops l w).1, mk_vmem (st_sops l w).2 n).
Proof.
  induction l as [|o l IH]; intros w n H; [done|]. cbn [run_sops st_sops]. rewrite run_bind.
  destruct (sop_same F o w n H) as [H1 ->]. destruct (st_sop o w) as [a w1]. cbn [fst snd] in *.
  rewrite run_bind, (IH w1 n H1). by destruct (st_sops l w1).
Qed.
Lemma st_refines F is_leaf l :
  run (run_sops (S F) l) (mk_vmem (v_new is_leaf) 0) = Ok ((st_sops l (st_new is_leaf)).1, mk_vmem (st_sops l (st_new is_leaf)).2 0).
Proof. exact (sops_same F l (v_new is_leaf) 0 (proj1 (new_clean is_leaf))). Qed.

(** ** a new split sibling *)
Lemma split_locked_bits w : v_is_split_locked w = bit w 0 && bit w 2.
Proof. unfold v_is_split_locked. rewrite (land8 w 5) by reflexivity. by destruct (bit w 0), (bit w 1), (bit w 2). Qed.
(** where the creator is before it has unlocked *)
Definition creating (F : nat) (l : list vop) (w : N) (p : prog vmem unit) : Prop :=
  p = run_creator F l \/ p = (leave ;;; ver_unlock_for_split vrd vwr ;;; run_script F l) \/
  p = (ver_unlock_for_split vrd vwr ;;; run_script F l) \/
  exists v, bit v 0 = true /\ bit v 2 = true /\ vok v /\ p = (ver_store vrd vwr (v_unlock_for_split v) ;;; run_script F l).
Definition young (F : nat) (l : list vop) (c : config) : Prop :=
  vok (word c.1) /\ bit (word c.1) 0 = true /\ bit (word c.1) 2 = true /\
  (exists p, c.2 !! 0 = Some p /\ creating F l (word c.1) p) /\
  forall j p, j <> 0 -> c.2 !! j = Some p -> safe Out p vout.
Lemma young_step F l c i : young F l c -> locked (thread_step i c) = true -> young F l (thread_step i c).
Proof.
  intros (V & B0 & B2 & (p & Hp & Hc) & Hoth) HL. destruct c as [m ps]. cbn [fst snd] in *.
  destruct (decide (i = 0)) as [->|Hi].
  - unfold thread_step in *. cbn [fst snd] in *. rewrite Hp in *.
    assert (Hlen : 0 < length ps) by (apply lookup_lt_is_Some; eauto).
    assert (Hst : forall m' q, word m' = word m -> creating F l (word m) q -> young F l (m', <[0 := q]> ps)).
    { intros m' q Hw Hq. unfold young. cbn [fst snd]. rewrite Hw. ands; try done.
      - exists q. by rewrite list_lookup_insert.
      - intros j p' Hj Hq'. rewrite list_lookup_insert_ne in Hq' by done. eauto. }
    destruct Hc as [->|[->|[->|(v & Hv0 & Hv2 & HvV & ->)]]]; cbn in HL |- *.
    + apply Hst; [done|]. right. by left.
    + apply Hst; [done|]. right. right. by left.
    + apply Hst; [done|]. right. right. right. exists (word m). ands; try done.
      rewrite is_locked_bit, is_splitting_bit, B0, B2. done.
    + exfalso. unfold locked in HL. cbn in HL. fold (bit (v_unlock_for_split v) 0) in HL. rewrite unlock_for_split_eq in HL by done.
      destruct (unlock_fields v HvV) as (_ & U & _). congruence.
  - unfold thread_step in *. cbn [fst snd] in *. destruct (ps !! i) as [[a|e|R f k]|] eqn:Hpi; try (unfold young; cbn [fst snd]; by eauto 10).
    assert (Hlen : i < length ps) by (apply lookup_lt_is_Some; eauto).
    destruct (Hoth i _ Hi Hpi m (conj V I)) as (r & m' & h' & Ef & Ht & Hs). rewrite Ef in *.
    destruct h' as [|lv|lv]; cbn in Ht; [|destruct Ht as [Ht _]; congruence|done].
    destruct Ht as (V1 & E0 & E2 & _). unfold young. cbn [fst snd]. rewrite E0, E2. ands; try done.
    + exists p. rewrite list_lookup_insert_ne by done. split; [done|].
      destruct Hc as [?|[?|[?|?]]]; unfold creating; auto.
    + intros j p' Hj Hq. destruct (decide (j = i)) as [->|Hne].
      * rewrite list_lookup_insert in Hq by done. by injection Hq as <-.
      * rewrite list_lookup_insert_ne in Hq by done. eauto.
Qed.
Lemma young_exec F l s : forall c, young F l c -> releases s c = 0%N -> young F l (exec s c).
Proof.
  induction s as [|i s IH]; intros c H Hr; [done|]. cbn [exec fold_left releases] in *. fold (exec s (thread_step i c)).
  assert (locked c = true) as L by apply H. rewrite L in Hr. destruct (locked (thread_step i c)) eqn:L'; [|cbn in Hr; lia].
  apply IH; [by apply young_step|]. cbn in Hr. lia.
Qed.
Lemma holder_stays s o : forall c, releases s c = 0%N -> locked c = true -> holder o s c = o.
Proof.
  induction s as [|i s IH]; intros c H L; [done|]. cbn [releases holder] in *. rewrite L in *.
  destruct (locked (thread_step i c)) eqn:L'; [|cbn in H; lia]. apply IH; [cbn in H; lia|done].
Qed.
Lemma split_sibling F src s0 scripts sched : releases sched (start_split F src s0 scripts) = 0%N ->
  v_is_split_locked (word (exec sched (start_split F src s0 scripts)).1) = true /\
  holder (initial_holder (start_split F src s0 scripts)) sched (start_split F src s0 scripts) = Some 0.
Proof.
  intros H. assert (Y : young F s0 (start_split F src s0 scripts)).
  { destruct (split_W src) as (V & _). unfold young, start_split. cbn [fst snd word]. ands; try done.
    - unfold v_new_for_split. vbits. done.
    - unfold v_new_for_split. vbits. done.
    - eexists. split; [done|]. by left.
    - intros [|j] p Hj Hp; [done|]. change (map (run_script F) scripts !! j = Some p) in Hp. rewrite list_lookup_fmap in Hp.
      destruct (scripts !! j); [|done]. injection Hp as <-. apply safe_script. }
  split.
  - destruct (young_exec F s0 sched _ Y H) as (_ & B0 & B2 & _). by rewrite split_locked_bits, B0, B2.
  - assert (locked (start_split F src s0 scripts) = true) as L by apply Y. rewrite holder_stays by done. unfold initial_holder. by rewrite L.
Qed.
(** ** the check without a fence *)
Lemma simple_split c s1 s2 : initial c ->
  (releases s2 (exec s1 c) < 2 ^ 19)%N ->
  run (ver_simple_has_split vrd (word (exec s1 c).1)) (exec s2 (exec s1 c)).1 = Ok (false, (exec s2 (exec s1 c)).1) ->
  split_releases s2 (exec s1 c) = 0%N.
Proof. intros H1 H2 H3. apply no_split_means_no_split_release; [done|done|]. cbn -[v_has_split] in H3. by injection H3. Qed.
