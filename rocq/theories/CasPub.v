(** Lock-free insertions running at the same time: the publication of a key. *)
From Verif Require Import Base Perm PermFacts PermList SpecPerm PermLaws Key SpecKey KeyFacts Suffix SpecSuffix SuffixFacts Prog Version VersionFacts VersionTry Mem Tree SpecTree SpecHist TreeState TreePrim TreeInv TreeRead TreeSplit TreeSkel TreeInode TreeProp TreeLeaf TreeContent TreeInsert TreeLayer TreeConv TreeLoop TreeTop TreeLaws Freeze CasInsert CasFacts CasConc CasSteps.

(** a value the memory did not know *)
Lemma St_val m s h v : St m s -> vals m !! h = None -> addr_ok (nxt m) h ->
  St (mwith_vals (<[h := v]> (vals m)) m) (setV (<[h := v]> (sV s)) (setfv (h :: sfv s) s)).
Proof.
  intros [Sh Sr Sc Sv Sn San Sab Sav Sov Sob Son] Hfr Ha.
  split; cbn [heap bags vals root cnt nxt retired tracked mwith_vals sA sR sC sV sfv sfn setV setfv]; try done.
  - congruence.
  - intros q. destruct (decide (q = h)) as [->|]; [done|]. rewrite lookup_insert_ne by done. auto.
  - eapply own_perm; [|apply (own_add _ _ h v Hfr Sov)]. change (h :: ?l) with ([h] ++ l). perm_tac.
Qed.

Section S.
Context (K : bytes -> N -> Prop) (B : N) (mb : mem) (sb : ast) (mu0 : gmap bytes N) (calls : list (bytes * N)).
Context (i : nat) (kb : bytes) (v : N) (Hkb : is_bytes kb) (Hk8 : length kb <= 8) (HK : K kb v) (Hcall : calls !! i = Some (kb, v)).
Local Notation CInv := (CInv K B mb sb mu0 calls).
Local Notation uph := (uph i).
Lemma put_pub w p g rt pa L l l' y j pos np h : CInv w ->
  wph w !! i = Some (Claimed p j (Some (be_word (pad8 kb))) (Some (N.of_nat (length kb))) h (Some h)) ->
  sA (ws w) !! p = Some (LF g MFree rt pa L) -> heap (wm w) !! p = Some (NLeaf l) -> heap (wt w) !! p = Some (NLeaf l') -> lb_sl L !! j = Some y ->
  g_lid g = MAIN -> (g_lo g <= be_word (pad8 kb) < g_hi g)%N -> searched L kb (NotFound pos) ->
  p_wf P24 np -> active_slots np = take pos (ids L) ++ j :: drop pos (ids L) ->
  let w' := mk_cw (mwith_heap (<[p := NLeaf (with_perm np l)]> (heap (wm w))) (wm w))
     (mwith_heap (<[p := NLeaf (with_val (<[j := h]> (l_val l')) (with_perm np l'))]> (heap (wt w))) (mwith_vals (<[h := v]> (vals (wt w))) (wt w)))
     (setfv [] (setA p (LF g MFree rt pa (add_leaf L (sset_ptr h y) np (lb_bg L) (lb_bud L) j)) (setV (<[h := v]> (sV (ws w))) (setfv [h] (ws w)))))
     (uph (Some Published) (wph w)) (<[kb := v]> (wmu w)) (i :: wpub w) (wcn w) in
  CInv w' /\ wmu w !! kb = None /\ forall k, k <> i -> Rely k w w'.
Proof.
  intros HI Hc Hp Hl Hl' Hy Hg Hik Hsr Hnw Hact w'.
  destruct (ci_t HI) as [T1 T2 T3 T4 T5 T6 T7 T8 T9]. pose proof (ci_m HI) as HM. destruct HM as [M1 M2 M3 M4 M5 M6 M7 M8].
  destruct (pi_cl (ci_p HI) _ _ _ _ _ _ _ Hc) as (Hh0 & g1 & rt1 & pa1 & L1 & y1 & C1 & Hj & C3 & C4 & C5).
  rewrite Hp in C1. injection C1 as <- <- <- <-. rewrite Hy in C3. injection C3 as <-. specialize (C4 _ eq_refl). specialize (C5 _ eq_refl).
  destruct (vi_3 (ci_v HI) _ _ _ Hc eq_refl) as (Hwt & Haddr & k0 & v0 & Ec & Hwm). rewrite Hcall in Ec. injection Ec as <- <-.
  pose proof (iv_l _ _ _ _ _ T2 _ _ _ _ _ _ Hp) as HL.
  destruct (lk_free _ _ _ _ _ _ HL _ _ Hy Hj) as [Hy0 Hys].
  assert (Hj24 : j < 24) by (rewrite <- (lk_len _ _ _ _ _ _ HL); by eapply lookup_lt_Some).
  set (y' := sset_ptr h y) in *. set (L' := add_leaf L y' np (lb_bg L) (lb_bud L) j) in *.
  destruct (leaf_at _ _ _ _ _ _ _ _ _ _ _ _ _ HI Hp) as (l1 & l2 & E1 & E2 & Hlov & Hrel & _).
  assert (l1 = l) as -> by congruence. assert (l2 = l') as -> by congruence. clear E1 E2.
  set (s1 := setV (<[h := v]> (sV (ws w))) (setfv [h] (ws w))) in *.
  assert (HS1 : St (mwith_vals (<[h := v]> (vals (wt w))) (wt w)) s1).
  { unfold s1. replace [h] with (h :: sfv (ws w)) by (by rewrite T4). apply St_val; [done|done|]. by rewrite <- M6. }
  assert (Hrest : rest_of y' kb).
  { unfold rest_of, y'. cbn. split; [done|]. split; [done|]. destruct (Nat.leb_spec (length kb) 8); [done|lia]. }
  assert (HS' : St (wt w') (ws w')).
  { cbn [wt ws w']. refine (St_node (mwith_vals (<[h := v]> (vals (wt w))) (wt w)) s1 p (LF g MFree rt pa L) _ (LF g MFree rt pa L') [] HS1 Hp _ eq_refl _).
    - destruct (St_leaf _ _ _ _ _ _ _ _ T1 Hp) as (l3 & Q1 & Q2 & Q3 & Q4). assert (l3 = l') as -> by congruence.
      split; [done|]. split; [done|]. cbn [a_bd bags mwith_vals].
      assert (Hr2 : leaf_rel (bags (wt w)) (with_val (<[j := h]> (l_val l')) l') (lslot L j y')).
      { eapply leaf_rel_slot; [exact Hrel|exact Hy|done|done| | |done|done|done|done]; cbn; symmetry; apply list_insert_id.
        - by rewrite (lr_ik _ _ _ Hrel), list_lookup_fmap, Hy.
        - by rewrite (lr_kx _ _ _ Hrel), list_lookup_fmap, Hy. }
      destruct Hr2. by split.
    - unfold nrefs. cbn [a_bd]. rewrite app_nil_r. pose proof (srefs_set _ _ _ y' Hy) as HH.
      assert (srefs y = []) as E by (unfold srefs; by rewrite Hy0). rewrite E in HH. cbn [app] in HH.
      assert (srefs y' = [h]) as E'.
      { unfold srefs, y'. cbn. rewrite (proj2 (N.eqb_neq _ _) Hh0), C5. cbn. destruct (N.ltb_spec (N.of_nat (length kb)) LAYER_KEYLENX) as [|Hb]; [done|].
        unfold LAYER_KEYLENX in Hb. lia. }
      rewrite E' in HH. unfold L', add_leaf. cbn [lb_sl]. rewrite HH. cbn [sfv s1 setV setfv]. apply Permutation_app_comm. }
  assert (HhV : sV (ws w) !! h = None) by (by rewrite <- (st_vals _ _ T1)).
  assert (Hpath : path (sA (ws w)) kb (g_lid g) 0) by (rewrite Hg; constructor).
  assert (Hpre : g_pre g ++ kb = kb). { pose proof (br_gpre K B kb Hkb (ws w) T2 0 p g rt pa L Hpath Hp) as E. by rewrite E. }
  assert (HVm : forall x z, sV (ws w) !! x = Some z -> <[h := v]> (sV (ws w)) !! x = Some z).
  { intros x z Hz. rewrite lookup_insert_ne; [done|]. congruence. }
  assert (HL' : leaf_ok K B (skels (sA (ws w))) (<[h := v]> (sV (ws w))) g L').
  { refine (add_ok K B B (skels (sA (ws w))) (sV (ws w)) (<[h := v]> (sV (ws w))) g L HL pos y' kb np _ _ j HVm (N.le_refl B) _ Hnw Hact Hj Hj24 Hsr Hrest _ _ Hik _).
    - apply (lk_bud _ _ _ _ _ _ HL).
    - split; [done|]. left. exists kb, v. split; [exact Hrest|]. rewrite Hpre. split; [lia|]. split; [apply lookup_insert|exact HK].
    - intros _. exact Hys.
    - apply (ik_top kb Hkb 0). }
  assert (Hes : forall x, x ∈ es L' <-> x = y' \/ x ∈ es L).
  { intros x. exact (add_elem K B (skels (sA (ws w))) (sV (ws w)) g L HL pos y' kb np _ _ j Hact Hj Hj24 Hik x). }
  assert (Hpost : ins_post true K B kb v (ws w) (setC (sC (ws w) + 1) (ws w')) None).
  { refine (post_new true K B B (ws w) (setC (sC (ws w) + 1) (ws w')) T2 T3 kb v 0 Hkb p g rt pa L L' y' h Hpath Hp Hik eq_refl eq_refl eq_refl HhV eq_refl T5 eq_refl eq_refl (N.le_refl B) Hrest eq_refl HL' pos Hsr Hes eq_refl). }
  destruct Hpost as [P1 P2 P3 P4 P5 P6 Pn P7]. destruct (P7 (or_introl eq_refl) T6) as (PD & PM & PO).
  assert (Hnone : wmu w !! kb = None).
  { destruct (wmu w !! kb) as [z|] eqn:E; [|done]. apply T7 in E; [|done]. by apply PO in E. }
  assert (Hgr : grown (sA (ws w)) (sA (ws w'))).
  { cbn. apply (grown_set _ _ _ _ Hp). repeat (split; [done|]). cbn. split; [done|done|done|]. intros k Hk. split.
    - change (ids L') with (active_slots np). rewrite Hact. rewrite <- (take_drop pos (ids L)) in Hk. apply elem_of_app in Hk. apply elem_of_app.
      destruct Hk; [by left|right; by right].
    - cbn. rewrite list_lookup_insert_ne; [done|]. by intros ->. }
  assert (Hids : forall k, k ∉ ids L -> k <> j -> k ∉ ids L').
  { intros k Hk Hkj. change (ids L') with (active_slots np). rewrite Hact. intros Hx. apply elem_of_app in Hx as [Hx|Hx]; [|apply elem_of_cons in Hx as [Hx|Hx]; [done|]];
      apply Hk; rewrite <- (take_drop pos (ids L)); apply elem_of_app; [by left|by right]. }
  split; [|split; [done|]].
  2: { intros k Hk. split; [cbn; by rewrite uph_ne|done|cbn; by apply insert_subseteq|done|by right]. }
  destruct (ci_v HI) as [V1 V2 V3 V4]. destruct (ci_g HI) as [G1 G2 G3 G4 G5 G6 G7 G8 G9].
  split.
  - split; [exact HS'| |exact P2|done|exact T5|exact PD| | |done].
    + destruct P1 as [I1 I2]. split; [exact I1|exact I2].
    + intros k z Hk. cbn [wmu w']. destruct (decide (k = kb)) as [->|Hne].
      * rewrite lookup_insert. etrans; [exact (PM kb z Hk)|]. naive_solver.
      * rewrite lookup_insert_ne by done. rewrite <- (T7 k z Hk). etrans; [exact (PM k z Hk)|]. naive_solver.
    + by eapply grown_trans.
  - cbn [wm wt wph w']. split; try done.
    { intros q. rewrite <- M1. by apply (rd_ver_same _ _ l). }
    intros q. cbn [heap mwith_heap mwith_vals]. destruct (decide (q = p)) as [->|Hne].
    + rewrite !lookup_insert. destruct Hlov as [O1 O2 O3 O4]. split.
      * cbn. by rewrite O1.
      * done.
      * intros k Hk. cbn. destruct (decide (k = j)) as [->|Hkj].
        -- rewrite (O4 _ _ _ _ _ _ Hc). rewrite list_lookup_insert; [done|]. rewrite (lr_val _ _ _ Hrel), map_length, (lr_len _ _ _ Hrel). lia.
        -- rewrite list_lookup_insert_ne by done. apply O3. intros (i' & a1 & a2 & a3 & a4 & Hi'). apply Hk. exists i', a1, a2, a3, a4.
           rewrite uph_ne; [done|]. intros ->. rewrite Hc in Hi'. injection Hi' as E _. done.
      * intros i' k a1 a2 a3 a4 Hi'. destruct (decide (i' = i)) as [->|Hne]; [by rewrite uph_i in Hi'|]. rewrite uph_ne in Hi' by done. by eapply O4.
    + rewrite !lookup_insert_ne by done. specialize (M2 q). destruct (heap (wm w) !! q) as [[l1|?]|], (heap (wt w) !! q) as [[l3|?]|]; try done.
      apply lov_ph; [done| |done]. intros k a1 a2 a3 a4 E. rewrite Hc in E. injection E as E _. done.
  - cbn [ws wph w']. apply (pinv_upd i (ws w)); [apply HI|done| |done].
    intros i' p' k a1 a2 a3 a4 Hne Hi' g2 rt2 pa2 L2 L3 H1 H2 H3. cbn in H2. destruct (decide (p' = p)) as [->|Hnp].
    + rewrite lookup_insert in H2. rewrite Hp in H1. injection H1 as <- <- <- <-. injection H2 as <-.
      assert (Hkj : k <> j). { intros ->. apply Hne. by eapply (pi_sep (ci_p HI)). }
      split; [by apply Hids|]. cbn. by rewrite list_lookup_insert_ne.
    + rewrite lookup_insert_ne in H2 by done. by simplify_eq.
  - cbn [wm wt wph w']. split; cbn [vals nxt mwith_heap mwith_vals].
    + intros a b E. apply lookup_insert_Some in E as [[<- <-]|[_ E]]; [done|auto].
    + intros a Hs. destruct (decide (a = h)) as [->|Hne]; [left; rewrite lookup_insert; by eexists|].
      rewrite lookup_insert_ne by done. destruct (V2 a Hs) as [H|(i' & c & H1 & H2)]; [by left|right]. exists i', c. rewrite uph_ne; [done|].
      intros ->. rewrite Hc in H1. injection H1 as <-. injection H2 as <-. done.
    + intros i' c h' H1 H2. assert (Hne : i' <> i). { intros ->. rewrite uph_i in H1. injection H1 as <-. done. }
      rewrite uph_ne in H1 by done. destruct (V3 _ _ _ H1 H2) as (Q1 & Q2 & Q3). split; [|done]. rewrite lookup_insert_ne; [done|].
      intros <-. apply Hne. by eapply V4.
    + intros i1 i2 c1 c2 h' H1 H2 H3 H4. assert (N1 : i1 <> i). { intros ->. rewrite uph_i in H1. injection H1 as <-. done. }
      assert (N2 : i2 <> i). { intros ->. rewrite uph_i in H2. injection H2 as <-. done. } rewrite uph_ne in H1, H2 by done. by eapply V4.
  - cbn [ws wph wmu wpub wcn w'].
    assert (Hni : i ∉ wpub w) by (rewrite (proj2 G1 i), Hc; done).
    assert (Hkn : forall j' v', j' ∈ wpub w -> calls !! j' = Some (kb, v') -> False).
    { intros j' v' H1 H2. destruct (G7 _ H1) as (k1 & v1 & E1 & E2 & _). rewrite H2 in E1. injection E1 as <- <-. congruence. }
    split.
    + split; [constructor; [done|apply G1]|]. intros j'. rewrite elem_of_cons, (proj2 G1 j').
      destruct (decide (j' = i)) as [->|Hne]; [rewrite uph_i; naive_solver|rewrite uph_ne by done; naive_solver].
    + split; [apply G2|]. intros j'. rewrite (proj2 G2 j'). destruct (decide (j' = i)) as [->|Hne]; [by rewrite uph_i, Hc|by rewrite uph_ne].
    + exact G3.
    + rewrite map_size_insert_None by done. cbn [length]. lia.
    + etrans; [exact G5|]. by apply insert_subseteq.
    + done.
    + intros j' Hj'. apply elem_of_cons in Hj' as [->|Hj'].
      * exists kb, v. rewrite lookup_insert. split; [done|]. split; [done|]. destruct (mu0 !! kb) as [z|] eqn:E; [|done].
        assert (wmu w !! kb = Some z) by (by eapply lookup_weaken). congruence.
      * destruct (G7 _ Hj') as (k1 & v1 & E1 & E2 & E3). exists k1, v1. split; [done|]. split; [|done]. rewrite lookup_insert_ne; [done|]. intros <-. by eapply Hkn.
    + intros k z E. apply lookup_insert_Some in E as [[<- <-]|[_ E]]; [right; exists i; split; [by left|done]|].
      destruct (G8 k z E) as [H|(j' & H1 & H2)]; [by left|right]. exists j'. split; [by right|done].
    + intros j1 j2 k z z' H1 H2 H3 H4. apply elem_of_cons in H1, H2. destruct H1 as [->|H1], H2 as [->|H2]; [done|..].
      * rewrite Hcall in H3. injection H3 as <- <-. exfalso. by eapply Hkn.
      * rewrite Hcall in H4. injection H4 as <- <-. exfalso. by eapply Hkn.
      * by eapply G9.
  - left. split; [exact Pn|apply insert_non_empty].
Qed.
End S.
