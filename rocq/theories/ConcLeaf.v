(** Concurrent executions on the whole tree: searching a locked leaf and adding an entry. *)
From Verif Require Import Base Perm PermFacts PermList PermLaws SpecPerm Key SpecKey KeyFacts Prog Version VersionFacts Mem Tree
  SpecTree TreeState TreeRead TreeTop SpecLin Suffix SpecSuffix SuffixFacts Conc ConcStep ConcRules ConcRead ConcPar ConcMem ConcOwn ConcBag.
From Verif Require LinRead LinWrite LinInsert.

(** what a search in a locked leaf finds *)
Definition found (l : leaf) (kb : bytes) (r : ins_search) : Prop :=
  let a := actv l in
  match r with
  | Found s => s ∈ a /\ has_key l s kb
  | NotFound pos => pos <= length a /\ (forall s, s ∈ a -> ~ has_key l s kb) /\
      forall j s x, a !! j = Some s -> l_ikey l !! s = Some x -> (j < pos -> (x <= kik kb)%N) /\ (pos <= j -> (kik kb <= x)%N)
  | _ => False
  end.

Lemma cwp_search i σ w p l kb v0 (Q : ins_search -> world -> Prop) : At i σ w -> nl σ !! p = Some (NLeaf l) -> leaf_good l -> spl l = false ->
  (kb, v0) ∈ wcalled w -> is_bytes kb ->
  (forall r w', At i σ w' -> Rely i w w' -> found l kb r -> Q r w') -> cwp i (search_for_insert p (l_perm l) (kpos kb 0)) w Q.
Proof.
  intros A0 Hp Hg Hsp Hcall Hb HQ. unfold search_for_insert. change (active_slots (l_perm l)) with (actv l).
  assert (Hgen : forall slots n, drop n (actv l) = slots -> n <= length (actv l) ->
    (forall j s x, j < n -> actv l !! j = Some s -> l_ikey l !! s = Some x -> (x <= kik kb)%N) ->
    (forall j s, j < n -> actv l !! j = Some s -> ~ has_key l s kb) ->
    forall w1, At i σ w1 -> Rely i w w1 -> cwp i (search_slots p (kpos kb 0) n slots) w1 Q).
  2:{ apply (Hgen (actv l) 0); try done; try lia. apply rely_refl. }
  induction slots as [|s slots IH]; intros n Hd Hn Hlow Hnk w1 A1 R1; cbn [search_slots].
  { assert (n = length (actv l)) as ->.
    { apply (f_equal length) in Hd. rewrite drop_length in Hd. cbn in Hd. lia. }
    apply cwp_ret. apply HQ; [done|done|]. split; [done|]. split.
    - intros s [j Hj]%elem_of_list_lookup_1. apply (Hnk j); [|done]. by eapply lookup_lt_Some.
    - intros j s x Hj Hx. pose proof (lookup_lt_Some _ _ _ Hj). split; [|intros; lia]. intros _. by eapply Hlow. }
  assert (Hsn : actv l !! n = Some s).
  { rewrite <- (Nat.add_0_r n), <- lookup_drop, Hd. done. }
  assert (Hd' : drop (n + 1) (actv l) = slots).
  { rewrite <- drop_drop, Hd. done. }
  pose proof (lookup_lt_Some _ _ _ Hsn) as Hlt.
  assert (Hsa : s ∈ actv l) by (by eapply elem_of_list_lookup_2).
  pose proof (at_leaf_ok _ _ _ _ _ A1 Hp) as Hok.
  destruct (slot_key w1 l s (at_inv _ _ _ A1)) as (k & v & h & Hh & Hval & Hnz & _ & Hsx & Hkb & Hkc).
  { by apply (lo_tag _ _ _ Hok (lo_frz _ _ _ Hok Hsp)). }
  assert (Hrec : (kik k <= kik kb)%N -> ~ has_key l s kb -> forall w2, At i σ w2 -> Rely i w w2 ->
    cwp i (search_slots p (kpos kb 0) (n + 1) slots) w2 Q).
  { intros Hle Hnh. apply IH; [done|lia| |].
    - intros j s' x Hj Hs' Hx. destruct (decide (j = n)) as [->|]; [|apply (Hlow j s'); [lia|done..]].
      assert (s' = s) as -> by congruence. destruct Hh as [E _]. congruence.
    - intros j s' Hj Hs'. destruct (decide (j = n)) as [->|]; [|apply (Hnk j s'); [lia|done..]]. congruence. }
  assert (Hnext : ~ has_key l s kb -> forall w2, At i σ w2 -> Rely i w w2 ->
    cwp i (if (k_ikey (kpos kb 0) <? kik k)%N then Ret (NotFound n) else search_slots p (kpos kb 0) (n + 1) slots) w2 Q).
  { intros Hnh w2 A2 R2. change (k_ikey (kpos kb 0)) with (kik kb).
    destruct (N.ltb_spec (kik kb) (kik k)) as [Hl|Hge]; [|apply Hrec; try done; lia].
    apply cwp_ret, HQ; [done|done|]. unfold found. split; [lia|].
    assert (Hup : forall j s' x, n <= j -> actv l !! j = Some s' -> l_ikey l !! s' = Some x -> (kik kb < x)%N).
    { intros j s' x Hj Hs2 Hx. destruct (decide (j = n)) as [->|].
      - assert (s' = s) as -> by congruence. destruct Hh as [E _]. assert (x = kik k) by congruence. lia.
      - destruct Hh as [E _]. pose proof (lg_sort _ Hg n j s s' (kik k) x ltac:(lia) Hsn Hs2 E Hx). lia. }
    split.
    - intros s' Hs2 Hh'. apply elem_of_list_lookup_1 in Hs2 as [j Hj]. destruct (decide (j < n)) as [Hjn|Hjn].
      + by eapply (Hnk j s').
      + pose proof (Hup j s' (kik kb) ltac:(lia) Hj ltac:(apply Hh')). lia.
    - intros j s' x Hj Hx. split; [intros; by eapply Hlow|]. intros Hnj. pose proof (Hup j s' x Hnj Hj Hx). lia. }
  apply cwp_bind. eapply (cwp_rleaf _ σ _ _ _ _ (kik k)); [done|done|intros; apply Hh|]. intros w2 A2 R2.
  assert (Rely i w w2) as R02 by (by eapply rely_trans).
  cbv zeta. change (k_ikey (kpos kb 0)) with (kik kb) in *.
  destruct (N.eqb_spec (kik k) (kik kb)) as [He|Hne].
  2:{ apply Hnext; [|done|done]. intros [E _]. destruct Hh as [E' _]. congruence. }
  apply cwp_bind. eapply (cwp_rleaf _ σ _ _ _ _ (kklx k)); [done|done|intros; apply Hh|]. intros w3 A3 R3.
  assert (Rely i w w3) as R03 by (by eapply rely_trans).
  apply cwp_bind. eapply (cwp_rleaf _ σ _ _ _ _ h); [done|done|intros; exact Hval|]. intros w4 A4 R4.
  assert (Rely i w w4) as R04 by (by eapply rely_trans).
  apply N.eqb_neq in Hnz. rewrite Hnz.
  assert (LAYER_KEYLENX <=? kklx k = false)%N as ->.
  { apply N.leb_gt. unfold LAYER_KEYLENX, kklx, KSUF_KEYLENX. destruct (Nat.leb_spec (length k) 8); lia. }
  rewrite search_kklx by done.
  destruct (N.eqb_spec (kklx k) (kklx kb)) as [El|Nl].
  - assert (k = kb) as ->.
    { apply (iv_same _ (at_inv _ _ _ A1) k v kb v0); try done. by apply (rl_mono _ _ _ R1). }
    destruct (N.eqb_spec (kklx kb) KSUF_KEYLENX) as [Ek|_].
    + assert (8 < length kb) as H8 by (by apply kklx_long). apply cwp_bind.
      assert (s < 24) as H24 by (by apply (actv_lt l s (lg_perm _ Hg))).
      eapply (cwp_ksuf i σ w4 p l s); [done|done|done|rewrite <- Ek; apply Hh|].
      intros w5 A5 R5 _. assert (Rely i w1 w4) as R14 by (eapply rely_trans; [exact R2|by eapply rely_trans]).
      rewrite (sfx_rely i σ w1 w4 p l s A1 Hp R14 (at_inv _ _ _ A4)), (Hsx H8). apply cwp_ret.
      rewrite suffix_pos. cbn [Nat.mul]. change (drop 0 kb) with kb. rewrite bool_decide_true by done.
      apply HQ; [done|by eapply rely_trans|]. by split.
    + apply cwp_ret, HQ; [done|done|]. by split.
  - assert ((kklx k =? KSUF_KEYLENX)%N && key_has_suffix (kpos kb 0) = false) as ->.
    { destruct (N.eqb_spec (kklx k) KSUF_KEYLENX) as [Ek|_]; [|done]. rewrite andb_true_l, has_suffix_pos. cbn [Nat.mul]. change (drop 0 kb) with kb.
      apply Nat.ltb_ge. apply kklx_short. congruence. }
    apply Hnext; [|done|done]. intros [_ E]. destruct Hh as [_ E']. congruence.
Qed.

(** ** permutations *)
Lemma perm_add v pos : p_wf P24 v -> perm_size v < 24 -> pos <= perm_size v ->
  exists pw, perm_insert_from_back v pos = (pw, perm_back v) /\ p_wf P24 pw /\
    active_slots pw = take pos (active_slots v) ++ perm_back v :: drop pos (active_slots v).
Proof.
  intros Hwf Hsz Hpos.
  pose proof (insert_law_holds P24 P24_ok v pos (proj2 (perm_word_wf P24 _) Hwf)
    ltac:(change (pW P24) with 24; change (p_size P24 v) with (perm_size v); lia) Hpos) as HL.
  change (p_insert_from_back P24) with perm_insert_from_back in HL.
  pose proof (LinInsert.insert_snd v pos) as E. destruct (perm_insert_from_back v pos) as [pw s]. cbn in E. subst s.
  destruct HL as (Hpw & Ha & _). apply perm_word_wf in Hpw. rewrite <- !ids_active in Ha by done. by exists pw.
Qed.
Lemma find_alt_some v offs c o : find_alt v offs = Some (c, o) -> o ∈ offs /\ c = perm_back_at_offset v o.
Proof.
  induction offs as [|o' offs IH]; cbn [find_alt]; [done|]. destruct (Nat.eqb _ _).
  - intros H. destruct (IH H) as [H1 H2]. split; [by right|done].
  - intros [= <- <-]. split; [by left|done].
Qed.
Lemma find_alt_none v offs : find_alt v offs = None -> forall o, o ∈ offs -> perm_back_at_offset v o = 0.
Proof.
  induction offs as [|o' offs IH]; cbn [find_alt]; [by intros _ o ?%elem_of_nil|]. destruct (Nat.eqb_spec (perm_back_at_offset v o') 0) as [E|E]; [|done].
  intros H o [->|Ho]%elem_of_cons; [done|by apply IH].
Qed.
Lemma swap_facts v o : p_wf P24 v -> perm_size v < 24 -> 1 <= o < 24 - perm_size v ->
  let v' := perm_swap_free_slots v (WIDTH - 1) (WIDTH - 1 - o) in
  p_wf P24 v' /\ active_slots v' = active_slots v /\ perm_size v' = perm_size v /\ perm_back v' = perm_back_at_offset v o /\
  perm_back v <> perm_back_at_offset v o.
Proof.
  intros Hwf Hsz Ho. cbv zeta. unfold WIDTH.
  pose proof (swap_free_law_holds P24 P24_ok v 23 (23 - o) (proj2 (perm_word_wf P24 _) Hwf)) as HL.
  change (pW P24) with 24 in HL. change (p_size P24 v) with (perm_size v) in HL.
  destruct (HL ltac:(lia) ltac:(lia)) as (H1 & H2 & H3 & _). apply perm_word_wf in H1. change (24 - 1) with 23.
  change (p_swap_free_slots P24) with perm_swap_free_slots in *. rewrite <- !ids_active in H2 by done.
  split; [done|]. split; [done|]. split; [by rewrite <- !ids_len, H2|]. split; [exact H3|].
  pose proof (proj2 (perm_word_wf P24 _) Hwf) as (_ & _ & Hnd & _). intros E.
  change (p_get P24 v 23 = p_get P24 v (23 - o)) in E.
  assert (23 = 23 - o); [|lia]. apply (NoDup_lookup _ _ _ (p_get P24 v 23) Hnd); [apply (slots_lookup P24); change (pW P24) with 24; lia|].
  rewrite E. apply (slots_lookup P24). change (pW P24) with 24. lia.
Qed.

(** ** adding an entry *)
Lemma leaf_good_add l l2 kb pos s : leaf_good l -> s ∉ actv l -> found l kb (NotFound pos) ->
  actv l2 = take pos (actv l) ++ s :: drop pos (actv l) -> p_wf P24 (l_perm l2) -> l_next l2 = l_next l -> has_key l2 s kb ->
  (forall s', s' <> s -> l_ikey l2 !! s' = l_ikey l !! s' /\ l_klx l2 !! s' = l_klx l !! s' /\ l_val l2 !! s' = l_val l !! s') -> leaf_good l2.
Proof.
  intros [A1 A2 A3 A4 A5] Hs (Hpos & Hnone & Hord) Ha Hwf Hnx Hh Hsame.
  assert (Hpl : length (take pos (actv l)) = pos) by (rewrite take_length; lia).
  assert (Hin : forall s', s' ∈ actv l2 <-> s' = s \/ s' ∈ actv l).
  { intros s'. rewrite Ha. rewrite <- (take_drop pos (actv l)) at 3. rewrite !elem_of_app, elem_of_cons. tauto. }
  assert (Hne : forall s', s' ∈ actv l -> s' <> s) by (intros s' H ->; done).
  assert (Hlk : forall j s', actv l2 !! j = Some s' ->
     (j < pos /\ actv l !! j = Some s') \/ (j = pos /\ s' = s) \/ (pos < j /\ actv l !! (j - 1) = Some s')).
  { intros j s' Hj. rewrite Ha in Hj. apply lookup_app_Some in Hj as [Hj|[Hge Hj]].
    - left. apply lookup_take_Some in Hj as [??]. done.
    - rewrite Hpl in *. destruct (j - pos) as [|d] eqn:Ed; [cbn in Hj; right; left; split; [lia|congruence]|].
      right; right. split; [lia|]. change (drop pos (actv l) !! d = Some s') in Hj. rewrite lookup_drop in Hj. by replace (j - 1) with (pos + d) by lia. }
  assert (Hkey : forall s' k, s' ∈ actv l -> has_key l2 s' k -> has_key l s' k).
  { intros s' k Hs' [H1 H2]. destruct (Hsame s' (Hne s' Hs')) as (E1 & E2 & _). split; congruence. }
  split; [done|by rewrite Hnx|..].
  - intros s' Hlt Hn. destruct (Hsame s') as (_ & _ & ->); [intros ->; apply Hn, Hin; by left|]. apply A3; [done|]. intros H. apply Hn, Hin. by right.
  - intros a b s1 s2 x1 x2 Hab B1 B2 X1 X2. destruct Hh as [E _].
    assert (Hx : forall s' x, s' ∈ actv l -> l_ikey l2 !! s' = Some x -> l_ikey l !! s' = Some x).
    { intros s' x Hs' H. destruct (Hsame s' (Hne s' Hs')) as (E1 & _). congruence. }
    apply Hlk in B1. apply Hlk in B2.
    destruct B1 as [[? B1]|[[? ->]|[? B1]]], B2 as [[? B2]|[[? ->]|[? B2]]]; try lia;
      try (pose proof (elem_of_list_lookup_2 _ _ _ B1) as M1; apply (Hx _ _ M1) in X1);
      try (pose proof (elem_of_list_lookup_2 _ _ _ B2) as M2; apply (Hx _ _ M2) in X2).
    + by apply (A4 a b s1 s2).
    + assert (x2 = kik kb) as -> by congruence. by apply (Hord a s1).
    + apply (A4 a (b - 1) s1 s2); [lia|done..].
    + assert (x1 = kik kb) as -> by congruence. apply (Hord (b - 1) s2); [done|done|lia].
    + apply (A4 (a - 1) (b - 1) s1 s2); [lia|done..].
  - intros s1 s2 k [->|B1]%Hin [->|B2]%Hin B3 B4; try done.
    + apply (Hkey _ _ B2) in B4. destruct (Hnone s2 B2). destruct B3 as [D1 D2], B4 as [D3 D4], Hh as [D5 D6]. split; congruence.
    + apply (Hkey _ _ B1) in B3. destruct (Hnone s1 B1). destruct B3 as [D1 D2], B4 as [D3 D4], Hh as [D5 D6]. split; congruence.
    + apply (A5 s1 s2 k); auto.
Qed.
Lemma hmove_new (h : N) hs : h <> 0%N -> h ∉ hs -> hmove h 0 ({[h]} ∪ hs) = hs.
Proof. intros H1 H2. unfold hmove. rewrite decide_True by done. set_solver. Qed.

Definition filled (l : leaf) (s : nat) (kb : bytes) (h b : N) : leaf :=
  with_klx (<[s := kklx kb]> (l_klx l)) (with_ksuf b (with_val (<[s := h]> (l_val l)) (with_ikey (<[s := kik kb]> (l_ikey l)) l))).
Lemma cwp_assign i nl hs un ns pr pe tp zs w p l lv kb v s (Q : N -> world -> Prop) :
  At i (L nl hs un ns pr pe tp zs) w -> nl !! p = Some (NLeaf l) -> p ∉ ns -> v_is_locked (l_ver l) = true -> v_is_inserting lv = true ->
  spl l = false -> (kb, v) ∈ wcalled w -> s < 24 -> s ∉ actv l -> l_val l !! s = Some 0%N ->
  (forall w' h b, At i (L (<[p := NLeaf (filled l s kb h b)]> nl) hs un ns pr pe tp zs) w' -> Mono w w' -> h <> 0%N -> wtag w' !! h = Some (kb, v) ->
     (8 < length kb -> sfx w' (filled l s kb h b) s = Some (drop 8 kb)) -> Q lv w') ->
  cwp i (assign_slot p lv s (kpos kb 0) v) w Q.
Proof.
  intros A0 Hp Hns Hlk Hins Hsp Hcall Hs24 Hna Hz HQ. unfold assign_slot. apply cwp_bind.
  eapply (cwp_new_val i nl hs un ns pr pe tp zs); [done|done|]. intros h w1 A1 M1 Hh Hnz Hnh Hbd.
  apply cwp_bind. unfold mark_insert, guard_mark_insert. rewrite Hins. apply cwp_ret.
  destruct (lo_len _ _ _ (at_leaf_ok _ _ _ _ _ A1 Hp)) as (L1 & L2 & L3).
  apply cwp_bind. set (l2 := with_ikey (<[s := kik kb]> (l_ikey l)) l).
  eapply (cwp_wleaf_r i nl ({[h]} ∪ hs) un ns pr pe tp zs w1 p l l2); [done|done|done|by right|done| | |].
  { intros pv pa. change (k_ikey (kpos kb 0)) with (kik kb). cbn [with_prev with_parent l_ikey]. rewrite LinInsert.list_set_at by lia. done. }
  { intros w2 _ _ A2 Hok. apply (lstep_fill _ _ _ _ s); try done; [by cbn; rewrite insert_length|apply Hok|].
    intros s' Hne. cbn. by rewrite list_lookup_insert_ne. }
  intros w2 A2 M2 Hsb2. apply cwp_bind. set (l3 := with_val (<[s := h]> (l_val l2)) l2).
  unfold set_val_ptr, leaf_up. eapply (cwp_same_at i); [exact A2| |].
  { intros b m r m' E _. destruct (heap m !! p) as [[l0|]|]; [|done..]. case_match; [|done]. case_match. by injection E as <- <-. }
  eapply (cwp_swap i (<[p := NLeaf l2]> nl) ({[h]} ∪ hs) un ns pr pe tp zs w2 p l2 s h 0); [done|by rewrite lookup_insert|done| | | |].
  { right. split; [apply elem_of_union_l; by apply elem_of_singleton|]. eexists. by apply M2. }
  { intros m pv pa E. rewrite E. cbn [rep with_prev with_parent l_val l2 with_ikey]. rewrite LinInsert.list_set_at by lia. done. }
  { intros w3 M3 A3 _ Hs. done. }
  intros w3 A3 M3 Hsb3. cbn [Conc.nl] in Hsb3. rewrite insert_insert, hmove_new in A3 by done. fold l3 in A3.
  assert (Hp3 : <[p := NLeaf l3]> nl !! p = Some (NLeaf l3)) by apply lookup_insert.
  assert (Mono w1 w3) as M13 by (by eapply mono_trans). assert (Mono w w3) as M03 by (by eapply mono_trans).
  rewrite has_suffix_pos, current_len_pos, suffix_pos. cbn [Nat.mul]. change (drop 0 kb) with kb.
  destruct (Nat.ltb_spec 8 (length kb)) as [H8|H8].
  - assert (kklx kb = KSUF_KEYLENX) as Ek by (unfold kklx; by rewrite (proj2 (Nat.leb_gt (length kb) 8))).
    apply cwp_bind, cwp_bind. eapply (cwp_set_klx i (<[p := NLeaf l3]> nl) hs un ns pr pe tp zs w3 p l3 s); [done|done|done|by right|done|by intros _|by right|].
    intros w4 A4 M4 Hsb4. rewrite insert_insert in A4. set (l4 := with_klx (<[s := KSUF_KEYLENX]> (l_klx l3)) l3) in *.
    assert (Hp4 : <[p := NLeaf l4]> nl !! p = Some (NLeaf l4)) by apply lookup_insert.
    assert (length kb <= 256) as Hlen by (apply (iv_keys _ (at_inv _ _ _ A0) kb v Hcall)).
    assert (Mono w1 w4) as M14 by (by eapply mono_trans). pose proof (bnd_mono w1 w4 (mo_tag _ _ M14)) as Hbm.
    assert (256 <= bnd w1)%N as Hb6 by (unfold bnd; lia).
    eapply (cwp_assign_ksuf i (<[p := NLeaf l4]> nl) hs un ns pr pe tp zs w4 p l4 s _ (bnd w1 - 256)); [done|done|done|by right|done|by intros _| |lia| | |].
    + rewrite drop_length. lia.
    + intros bg Hbg. apply (Hbd (l_ksuf l) bg).
      etrans; [symmetry; exact (Hsb2 p l Hp)|]. etrans; [symmetry; exact (Hsb3 p l2 (lookup_insert _ _ _))|]. etrans; [symmetry; exact (Hsb4 p l3 Hp3)|]. exact Hbg.
    + intros w5 b nb mm A5 M5 Hb5 Hmm5 Hs5 _ _. rewrite insert_insert in A5.
      assert (replaced l4 b s KSUF_KEYLENX = filled l s kb h b) as E5.
      { unfold replaced, filled. rewrite Ek. cbn. by rewrite list_insert_insert. }
      rewrite E5 in A5. apply cwp_ret. pose proof (mono_trans _ _ _ M14 M5) as M15.
      apply (HQ w5 h b); [exact A5|exact (mono_trans _ _ _ M1 M15)|done|by apply M15|]. intros _.
      rewrite (sfx_bag w5 (filled l s kb h b) nb) by done. rewrite (bsfx_inv _ _ _ s Hmm5 Hs24). exact Hs5.
    + exists kb, v. split; [|done]. by apply M14, M1.
  - assert (kklx kb = N.of_nat (length kb)) as Ek by (unfold kklx; by rewrite (proj2 (Nat.leb_le (length kb) 8))).
    apply cwp_bind. eapply (cwp_set_klx i (<[p := NLeaf l3]> nl) hs un ns pr pe tp zs w3 p l3 s); [done|done|done|by right|done|by intros _|left; lia|].
    intros w4 A4 M4 _. rewrite insert_insert in A4. apply cwp_ret.
    assert (Mono w1 w4) as M14 by (by eapply mono_trans).
    apply (HQ w4 h (l_ksuf l)); [|by eapply mono_trans|done|by apply M14|lia].
    unfold filled. rewrite Ek. replace (with_ksuf (l_ksuf l) (with_val (<[s:=h]> (l_val l)) (with_ikey (<[s:=kik kb]> (l_ikey l)) l))) with l3; [exact A4|].
    unfold l3, l2. by destruct l.
Qed.
