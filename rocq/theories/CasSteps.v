(** Lock-free insertions running at the same time: the search and the steps that write. *)
From Verif Require Import Base Perm PermFacts PermList SpecPerm PermLaws Key SpecKey KeyFacts Suffix SpecSuffix SuffixFacts Prog Version VersionFacts VersionTry Mem Tree SpecTree SpecHist TreeState TreePrim TreeInv TreeRead TreeSplit TreeSkel TreeInode TreeProp TreeLeaf TreeContent TreeInsert TreeLayer TreeConv TreeLoop TreeTop TreeLaws Freeze CasInsert CasFacts CasConc.

Section S.
Context (K : bytes -> N -> Prop) (B : N) (mb : mem) (sb : ast) (mu0 : gmap bytes N) (calls : list (bytes * N)).
Context (i : nat) (kb : bytes) (Hkb : is_bytes kb) (Hk8 : length kb <= 8).
Local Notation rd := (rd K B mb sb mu0 calls i).
Local Notation CInv := (CInv K B mb sb mu0 calls).
Local Notation cwp := (cwp K B mb sb mu0 calls).
Local Notation TInv := (TInv K B sb).
Local Notation MInv := (MInv mb).
Local Notation VInv := (VInv calls).
Local Notation GInv := (GInv sb mu0 calls).

(** the permutation with a free slot put in *)
Lemma pick_perm pm pos off : p_wf P24 pm -> off < 24 - perm_size pm -> pos <= perm_size pm -> exists np,
  (if Nat.eqb off 0 then perm_insert_from_back pm pos
   else perm_insert_from_back (perm_swap_free_slots pm (WIDTH - 1) (WIDTH - 1 - off)) pos) = (np, perm_back_at_offset pm off) /\
  p_wf P24 np /\ active_slots np = take pos (active_slots pm) ++ perm_back_at_offset pm off :: drop pos (active_slots pm) /\
  perm_back_at_offset pm off ∉ active_slots pm /\ perm_back_at_offset pm off < 24.
Proof.
  intros Hw Ho Hp. destruct (Nat.eqb_spec off 0) as [->|Hne].
  - destruct (perm_insert_facts pm pos Hw ltac:(lia) Hp) as (np & E & H). exists np. done.
  - destruct (swap_free_law_holds P24 P24_ok pm 23 (23 - off) (proj2 (perm_word_wf P24 pm) Hw)) as (S1 & S2 & S3 & _); [change (p_size P24 pm) with (perm_size pm); cbn; lia..|].
    set (q := p_swap_free_slots P24 pm 23 (23 - off)) in *.
    change (perm_swap_free_slots pm (WIDTH - 1) (WIDTH - 1 - off)) with q. apply perm_word_wf in S1.
    assert (Hact : active_slots q = active_slots pm) by (by rewrite !ids_active).
    assert (Hsz : perm_size q = perm_size pm).
    { pose proof (f_equal length Hact) as E. unfold active_slots in E. by rewrite !map_length, !seq_length in E. }
    destruct (perm_insert_facts q pos S1 ltac:(lia) ltac:(lia)) as (np & E & H1 & H2 & H3 & H4).
    assert (Hb : perm_back q = perm_back_at_offset pm off) by exact S3.
    exists np. rewrite Hact, ?Hb in *. done.
Qed.

Section Search.
Context (p : N) (g : ghost) (rt : bool) (pa : N) (L : lbody) (SA : gmap N snode) (V : gmap N N) (HL : leaf_ok K B SA V g L).
Notation snap w := (grown (<[p := LF g MFree rt pa L]> ∅) (sA (ws w))).
Lemma snap_rely w w' : snap w -> Rely i w w' -> snap w'.
Proof. intros H HR. eapply grown_trans; [exact H|apply HR]. Qed.
Lemma c_search_slots : forall l j, j + length l = length (ids L) -> l = drop j (ids L) ->
  (forall q e, es L !! q = Some e -> q < j -> (s_ik e <= be_word (pad8 kb))%N /\ ecls e <> rcls kb) ->
  forall w, snap w -> rd (search_slots p (kpos kb 0) j l) w (fun x _ => searched L kb x).
Proof.
  induction l as [|x l IH]; intros j Hlj El Hj w Hw; cbn [search_slots].
  { apply rd_ret. cbn in Hlj. cbn. split; [rewrite es_ids; lia|]. split; [|split].
    - intros e He. apply elem_of_list_lookup in He as [q He]. eapply Hj; [exact He|]. apply lookup_lt_Some in He. rewrite es_ids in He. lia.
    - intros q e He Hji. by eapply Hj.
    - intros q e He Hji. apply lookup_lt_Some in He. rewrite es_ids in He. lia. }
  cbn [length] in Hlj.
  assert (Hx : ids L !! j = Some x).
  { rewrite <- (Nat.add_0_r j), <- lookup_drop, <- El. done. }
  assert (Hin : x ∈ ids L) by (by eapply elem_of_list_lookup_2).
  assert (Hi : x < 24) by (eapply ids_lt; [apply HL|done]).
  pose proof (ent_lookup _ _ _ _ _ _ HL x Hi) as Hs. set (e := ent L x) in *.
  assert (Hes : es L !! j = Some e) by (unfold es; by rewrite list_lookup_fmap, Hx).
  assert (He : e ∈ es L) by (by eapply elem_of_list_lookup_2).
  assert (Hcont : (s_ik e <= be_word (pad8 kb))%N -> ecls e <> rcls kb -> forall w, snap w -> rd (search_slots p (kpos kb 0) (j + 1) l) w (fun x _ => searched L kb x)).
  { intros H1 H2. apply IH; [lia| |].
    - replace (j + 1) with (Datatypes.S j) by lia. rewrite (drop_S _ _ _ Hx) in El. congruence.
    - intros q e' He' Hji. destruct (decide (q = j)) as [->|]; [|apply (Hj q); [done|lia]].
      assert (e' = e) as -> by congruence. done. }
  assert (Hgt : (be_word (pad8 kb) < s_ik e)%N -> searched L kb (NotFound j)).
  { intros Hlt. assert (Hge : forall q e', es L !! q = Some e' -> j <= q -> (be_word (pad8 kb) < s_ik e')%N).
    { intros q e' He' Hji. destruct (decide (q = j)) as [->|]; [by assert (e' = e) as -> by congruence|].
      pose proof (lk_sort _ _ _ _ _ _ HL j q e e' ltac:(lia) Hes He'). lia. }
    cbn. split; [rewrite es_ids; lia|]. split; [|split; [|done]].
    - intros e' He'. apply elem_of_list_lookup in He' as [q He']. destruct (decide (q < j)); [by eapply Hj|].
      intros E. injection E as E _. specialize (Hge q e' He' ltac:(lia)). lia.
    - intros q e' He' Hji. by apply (Hj q). }
  pose proof (lk_ent _ _ _ _ _ _ HL e He) as (Hpz & Hent).
  eapply rd_bind; [by eapply rd_ikey|]. intros r1 w1 R1 _ ->. apply (snap_rely _ _ Hw) in R1. rewrite ikey_pos by first [done|lia]. cbv zeta. change (drop (0 * 8) kb) with kb.
  destruct (N.eqb_spec (s_ik e) (be_word (pad8 kb))) as [Eik|Eik].
  2: { destruct (N.ltb_spec (be_word (pad8 kb)) (s_ik e)); [by apply rd_ret, Hgt|]. apply Hcont; [done| |done].
       intros E. injection E as E _. done. }
  eapply rd_bind; [by eapply rd_keylenx|]. intros r2 w2 R2 _ ->. apply (snap_rely _ _ R1) in R2.
  eapply rd_bind; [by eapply rd_val_act|]. intros ptr w3 R3 _ ->. apply (snap_rely _ _ R2) in R3.
  destruct (N.eqb_spec (s_ptr e) 0) as [|_]; [done|]. rewrite has_suffix_pos, search_kx, Eik, N.ltb_irrefl. change (drop (0 * 8) kb) with kb.
  rewrite (proj2 (Nat.ltb_ge 8 (length kb)) Hk8), (proj2 (Nat.leb_le (length kb) 8) Hk8).
  destruct (N.leb_spec LAYER_KEYLENX (s_kx e)) as [E128|E128].
  { destruct Hent as [(r' & v' & Hr' & _)|(Ekx & _)]; [pose proof (rest_lt _ _ Hr'); lia|].
    apply Hcont; [lia| |done]. intros E. injection E as _ E. rewrite Ekx in E. destruct (Nat.leb_spec (length kb) 8); [|lia].
      change (N.min LAYER_KEYLENX 9) with 9%N in E. lia. }
  destruct Hent as [(r' & v' & Hr' & _)|(Ekx & _)]; [|lia].
  pose proof (rest_kx _ _ Hr') as Ekx. pose proof Hr' as (Q1 & Q2 & Q3).
  assert (Epad : pad8 r' = pad8 kb) by (apply slice_eq; [done|done|congruence]).
  destruct (N.eqb_spec (s_kx e) (N.of_nat (length kb))) as [Ek|Ek].
  - destruct (N.eqb_spec (s_kx e) KSUF_KEYLENX) as [E64|E64]; [rewrite Ek in E64; unfold KSUF_KEYLENX in E64; lia|].
    apply rd_ret. split; [done|]. exists e. split; [done|]. assert (r' = kb) as <-; [|done].
    destruct (Nat.leb_spec (length r') 8); [|done]. apply pad8_inj; [lia|done|done].
  - assert (Hnc : ecls e <> rcls kb).
    { rewrite (rest_ecls _ _ Hr'). unfold rcls. intros E. injection E as _ E. apply Ek. rewrite Ekx.
      destruct (Nat.leb_spec (length kb) 8), (Nat.leb_spec (length r') 8); lia. }
    rewrite andb_false_r. by apply Hcont; [lia| |].
Qed.
Lemma c_search w : snap w -> rd (search_for_insert p (lb_perm L) (kpos kb 0)) w (fun x _ => searched L kb x).
Proof. apply c_search_slots; [done|done|]. intros; lia. Qed.
(** a free slot that looked unreserved *)
Context (Lb : lbody) (md0 : vmode) (Hb : sA sb !! p = Some (LF g md0 rt pa Lb)).
(** a slot that was not in use holds something: another insertion is under way *)
Lemma free_busy w L' l j x : CInv w -> sA (ws w) !! p = Some (LF g MFree rt pa L') -> (wpub w = [] -> lb_perm L = lb_perm Lb) -> j ∉ ids L ->
  heap (wm w) !! p = Some (NLeaf l) -> l_val l !! j = Some x -> x <> 0%N -> busy w.
Proof.
  intros HI Hp Hpm Hj Hl Hx Hx0. destruct (wpub w) as [|a r] eqn:Ep; [|right; by rewrite Ep]. specialize (Hpm eq_refl).
  pose proof (gi_perm (ci_g HI) Ep _ _ _ _ _ _ _ _ _ _ _ Hb Hp) as Hpm'.
  assert (Hj' : j ∉ ids L') by (unfold ids; by rewrite Hpm', <- Hpm).
  destruct (leaf_at _ _ _ _ _ _ _ _ _ _ _ _ _ HI Hp) as (l1 & l2 & E1 & E2 & Hlov & Hrel & _). assert (l1 = l) as -> by congruence.
  assert (Hlt : j < 24) by (rewrite <- (lo_len _ _ _ _ Hlov); by eapply lookup_lt_Some).
  destruct (lookup_lt_is_Some_2 (lb_sl L') j) as [y Hy]; [rewrite (lr_len _ _ _ Hrel); lia|].
  destruct (lk_free _ _ _ _ _ _ (iv_l _ _ _ _ _ (ti_inv (ci_t HI)) _ _ _ _ _ _ Hp) _ _ Hy Hj') as [Hy0 _].
  assert (Hdec : (exists i ik kx x h, wph w !! i = Some (Claimed p j ik kx x h)) \/ ~ (exists i ik kx x h, wph w !! i = Some (Claimed p j ik kx x h))).
  { assert (HH : forall q : nat * phase, Decision (match q.2 with Claimed p' j' _ _ _ _ => p' = p /\ j' = j | _ => False end)) by (intros [? []]; cbn; apply _).
    destruct (decide (Exists (fun q : nat * phase => match q.2 with Claimed p' j' _ _ _ _ => p' = p /\ j' = j | _ => False end) (map_to_list (wph w)))) as [H|H].
    - left. apply Exists_exists in H as ([i' c] & H1 & H2). apply elem_of_map_to_list in H1. cbn in H2. destruct c; try done. destruct H2 as [-> ->]. eauto 10.
    - right. intros (i' & ik & kx & z & h & Hc). apply H. apply Exists_exists. exists (i', Claimed p j ik kx z h). split; [by apply elem_of_map_to_list|done]. }
  destruct Hdec as [(i' & ik & kx & z & h & Hc)|Hno]; [left; eauto 10|]. exfalso. apply Hx0.
  rewrite (lo_eq _ _ _ _ Hlov j Hno), (lr_val _ _ _ Hrel), list_lookup_fmap, Hy in Hx. injection Hx as <-. done.
Qed.
Lemma c_pick pm ik : p_wf P24 pm -> active_slots pm = ids L -> forall offs w, (forall o, o ∈ offs -> o < 24 - perm_size pm) -> snap w -> (wpub w = [] -> lb_perm L = lb_perm Lb) ->
  rd (pick_free_slot p pm ik offs) w (fun r w' => match r with None => offs <> [] -> busy w' | Some (j, off) => off ∈ offs /\ j = perm_back_at_offset pm off end).
Proof.
  intros Hwf Ha. induction offs as [|o offs IH]; intros w Ho Hw Hpm; cbn [pick_free_slot]; [by apply rd_ret|].
  assert (Ho' : o < 24 - perm_size pm) by (apply Ho; by left).
  cbv zeta. set (j := perm_back_at_offset pm o) in *.
  destruct (pick_perm pm 0 o Hwf Ho' ltac:(lia)) as (_ & _ & _ & _ & Hjn & Hj). fold j in Hjn, Hj. rewrite Ha in Hjn.
  eapply (rd_bind _ _ _ _ _ _ _ _ _ _ (fun r _ => r = true)).
  { destruct (Nat.eqb_spec j 0) as [E0|_]; [|by apply rd_ret]. unfold can_reuse_slot0. eapply rd_bind; [by eapply rd_prev|]. intros pv w1 R1 _ ->.
    destruct (N.eqb_spec (lb_pv L) 0); [by apply rd_ret|]. destruct (lk_first _ _ _ _ _ _ HL) as [F1 _]; [done|].
    exfalso. apply Hjn. rewrite E0. by eapply elem_of_list_lookup_2. }
  intros us w1 R1 _ ->. pose proof (snap_rely _ _ Hw R1) as Hw1.
  eapply (rd_bind _ _ _ _ _ _ _ _ _ _ (fun r w' => r <> 0%N -> busy w')).
  { eapply rd_leaf; [exact Hw1|]. intros w' l L' HR HI HL' HG Hl _ _ _ _ _ E6.
    destruct (lookup_lt_is_Some_2 (l_val l) j) as [x Hx]; [lia|]. exists x. split; [done|]. intros Hx0.
    eapply free_busy; try done. intros Ep. apply Hpm, (rl_pub _ _ _ R1), (rl_pub _ _ _ HR), Ep. }
  intros vp w2 R2 _ HB. pose proof (snap_rely _ _ Hw1 R2) as Hw2.
  destruct (N.eqb_spec vp 0) as [E|E]; [apply rd_ret; split; [by left|done]|]. specialize (HB E).
  eapply rd_weaken; [apply IH; [|done|]|]. { intros x Hx. apply Ho. by right. } { intros Ep. apply Hpm, (rl_pub _ _ _ R1), (rl_pub _ _ _ R2), Ep. }
  intros [[j' off]|] w3 R3 _ H; [destruct H; split; [by right|done]|]. intros _. by apply (rl_busy _ _ _ R3).
Qed.
End Search.

(** ** updates of the invariant *)
Definition hnd (c : option phase) : option N := c ≫= handle.
Definition uph (c : option phase) (ph : gmap nat phase) : gmap nat phase := partial_alter (fun _ => c) i ph.
Lemma uph_i c ph : uph c ph !! i = c. Proof. apply lookup_partial_alter. Qed.
Lemma uph_ne c ph j : j <> i -> uph c ph !! j = ph !! j. Proof. intros. by apply lookup_partial_alter_ne. Qed.
Lemma vinv_same m t m' t' ph c : VInv m t ph -> hnd c = hnd (ph !! i) -> vals m' = vals m -> vals t' = vals t -> nxt m' = nxt m -> VInv m' t' (uph c ph).
Proof.
  intros [V1 V2 V3 V4] Hh Em Et En.
  assert (Hq : forall i' c' h, uph c ph !! i' = Some c' -> handle c' = Some h -> exists c0, ph !! i' = Some c0 /\ handle c0 = Some h).
  { intros i' c' h H1 H2. destruct (decide (i' = i)) as [->|Hne]; [|rewrite uph_ne in H1 by done; eauto].
    rewrite uph_i in H1. assert (E : hnd (ph !! i) = Some h) by (rewrite <- Hh, H1; exact H2). unfold hnd in E. destruct (ph !! i) as [c0|]; [|done]. exists c0. done. }
  split; rewrite ?Em, ?Et, ?En.
  - done.
  - intros h Hs. destruct (V2 h Hs) as [H|(i' & c' & H1 & H2)]; [by left|right]. destruct (decide (i' = i)) as [->|Hne].
    + assert (E : hnd c = Some h) by (rewrite Hh, H1; exact H2). unfold hnd in E. destruct c as [c0|]; [|done]. exists i, c0. by rewrite uph_i.
    + exists i', c'. by rewrite uph_ne.
  - intros i' c' h H1 H2. destruct (Hq i' c' h H1 H2) as (c0 & E1 & E2). by eapply V3.
  - intros i1 i2 c1 c2 h H1 H2 H3 H4. destruct (Hq i1 c1 h H1 H3) as (d1 & E1 & E2). destruct (Hq i2 c2 h H2 H4) as (d2 & E3 & E4). by eapply V4.
Qed.
Lemma ginv_same s s' ph mu pub cn c : GInv s ph mu pub cn -> sC s' = sC s ->
  (forall p g md rt pa L', sA s' !! p = Some (LF g md rt pa L') -> exists L, sA s !! p = Some (LF g md rt pa L) /\ lb_perm L' = lb_perm L) ->
  is_pub (ph !! i) = false -> is_pub c = false -> GInv s' (uph c ph) mu pub cn.
Proof.
  intros [G1 G2 G3 G4 G5 G6 G7 G8 G9] E HP H1 H2. split; try done.
  - split; [apply G1|]. intros j. rewrite (proj2 G1 j). destruct (decide (j = i)) as [->|Hne]; [rewrite uph_i; by rewrite H1, H2|by rewrite uph_ne].
  - split; [apply G2|]. intros j. rewrite (proj2 G2 j). destruct (decide (j = i)) as [->|Hne]; [rewrite uph_i|by rewrite uph_ne].
    split; intros E'; exfalso; [by rewrite E' in H1|by rewrite E' in H2].
  - by rewrite E.
  - intros Hn p g g' md md' rt rt' pa pa' L L' Hb Hs. destruct (HP _ _ _ _ _ _ Hs) as (L0 & H3 & ->). by eapply G6.
Qed.
Lemma einv_claim s s' ph c mu : EInv s ph mu -> (forall e, entry (sA s) MAIN e -> entry (sA s') MAIN e) -> 
  (match c with Some (Claimed _ _ _ _ _ _) => True | _ => mu <> ∅ end) -> EInv s' (uph c ph) mu.
Proof.
  intros [[(e & He) H2]|[H1 H2]] HE Hc; [left; split; [exists e; auto|done]|]. right. split; [done|]. right.
  destruct c as [[p j ik kx x h|h| |]|]; try done. exists i, p, j, ik, kx, x, h. apply uph_i.
Qed.
Lemma pub_mu w : CInv w -> wpub w <> [] -> wmu w <> ∅.
Proof.
  intros HI Hn E. destruct (wpub w) as [|a l] eqn:Ep; [done|]. destruct (gi_new (ci_g HI) a) as (k & v & _ & H & _); [rewrite Ep; by left|].
  by rewrite E, lookup_empty in H.
Qed.
Lemma busy_upd w w' c : wph w' = uph c (wph w) -> (wpub w <> [] -> wpub w' <> []) -> (match c with Some (Claimed _ _ _ _ _ _) => True | _ => wpub w' <> [] end) -> busy w -> busy w'.
Proof.
  intros E1 E2 Hc _. destruct c as [[p j ik kx x h|h| |]|]; try (by right). left. exists i, p, j, ik, kx, x, h. rewrite E1. apply uph_i.
Qed.
Lemma pinv_upd s s' ph c : PInv s ph -> grown (sA s) (sA s') ->
  (forall j p k ik kx x h, j <> i -> ph !! j = Some (Claimed p k ik kx x h) -> forall g rt pa L L', sA s !! p = Some (LF g MFree rt pa L) -> sA s' !! p = Some (LF g MFree rt pa L') ->
     k ∉ ids L -> k ∉ ids L' /\ lb_sl L' !! k = lb_sl L !! k) ->
  (forall p k ik kx x h, c = Some (Claimed p k ik kx x h) -> x <> 0%N /\ (exists g rt pa L y, sA s' !! p = Some (LF g MFree rt pa L) /\ k ∉ ids L /\ lb_sl L !! k = Some y /\
      (forall a, ik = Some a -> s_ik y = a) /\ (forall a, kx = Some a -> s_kx y = a)) /\
     forall j ik' kx' x' h', ph !! j = Some (Claimed p k ik' kx' x' h') -> j = i) -> PInv s' (uph c ph).
Proof.
  intros [P1 P2] HG Ho Hc. split.
  - intros j p k ik kx x h Hj. destruct (decide (j = i)) as [->|Hne].
    + rewrite uph_i in Hj. destruct (Hc _ _ _ _ _ _ Hj) as (H1 & H2 & _). done.
    + rewrite uph_ne in Hj by done. destruct (P1 _ _ _ _ _ _ _ Hj) as (H1 & g & rt & pa & L & y & H2 & H3 & H4 & H5). split; [done|].
      destruct (grown_leaf _ _ _ _ _ _ _ _ HG H2) as (L' & H6 & H7). destruct (Ho _ _ _ _ _ _ _ Hne Hj _ _ _ _ _ H2 H6 H3) as [H8 H9].
      exists g, rt, pa, L', y. rewrite H9. done.
  - intros j1 j2 p k ik kx x h ik' kx' x' h' H1 H2. destruct (decide (j1 = i)) as [->|N1], (decide (j2 = i)) as [->|N2]; [done|..].
    + rewrite uph_i in H1. rewrite uph_ne in H2 by done. destruct (Hc _ _ _ _ _ _ H1) as (_ & _ & H3). exfalso. apply N2. by eapply H3.
    + rewrite uph_i in H2. rewrite uph_ne in H1 by done. destruct (Hc _ _ _ _ _ _ H2) as (_ & _ & H3). exfalso. apply N1. by eapply H3.
    + rewrite uph_ne in H1, H2 by done. by eapply P2.
Qed.
(** another leaf's slots: who holds them stays the same *)
Lemma lov_ph ph c p l l' : lov ph p l l' -> (forall k ik kx x h, ph !! i = Some (Claimed p k ik kx x h) -> False) -> (forall k ik kx x h, c = Some (Claimed p k ik kx x h) -> False) -> lov (uph c ph) p l l'.
Proof.
  intros [O1 O2 O3 O4] H1 H2. split; [done|done| |].
  - intros j Hj. apply O3. intros (i' & ik & kx & x & h & Hc). apply Hj. exists i', ik, kx, x, h. destruct (decide (i' = i)) as [->|Hne]; [|by rewrite uph_ne].
    exfalso. by eapply H1.
  - intros i' j ik kx x h Hc. destruct (decide (i' = i)) as [->|Hne]; [rewrite uph_i in Hc; exfalso; by eapply H2|]. rewrite uph_ne in Hc by done. by eapply O4.
Qed.
Lemma rd_ver_same m p l l' q : heap m !! p = Some (NLeaf l) -> l_ver l' = l_ver l -> rd_ver q (mwith_heap (<[p := NLeaf l']> (heap m)) m) = rd_ver q m.
Proof.
  intros Hl Hv. unfold rd_ver. cbn. destruct (decide (q = p)) as [->|Hne]; [by rewrite lookup_insert, Hl, Hv|by rewrite lookup_insert_ne].
Qed.

(** a write to the value of a slot that only this thread may hold *)
Lemma put_val w p g rt pa L l j x c : CInv w -> sA (ws w) !! p = Some (LF g MFree rt pa L) -> heap (wm w) !! p = Some (NLeaf l) ->
  j ∉ ids L -> j < 24 -> (forall i' ik kx y h, wph w !! i' = Some (Claimed p j ik kx y h) -> i' = i) ->
  (forall p' j' ik kx y h, wph w !! i = Some (Claimed p' j' ik kx y h) -> p' = p /\ j' = j) ->
  is_pub (wph w !! i) = false -> is_pub c = false -> hnd c = hnd (wph w !! i) ->
  match c with
  | Some (Claimed p' j' ik kx y h) => p' = p /\ j' = j /\ y = x /\ x <> 0%N /\
      exists z, lb_sl L !! j = Some z /\ (forall a, ik = Some a -> s_ik z = a) /\ (forall a, kx = Some a -> s_kx z = a)
  | _ => x = 0%N /\ wpub w <> []
  end ->
  let w' := mk_cw (mwith_heap (<[p := NLeaf (with_val (<[j := x]> (l_val l)) l)]> (heap (wm w))) (wm w)) (wt w) (ws w) (uph c (wph w)) (wmu w) (wpub w) (wcn w) in
  CInv w' /\ forall k, k <> i -> Rely k w w'.
Proof.
  intros HI Hp Hl Hj Hj24 Hsole Hown Hp1 Hp2 Hh Hc w'.
  split; [|intros k Hk; split; [cbn; by rewrite uph_ne|apply grown_refl|done|done|apply (busy_upd _ _ c); [done|done|destruct c as [[]|]; try done; by destruct Hc]]].
  split; cbn [wm wt ws wph wmu wpub wcn w'].
  - apply HI.
  - destruct (ci_m HI) as [M1 M2 M3 M4 M5 M6 M7 M8]. split; try done.
    { intros q. rewrite <- M1. by apply (rd_ver_same _ _ l). }
    intros q. cbn [heap mwith_heap]. destruct (decide (q = p)) as [->|Hne].
    + rewrite lookup_insert. specialize (M2 p). rewrite Hl in M2. destruct (heap (wt w) !! p) as [[l'|?]|] eqn:Et; try done.
      destruct (leaf_at _ _ _ _ _ _ _ _ _ _ _ _ _ HI Hp) as (l1 & l2 & T1 & T2 & _ & T4 & _).
      assert (l2 = l') as -> by congruence. clear T1 l1.
      destruct M2 as [O1 O2 O3 O4]. split.
      * by rewrite O1.
      * cbn. by rewrite insert_length.
      * intros k Hk. cbn. destruct (decide (k = j)) as [->|Hkj].
        -- rewrite list_lookup_insert by lia. assert (x = 0%N) as ->.
           { destruct c as [[p' j' ik kx y h|h| |]|]; try (by destruct Hc). destruct Hc as (-> & -> & _). exfalso. apply Hk. exists i, ik, kx, y, h. apply uph_i. }
           destruct (lookup_lt_is_Some_2 (lb_sl L) j) as [z Hz]; [rewrite (lr_len _ _ _ T4); lia|].
           rewrite (lr_val _ _ _ T4), list_lookup_fmap, Hz. cbn. f_equal.
           destruct (lk_free _ _ _ _ _ _ (iv_l _ _ _ _ _ (ti_inv (ci_t HI)) _ _ _ _ _ _ Hp) j z Hz Hj) as [E _]. by rewrite E.
        -- rewrite list_lookup_insert_ne by done. apply O3. intros (i' & ik & kx & y & h & Hc'). apply Hk. exists i', ik, kx, y, h.
           destruct (decide (i' = i)) as [->|Hne]; [|by rewrite uph_ne]. destruct (Hown _ _ _ _ _ _ Hc') as [_ ->]. done.
      * intros i' k ik kx y h Hc'. cbn. destruct (decide (i' = i)) as [->|Hne].
        -- rewrite uph_i in Hc'. rewrite Hc' in Hc. destruct Hc as (_ & -> & -> & _). apply list_lookup_insert. lia.
        -- rewrite uph_ne in Hc' by done. rewrite list_lookup_insert_ne; [by eapply O4|]. intros <-. apply Hne. by eapply Hsole.
    + rewrite lookup_insert_ne by done. specialize (M2 q). destruct (heap (wm w) !! q) as [[l1|?]|], (heap (wt w) !! q) as [[l2|?]|]; try done.
      apply lov_ph; [done| |].
      * intros k ik kx y h E. destruct (Hown _ _ _ _ _ _ E) as [-> _]. done.
      * intros k ik kx y h ->. destruct Hc as (-> & _). done.
  - apply (pinv_upd (ws w)); [apply HI|apply grown_refl| |].
    + intros. simplify_eq. done.
    + intros p' k ik kx y h ->. destruct Hc as (-> & -> & -> & Hx & z & Z1 & Z2). split; [done|]. split; [|intros; by eapply Hsole].
      exists g, rt, pa, L, z. done.
  - by apply (vinv_same (wm w) (wt w)); [apply HI|..].
  - apply (ginv_same (ws w)); [apply HI|done|eauto|done|done].
  - apply (einv_claim (ws w)); [apply HI|done|]. destruct c as [[]|]; try done; by apply (pub_mu _ HI), Hc.
Qed.

(** a write to the key of a reserved slot *)
Lemma es_free L j y : j ∉ ids L -> es (lslot L j y) = es L.
Proof.
  intros Hj. unfold es. change (ids (lslot L j y)) with (ids L). apply map_ext_in. intros k Hk%elem_of_list_In. unfold ent. cbn.
  rewrite !nth_lookup, list_lookup_insert_ne; [done|]. by intros ->.
Qed.
Lemma leaf_ok_free SA V g L j y : leaf_ok K B SA V g L -> j ∉ ids L -> s_ptr y = 0%N -> s_sf y = None -> leaf_ok K B SA V g (lslot L j y).
Proof.
  intros [L1 L2 L3 L4 L5 L6 L7 L8 L9 L10 L11] Hj Hp Hs. pose proof (es_free L j y Hj) as E.
  split; rewrite ?E; try done.
  - cbn. by rewrite insert_length.
  - intros k x Hk Hn. cbn in Hk. destruct (decide (k = j)) as [->|Hne]; [|rewrite list_lookup_insert_ne in Hk by done; by eapply L3].
    destruct (decide (j < length (lb_sl L))); [rewrite list_lookup_insert in Hk by done; by injection Hk as <-|].
    apply lookup_lt_Some in Hk. rewrite insert_length in Hk. lia.
  - intros k x Hk Hn. cbn in Hk. destruct (decide (k = j)) as [->|Hne]; [|rewrite list_lookup_insert_ne in Hk by done; by eapply L4].
    destruct (decide (j < length (lb_sl L))); [rewrite list_lookup_insert in Hk by done; by injection Hk as <-|].
    apply lookup_lt_Some in Hk. rewrite insert_length in Hk. lia.
  - intros Hpv. destruct (L9 Hpv) as [F1 F2]. change (ids (lslot L j y)) with (ids L). split; [done|]. unfold ent. cbn.
    rewrite nth_lookup, list_lookup_insert_ne; [|intros ->; apply Hj; by eapply elem_of_list_lookup_2]. by rewrite <- nth_lookup.
Qed.
Lemma put_key w p g rt pa L l l' j y y' ik kx x h ik' kx' l2 l2' : CInv w -> wph w !! i = Some (Claimed p j ik kx x h) ->
  sA (ws w) !! p = Some (LF g MFree rt pa L) -> heap (wm w) !! p = Some (NLeaf l) -> heap (wt w) !! p = Some (NLeaf l') ->
  lb_sl L !! j = Some y -> s_ptr y' = 0%N -> s_sf y' = None ->
  (forall a, ik' = Some a -> s_ik y' = a) -> (forall a, kx' = Some a -> s_kx y' = a) ->
  St (mwith_heap (<[p := NLeaf l2']> (heap (wt w))) (wt w)) (setA p (LF g MFree rt pa (lslot L j y')) (ws w)) ->
  l2' = with_val (l_val l2') l2 -> l_val l2 = l_val l -> l_val l2' = l_val l' -> l_ver l2 = l_ver l ->
  let w' := mk_cw (mwith_heap (<[p := NLeaf l2]> (heap (wm w))) (wm w)) (mwith_heap (<[p := NLeaf l2']> (heap (wt w))) (wt w))
     (setA p (LF g MFree rt pa (lslot L j y')) (ws w)) (uph (Some (Claimed p j ik' kx' x h)) (wph w)) (wmu w) (wpub w) (wcn w) in
  CInv w' /\ forall k, k <> i -> Rely k w w'.
Proof.
  intros HI Hc Hp Hl Hl' Hy Hy1 Hy2 Hik Hkx HSt El Ev Ev' Ever w'.
  destruct (pi_cl (ci_p HI) _ _ _ _ _ _ _ Hc) as (Hx & g1 & rt1 & pa1 & L1 & y1 & C1 & C2 & C3 & C4 & C5).
  rewrite Hp in C1. injection C1 as <- <- <- <-.
  pose proof (iv_l _ _ _ _ _ (ti_inv (ci_t HI)) _ _ _ _ _ _ Hp) as HL.
  assert (Hgr : grown (sA (ws w)) (<[p := LF g MFree rt pa (lslot L j y')]> (sA (ws w)))).
  { apply (grown_set _ _ _ _ Hp). repeat (split; [done|]). cbn. split; [done|done|done|]. intros k Hk. split; [done|]. cbn. rewrite list_lookup_insert_ne; [done|]. by intros ->. }
  assert (Hcs : csame (sA (ws w)) (<[p := LF g MFree rt pa (lslot L j y')]> (sA (ws w)))).
  { split.
    - intros q n Hq. destruct (Hgr q n Hq) as (n' & H1 & H2 & _). exists n'. by rewrite H2.
    - intros l0 e. rewrite (entry_leaf_upd _ _ _ _ _ _ _ _ _ _ Hp eq_refl), es_free by done. split.
      + intros [[-> He]|(q & g2 & m2 & rt2 & pa2 & L2 & _ & H)]; [by exists p, g, MFree, rt, pa, L|by exists q, g2, m2, rt2, pa2, L2].
      + intros (q & g2 & m2 & rt2 & pa2 & L2 & Hq & H2 & H3). destruct (decide (q = p)) as [->|Hne]; [left; by simplify_eq|right]. by exists q, g2, m2, rt2, pa2, L2. }
  assert (Hinv : Inv K B (setA p (LF g MFree rt pa (lslot L j y')) (ws w)) 0 0).
  { eapply (inv_leaf_upd K B B (ws w)); [apply HI|exact Hp|done|done|done|done|done|done|]. by apply leaf_ok_free. }
  split; [|intros k Hk; split; [cbn; by rewrite uph_ne|done|done|done|by apply (busy_upd _ _ (Some (Claimed p j ik' kx' x h)))]].
  destruct (ci_t HI) as [T1 T2 T3 T4 T5 T6 T7 T8 T9].
  split; cbn [wm wt ws wph wmu wpub wcn w'].
  - split; [done|done| |done|done| | | |done].
    + intros q n Hq Hn. cbn [setA sA] in Hq. destruct (decide (q = p)) as [->|Hne]; [rewrite lookup_insert in Hq; by injection Hq as <-|].
      rewrite lookup_insert_ne in Hq by done. by eapply T3.
    + intros q g2 m2 rt2 pa2 L2 e Hq He. cbn [setA sA] in Hq. destruct (decide (q = p)) as [->|Hne].
      * rewrite lookup_insert in Hq. injection Hq as <- <- <- <- <-. rewrite es_free in He by done. by eapply T6.
      * rewrite lookup_insert_ne in Hq by done. by eapply T6.
    + intros k v Hk. rewrite <- (T7 k v Hk). by apply (csame_maps K B).
    + by eapply grown_trans.
  - destruct (ci_m HI) as [M1 M2 M3 M4 M5 M6 M7 M8]. split; try done.
    { intros q. rewrite <- M1. by apply (rd_ver_same _ _ l). }
    intros q. cbn [heap mwith_heap]. destruct (decide (q = p)) as [->|Hne].
    + rewrite !lookup_insert. specialize (M2 p). rewrite Hl, Hl' in M2. destruct M2 as [O1 O2 O3 O4]. split; [done|by rewrite Ev| |].
      * intros k Hk. rewrite Ev, Ev'. apply O3. intros (i' & a1 & a2 & a3 & a4 & Hi'). apply Hk. destruct (decide (i' = i)) as [->|Hne].
        -- rewrite Hc in Hi'. injection Hi' as <- _ _ _ _. exists i, ik', kx', x, h. apply uph_i.
        -- exists i', a1, a2, a3, a4. by rewrite uph_ne.
      * intros i' k a1 a2 a3 a4 Hi'. rewrite Ev. destruct (decide (i' = i)) as [->|Hne].
        -- rewrite uph_i in Hi'. injection Hi' as <- <- <- <- <-. by eapply O4.
        -- rewrite uph_ne in Hi' by done. by eapply O4.
    + rewrite !lookup_insert_ne by done. specialize (M2 q). destruct (heap (wm w) !! q) as [[l1|?]|], (heap (wt w) !! q) as [[l3|?]|]; try done.
      apply lov_ph; [done| |].
      * intros k a1 a2 a3 a4 E. rewrite Hc in E. injection E as E _. done.
      * intros k a1 a2 a3 a4 E. injection E as E _. done.
  - apply (pinv_upd (ws w)); [apply HI|done| |].
    + intros i' p' k a1 a2 a3 a4 Hne Hi' g2 rt2 pa2 L2 L3 H1 H2 H3. cbn [setA sA] in H2. destruct (decide (p' = p)) as [->|Hnp].
      * rewrite lookup_insert in H2. rewrite Hp in H1. injection H1 as <- <- <- <-. injection H2 as <-. split; [done|]. cbn. rewrite list_lookup_insert_ne; [done|].
        intros ->. apply Hne. by eapply (pi_sep (ci_p HI)).
      * rewrite lookup_insert_ne in H2 by done. by simplify_eq.
    + intros p' k a1 a2 a3 a4 E. injection E as <- <- <- <- <- <-. split; [done|]. split.
      * exists g, rt, pa, (lslot L j y'), y'. cbn [setA sA]. rewrite lookup_insert. split; [done|]. split; [done|]. split; [|done]. cbn. apply list_lookup_insert. by eapply lookup_lt_Some.
      * intros j' b1 b2 b3 b4 E. by eapply (pi_sep (ci_p HI)).
  - apply (vinv_same (wm w) (wt w)); [apply HI| |done|done|done]. by rewrite Hc.
  - apply (ginv_same (ws w)); [apply HI|done| |by rewrite Hc|done]. intros q g2 m2 rt2 pa2 L' Hq. cbn [setA sA] in Hq.
    destruct (decide (q = p)) as [->|Hne]; [rewrite lookup_insert in Hq; injection Hq as <- <- <- <- <-; by exists L|].
    rewrite lookup_insert_ne in Hq by done. by exists L'.
  - apply (einv_claim (ws w)); [apply HI| |done]. intros e. by apply (cs_ent _ _ Hcs).
Qed.

(** the new value is allocated *)
Lemma put_alloc w p j ik kx x v : CInv w -> wph w !! i = Some (Claimed p j ik kx x None) -> calls !! i = Some (kb, v) ->
  let h := nxt (wm w) in
  let w' := mk_cw (mwith_nxt (h + 2) (mwith_vals (<[h := v]> (vals (wm w))) (wm w))) (mwith_nxt (h + 2) (wt w))
     (ws w) (uph (Some (Claimed p j ik kx x (Some h))) (wph w)) (wmu w) (wpub w) (wcn w) in
  h <> 0%N /\ CInv w' /\ forall k, k <> i -> Rely k w w'.
Proof.
  intros HI Hc Hcall h w'. destruct (ci_t HI) as [T1 T2 T3 T4 T5 T6 T7 T8 T9]. destruct (ci_m HI) as [M1 M2 M3 M4 M5 M6 M7 M8].
  pose proof (st_nxt _ _ T1) as Hn. assert (Hh : h = nxt (wt w)) by done.
  assert (Hz : h <> 0%N) by (rewrite Hh; destruct Hn; lia).
  assert (Hbump : forall a, addr_ok h a -> addr_ok (h + 2) a) by (intros a []; split; [lia|done]).
  assert (Hfresh : vals (wm w) !! h = None).
  { destruct (vals (wm w) !! h) eqn:E; [|done]. exfalso. destruct (vi_2 (ci_v HI) h) as [H|(i' & c & H1 & H2)]; [by eexists| |].
    - destruct (st_av _ _ T1 h H). rewrite <- Hh in *. lia.
    - destruct (vi_3 (ci_v HI) _ _ _ H1 H2) as (_ & [H3 _] & _). unfold h in H3. lia. }
  split; [done|]. split; [|intros k Hk; split; [cbn; by rewrite uph_ne|apply grown_refl|done|done|by apply (busy_upd _ _ (Some (Claimed p j ik kx x (Some h))))]].
  split; cbn [wm wt ws wph wmu wpub wcn w'].
  - split; try done. destruct T1 as [Sh Sr Sc Sv Sn San Sab Sav Sov Sob Son]. split; cbn [heap bags vals root cnt nxt retired tracked mwith_nxt]; try done.
    + rewrite Hh. split; [lia|]. rewrite N.even_add. by destruct Sn as [_ ->].
    + intros q Hq. apply Hbump. rewrite Hh. auto.
    + intros q Hq. apply Hbump. rewrite Hh. auto.
    + intros q Hq. apply Hbump. rewrite Hh. auto.
  - split; try done. intros q. cbn [heap mwith_nxt mwith_vals]. specialize (M2 q).
    destruct (heap (wm w) !! q) as [[l1|?]|], (heap (wt w) !! q) as [[l3|?]|]; try done.
    destruct M2 as [O1 O2 O3 O4]. split; [done|done| |].
    + intros k Hk. apply O3. intros (i' & a1 & a2 & a3 & a4 & Hi'). apply Hk. destruct (decide (i' = i)) as [->|Hne].
      * rewrite Hc in Hi'. injection Hi' as <- <- _ _ _ _. exists i, ik, kx, x, (Some h). apply uph_i.
      * exists i', a1, a2, a3, a4. by rewrite uph_ne.
    + intros i' k a1 a2 a3 a4 Hi'. destruct (decide (i' = i)) as [->|Hne].
      * rewrite uph_i in Hi'. injection Hi' as <- <- <- <- <- <-. by eapply O4.
      * rewrite uph_ne in Hi' by done. by eapply O4.
  - apply (pinv_upd (ws w)); [apply HI|apply grown_refl|intros; by simplify_eq|].
    intros p' k a1 a2 a3 a4 E. injection E as <- <- <- <- <- <-. destruct (pi_cl (ci_p HI) _ _ _ _ _ _ _ Hc) as (Hx & H). split; [done|]. split; [done|].
    intros j' b1 b2 b3 b4 E. by eapply (pi_sep (ci_p HI)).
  - destruct (ci_v HI) as [V1 V2 V3 V4].
    assert (Hold : forall i' c h', i' <> i -> wph w !! i' = Some c -> handle c = Some h' -> h' <> h).
    { intros i' c h' _ H1 H2 ->. destruct (V3 _ _ _ H1 H2) as (_ & _ & k & v' & _ & E). congruence. }
    split; cbn [vals mwith_vals mwith_nxt nxt].
    + intros a b E. rewrite lookup_insert_ne; [auto|]. intros <-. rewrite (V1 _ _ E) in Hfresh. done.
    + intros a [b E]. destruct (decide (a = h)) as [->|Hne]; [right; exists i, (Claimed p j ik kx x (Some h)); by rewrite uph_i|].
      rewrite lookup_insert_ne in E by done. destruct (V2 a) as [H|(i' & c & H1 & H2)]; [by eexists|by left|right].
      exists i', c. destruct (decide (i' = i)) as [->|Hne']; [|by rewrite uph_ne]. rewrite Hc in H1. by injection H1 as <-.
    + intros i' c h' H1 H2. destruct (decide (i' = i)) as [->|Hne].
      * rewrite uph_i in H1. injection H1 as <-. injection H2 as <-. split.
        { destruct (vals (wt w) !! h) eqn:E; [|done]. by rewrite (V1 _ _ E) in Hfresh. }
        split; [split; [fold h; lia|rewrite Hh; apply Hn]|]. exists kb, v. split; [done|]. apply lookup_insert.
      * rewrite uph_ne in H1 by done. destruct (V3 _ _ _ H1 H2) as (Q1 & Q2 & k & v' & Q3 & Q4). split; [done|]. split; [by apply Hbump|].
        exists k, v'. split; [done|]. rewrite lookup_insert_ne; [done|]. apply not_eq_sym. by eapply Hold.
    + intros i1 i2 c1 c2 h' H1 H2 H3 H4. destruct (decide (i1 = i)) as [->|N1], (decide (i2 = i)) as [->|N2]; [done|..].
      * rewrite uph_i in H1. rewrite uph_ne in H2 by done. injection H1 as <-. injection H3 as <-. exfalso. by eapply Hold.
      * rewrite uph_i in H2. rewrite uph_ne in H1 by done. injection H2 as <-. injection H4 as <-. exfalso. by eapply Hold.
      * rewrite uph_ne in H1, H2 by done. by eapply V4.
  - apply (ginv_same (ws w)); [apply HI|done|eauto|by rewrite Hc|done].
  - apply (einv_claim (ws w)); [apply HI|done|done].
Qed.

(** the value is dropped again *)
Lemma put_drop w h : CInv w -> wph w !! i = Some (Dropping h) -> wpub w <> [] ->
  let w' := mk_cw (mwith_vals (delete h (vals (wm w))) (wm w)) (wt w) (ws w) (uph None (wph w)) (wmu w) (wpub w) (wcn w) in
  is_Some (vals (wm w) !! h) /\ CInv w' /\ forall k, k <> i -> Rely k w w'.
Proof.
  intros HI Hc Hmu w'. destruct (vi_3 (ci_v HI) _ _ _ Hc eq_refl) as (H0 & _ & k0 & v0 & _ & Hv). split; [by eexists|].
  split; [|intros k Hk; split; [cbn; by rewrite uph_ne|apply grown_refl|done|done|by apply (busy_upd _ _ None)]].
  split; cbn [wm wt ws wph wmu wpub wcn w'].
  - apply HI.
  - destruct (ci_m HI) as [M1 M2 M3 M4 M5 M6 M7 M8]. split; try done. intros q. cbn [heap mwith_vals]. specialize (M2 q).
    destruct (heap (wm w) !! q) as [[l1|?]|], (heap (wt w) !! q) as [[l3|?]|]; try done. apply lov_ph; [done| |done]. intros. congruence.
  - apply (pinv_upd (ws w)); [apply HI|apply grown_refl|intros; by simplify_eq|done].
  - destruct (ci_v HI) as [V1 V2 V3 V4]. split; cbn [vals mwith_vals].
    + intros a b E. rewrite lookup_delete_ne; [auto|]. intros <-. congruence.
    + intros a [b E]. apply lookup_delete_Some in E as [Hne E]. destruct (V2 a) as [H|(i' & c & H1 & H2)]; [by eexists|by left|right].
      exists i', c. rewrite uph_ne; [done|]. intros ->. rewrite Hc in H1. injection H1 as <-. injection H2 as <-. done.
    + intros i' c h' H1 H2. assert (Hne : i' <> i) by (intros ->; by rewrite uph_i in H1). rewrite uph_ne in H1 by done.
      destruct (V3 _ _ _ H1 H2) as (Q1 & Q2 & k & v' & Q3 & Q4). split; [done|]. split; [done|]. exists k, v'. split; [done|].
      rewrite lookup_delete_ne; [done|]. intros <-. apply Hne. by eapply V4.
    + intros i1 i2 c1 c2 h' H1 H2. assert (N1 : i1 <> i) by (intros ->; by rewrite uph_i in H1). assert (N2 : i2 <> i) by (intros ->; by rewrite uph_i in H2).
      rewrite uph_ne in H1, H2 by done. by eapply V4.
  - apply (ginv_same (ws w)); [apply HI|done|eauto|by rewrite Hc|done].
  - apply (einv_claim (ws w)); [apply HI|done|by apply pub_mu].
Qed.

(** the count *)
Lemma put_count w : CInv w -> wph w !! i = Some Published ->
  let w' := mk_cw (mwith_cnt (cnt (wm w) + 1) (wm w)) (mwith_cnt (cnt (wt w) + 1) (wt w)) (setC (sC (ws w) + 1) (ws w)) (uph (Some Counted) (wph w)) (wmu w) (wpub w) (i :: wcn w) in
  CInv w' /\ forall k, k <> i -> Rely k w w'.
Proof.
  intros HI Hc w'. destruct (ci_t HI) as [T1 T2 T3 T4 T5 T6 T7 T8 T9].
  assert (Hin : i ∈ wpub w) by (apply (gi_pub (ci_g HI)); by rewrite Hc). assert (Hnn : wpub w <> []) by (intros E; rewrite E in Hin; by apply elem_of_nil in Hin).
  split; [|intros k Hk; split; [cbn; by rewrite uph_ne|apply grown_refl|done|done|by apply (busy_upd _ _ (Some Counted))]].
  split; cbn [wm wt ws wph wmu wpub wcn w'].
  - split; try done.
    + destruct T1 as [Sh Sr Sc Sv Sn San Sab Sav Sov Sob Son]. split; cbn [heap bags vals root cnt nxt retired tracked mwith_cnt sA sR sC sV sfv sfn setC]; try done. congruence.
    + destruct T2. by split.
  - destruct (ci_m HI) as [M1 M2 M3 M4 M5 M6 M7 M8]. split; try done; [|cbn; by rewrite M5]. intros q. cbn [heap mwith_cnt]. specialize (M2 q).
    destruct (heap (wm w) !! q) as [[l1|?]|], (heap (wt w) !! q) as [[l3|?]|]; try done. apply lov_ph; [done|intros; congruence|done].
  - apply (pinv_upd (ws w)); [apply HI|apply grown_refl| |done]. cbn [setC sA]. intros. by simplify_eq.
  - apply (vinv_same (wm w) (wt w)); [apply HI|by rewrite Hc|done|done|done].
  - destruct (ci_g HI) as [G1 G2 G3 G4 G5 G6 G7 G8 G9]. split; try done.
    + split; [apply G1|]. intros j. rewrite (proj2 G1 j). destruct (decide (j = i)) as [->|Hne]; [by rewrite uph_i, Hc|by rewrite uph_ne].
    + assert (Hni : i ∉ wcn w) by (rewrite (proj2 G2 i), Hc; done). split; [constructor; [done|apply G2]|]. intros j. rewrite elem_of_cons, (proj2 G2 j).
      destruct (decide (j = i)) as [->|Hne]; [rewrite uph_i; naive_solver|rewrite uph_ne by done; naive_solver].
    + cbn [setC sC length]. rewrite G3. lia.
  - destruct (ci_e HI) as [H|[H1 H2]]; [by left|right]. exfalso. 
    destruct (gi_new (ci_g HI) _ Hin) as (k & v & _ & E & _). by rewrite H1, lookup_empty in E.
Qed.
End S.
