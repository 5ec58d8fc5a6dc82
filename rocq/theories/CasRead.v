(** Lookups while lock-free insertions run. *)
From Verif Require Import Base Perm PermFacts PermList SpecPerm PermLaws Key SpecKey KeyFacts Suffix SpecSuffix SuffixFacts Prog Version VersionFacts VersionTry Mem Tree SpecTree SpecHist TreeState TreePrim TreeInv TreeRead TreeSplit TreeSkel TreeInode TreeProp TreeLeaf TreeContent TreeInsert TreeLayer TreeConv TreeLoop TreeTop TreeLaws Freeze CasInsert CasFacts CasConc CasSteps CasPub CasThread CasRun.

Section S.
Context (K : bytes -> N -> Prop) (B : N) (mb : mem) (sb : ast) (mu0 : gmap bytes N) (calls : list (bytes * N)).
Context (i : nat) (kb : bytes) (Hkb : is_bytes kb) (Hkl : length kb <= 256).
Context (HS : St mb sb) (HI0 : Inv K B sb 0 0) (Hfb : free_but [] (sA sb)).
Context (F : nat) (HF : 300 <= F).
Local Notation rd := (rd K B mb sb mu0 calls i).
Local Notation CInv := (CInv K B mb sb mu0 calls).
Local Notation cwp := (cwp K B mb sb mu0 calls i).
Local Notation A := (sA sb).
Local Notation I := (iv_s _ _ _ _ _ HI0).

(** ** entries stay *)
Lemma leaf_fine w p g md rt pa L : CInv w -> sA (ws w) !! p = Some (LF g md rt pa L) -> leaf_ok K B (skels (sA (ws w))) (sV (ws w)) g L.
Proof. intros HC. apply (iv_l _ _ _ _ _ (ti_inv (ci_t HC))). Qed.
Lemma es_grown w w' p p' g g' md md' rt rt' pa pa' L L' e : CInv w -> CInv w' -> sA (ws w) !! p = Some (LF g md rt pa L) -> sA (ws w') !! p' = Some (LF g' md' rt' pa' L') ->
  lgrow L L' -> e ∈ es L -> e ∈ es L'.
Proof.
  intros HC HC' Hp Hp' HG He. apply (es_elem _ _ _ _ _ _ (leaf_fine _ _ _ _ _ _ _ HC Hp)) in He as (j & H1 & H2 & H3).
  apply (es_elem _ _ _ _ _ _ (leaf_fine _ _ _ _ _ _ _ HC' Hp')). destruct (lg_in _ _ HG j H1) as [H4 H5]. exists j. split; [done|]. split; [congruence|done].
Qed.
Lemma entry_grown w w' l e : CInv w -> CInv w' -> grown (sA (ws w)) (sA (ws w')) -> entry (sA (ws w)) l e -> entry (sA (ws w')) l e.
Proof.
  intros HC HC' HG (p & g & md & rt & pa & L & Hp & Hl & He). destruct (grown_leaf _ _ _ _ _ _ _ _ HG Hp) as (L' & Hp' & HL).
  exists p, g, md, rt, pa, L'. split; [done|]. split; [done|]. by eapply (es_grown w w').
Qed.
Lemma reaches_grown w w' l d h : CInv w -> CInv w' -> grown (sA (ws w)) (sA (ws w')) -> reaches (sA (ws w)) kb l d h -> reaches (sA (ws w')) kb l d h.
Proof.
  intros HC HC' HG H. induction H as [l d e H1 H2 H3|l d e n h H1 H2 H3 H4 H5 H6 IH].
  - apply r_here; [by eapply (entry_grown w)|done|done].
  - destruct (HG _ _ H5) as (n' & E1 & E2 & _). eapply r_down; [by eapply (entry_grown w)|done|done|done|exact E1|]. by rewrite E2.
Qed.
(** every node was there at the beginning *)
Lemma was_there w p n : CInv w -> sA (ws w) !! p = Some n -> exists n0, A !! p = Some n0 /\ ngrow n0 n.
Proof.
  intros HC Hp. destruct (A !! p) as [n0|] eqn:E.
  - exists n0. split; [done|]. destruct (ti_grow (ci_t HC) _ _ E) as (n1 & H1 & H2). congruence.
  - exfalso. apply (St_none _ _ _ HS) in E. pose proof (mi_ver (ci_m HC) p) as Hv. unfold rd_ver in Hv at 2. rewrite E in Hv.
    destruct (St_lookup _ _ _ _ (ti_st (ci_t HC)) Hp) as (x & Hx & _). pose proof (mi_heap (ci_m HC) p) as Hh. rewrite Hx in Hh. unfold rd_ver in Hv.
    destruct (heap (wm w) !! p) as [[]|], x; done.
Qed.

(** ** reading parents and suffixes *)
Lemma rd_parent p n w : A !! p = Some n -> rd (if is_leafb (a_bd n) then leaf_parent p else inode_parent p) w (fun r _ => r = a_pa n).
Proof.
  intros Hp. assert (HH : forall w', CInv w' -> exists n', sA (ws w') !! p = Some n' /\ a_pa n' = a_pa n /\ is_leafb (a_bd n') = is_leafb (a_bd n)).
  { intros w' HC. destruct (ti_grow (ci_t HC) _ _ Hp) as (n' & H1 & H2 & H3 & H4 & H5 & H6). exists n'. split; [done|]. split; [done|]. by destruct (a_bd n), (a_bd n'). }
  destruct (is_leafb (a_bd n)) eqn:Eb.
  - apply rd_at. intros w' HR HC. destruct (HH w' HC) as ([g md rt pa [L|J]] & H1 & H2 & H3); [|done]. cbn in H2.
    destruct (St_leaf _ _ _ _ _ _ _ _ (ti_st (ci_t HC)) H1) as (l' & E1 & _ & E3 & _). pose proof (mi_heap (ci_m HC) p) as Hh. rewrite E1 in Hh.
    destruct (heap (wm w') !! p) as [[l|?]|]; try done. exists (l_parent l). split; [done|]. rewrite <- H2, <- E3. pose proof (lo_rest _ _ _ _ Hh) as E. by rewrite E.
  - apply rd_at. intros w' HR HC. destruct (HH w' HC) as ([g md rt pa [L|J]] & H1 & H2 & H3); [done|]. cbn in H2.
    destruct (St_lookup _ _ _ _ (ti_st (ci_t HC)) H1) as (x & Hx & Hr). pose proof (mi_heap (ci_m HC) p) as Hh. rewrite Hx in Hh.
    destruct x as [l|y]; [by destruct Hr|]. destruct (heap (wm w') !! p) as [[l|?]|]; try done. injection Hh as ->. exists (i_parent y). split; [done|]. rewrite <- H2. apply Hr.
Qed.
Section Leaf.
Context (p : N) (g : ghost) (rt : bool) (pa : N) (L : lbody) (SA : gmap N snode) (V : gmap N N) (HL : leaf_ok K B SA V g L).
Notation snap w := (grown (<[p := LF g MFree rt pa L]> ∅) (sA (ws w))).
Lemma rd_ksuf_equals j x suf w : snap w -> j ∈ ids L -> lb_sl L !! j = Some x -> s_kx x = KSUF_KEYLENX ->
  rd (ksuf_equals p j suf) w (fun r _ => r = bool_decide (s_sf x = Some suf)).
Proof.
  intros Hw Hj Hx Hk. unfold ksuf_equals. eapply rd_bind; [by eapply rd_keylenx|]. intros r w1 R1 _ ->. rewrite Hk, N.eqb_refl.
  assert (Hw1 : snap w1) by (eapply grown_trans; [exact Hw|apply R1]).
  assert (HB : forall w2, Rely i w1 w2 -> CInv w2 -> exists L' l, sA (ws w2) !! p = Some (LF g MFree rt pa L') /\ heap (wm w2) !! p = Some (NLeaf l) /\ l_ksuf l = lb_bg L /\
    lb_sl L' !! j = Some x /\ length (lb_sl L') = 24 /\ bag_rel (bags (wm w2)) (lb_bg L) (lb_bud L') (lb_sl L')).
  { intros w2 R2 HC2. destruct (old_leaf _ _ _ _ _ _ _ Hw1 _ R2) as (L' & H1 & H2).
    destruct (leaf_at _ _ _ _ _ _ _ _ _ _ _ _ _ HC2 H1) as (l & l' & E1 & E2 & E3 & E4 & _). exists L', l. split; [done|]. split; [done|].
    rewrite (mi_bags (ci_m HC2)), <- (lg_bg _ _ H2). split; [rewrite <- (lr_bg _ _ _ E4); pose proof (lo_rest _ _ _ _ E3) as ->; done|].
    split; [destruct (lg_in _ _ H2 j Hj) as [_ ->]; done|]. split; [apply (lr_len _ _ _ E4)|apply (lr_bag _ _ _ E4)]. }
  eapply (rd_bind _ _ _ _ _ _ _ _ _ _ (fun b _ => b = lb_bg L /\ (lb_bg L = 0%N -> s_sf x = None))).
  { apply rd_at. intros w2 R2 HC2. destruct (HB w2 R2 HC2) as (L' & l & E1 & E2 & E3 & E4 & E5 & E6). rewrite E2. exists (lb_bg L). rewrite <- E3 at 1. split; [done|]. split; [done|].
    intros Hz. unfold bag_rel in E6. rewrite decide_True in E6 by done. by apply (E6 j). }
  intros b w2 R2 HC2 (-> & Hz0). destruct (N.eqb_spec (lb_bg L) 0) as [Hz|Hz].
  { apply rd_ret. rewrite (Hz0 Hz). by rewrite bool_decide_false. }
  apply rd_at. intros w3 R3 HC3. destruct (HB w3 (rely_trans _ _ _ _ R2 R3) HC3) as (L' & l & E1 & E2 & E3 & E4 & E5 & E6).
  unfold bag_rel in E6. rewrite decide_False in E6 by done. destruct E6 as (bg & mm & B1 & B2 & B3). eexists. split; [|done].
  rewrite B1. unfold bag_equals. rewrite (bag_get_inv 24 _ _ _ j B2); [|rewrite <- E5; by eapply lookup_lt_Some].
  rewrite <- (B3 j x) by done. cbn [res_bind]. destruct (s_sf x) as [y|]; cbn.
  - f_equal. f_equal. destruct (decide (y = suf)) as [->|]; [by rewrite !bool_decide_true|by rewrite !bool_decide_false by congruence].
  - by rewrite bool_decide_false.
Qed.
(** the scan of a leaf as it was when its permutation was read *)
Definition scanned (d : nat) (o : option (N * N)) : Prop :=
  match o with
  | Some (kx, ptr) => exists e, e ∈ es L /\ hit (drop (d * 8) kb) e /\ kx = s_kx e /\ ptr = s_ptr e
  | None => forall e, e ∈ es L -> ~ hit (drop (d * 8) kb) e
  end.
Lemma rd_scan_leaf d w : snap w -> d * 8 <= length kb -> rd (scan_leaf p (kpos kb d) (active_slots (lb_perm L))) w (fun o _ => scanned d o).
Proof.
  intros Hw Hd.
  assert (HG : forall l, (forall j, j ∈ l -> j ∈ ids L) -> ((forall j e, j ∈ l -> lb_sl L !! j = Some e -> ~ hit (drop (d * 8) kb) e) -> scanned d None) ->
    forall w, snap w -> rd (scan_leaf p (kpos kb d) l) w (fun o _ => scanned d o)).
  2: { apply HG; [done| |done]. intros HN e He. apply (es_elem _ _ _ _ _ _ HL) in He as (j & Hj & Hs & _). by eapply HN. }
  clear w Hw. induction l as [|j l IH]; intros Hl HQ2 w Hw; cbn [scan_leaf].
  { apply rd_ret, HQ2. intros j e Hj. by apply elem_of_nil in Hj. }
  assert (Hin : j ∈ ids L) by (apply Hl; left).
  assert (Hj : j < 24) by (eapply ids_lt; [apply HL|done]).
  pose proof (ent_lookup _ _ _ _ _ _ HL j Hj) as Hs. set (e := ent L j) in *.
  assert (He : e ∈ es L) by (apply (es_elem _ _ _ _ _ _ HL); eauto).
  pose proof (lk_ent _ _ _ _ _ _ HL e He) as (Hpz & Hent).
  assert (Hnext : ~ hit (drop (d * 8) kb) e -> forall w, snap w -> rd (scan_leaf p (kpos kb d) l) w (fun o _ => scanned d o)).
  { intros Hno. apply IH; [intros; apply Hl; by right|]. intros HN. apply HQ2.
    intros q e' Hq Hje. apply elem_of_cons in Hq as [->|Hq]; [|by eapply HN].
    assert (e' = e) as -> by congruence. done. }
  assert (Hfound : hit (drop (d * 8) kb) e -> scanned d (Some (s_kx e, s_ptr e))) by (intros; exists e; done).
  eapply rd_bind; [by eapply rd_ikey|]. intros r1 w1 R1 _ ->. assert (Hw1 : snap w1) by (eapply grown_trans; [exact Hw|apply R1]).
  rewrite ikey_pos by done.
  destruct (N.eqb_spec (s_ik e) (be_word (pad8 (drop (d * 8) kb)))) as [Eik|Eik].
  2: { apply Hnext; [|done]. by intros [? _]. }
  eapply rd_bind; [by eapply rd_keylenx|]. intros r2 w2 R2 _ ->. assert (Hw2 : snap w2) by (eapply grown_trans; [exact Hw1|apply R2]).
  eapply rd_bind; [by eapply rd_val_act|]. intros r3 w3 R3 _ ->. assert (Hw3 : snap w3) by (eapply grown_trans; [exact Hw2|apply R3]).
  destruct (N.eqb_spec (s_ptr e) 0) as [|_]; [done|].
  rewrite search_kx, has_suffix_pos. set (r := drop (d * 8) kb) in *.
  destruct (N.eqb_spec (s_kx e) (if Nat.leb (length r) 8 then N.of_nat (length r) else KSUF_KEYLENX)) as [Ek|Ek].
  - assert (Hr : is_bytes r) by (by apply Forall_drop).
    assert (Hyes : (if Nat.leb (length r) 8 then True else s_sf e = Some (drop 8 r)) -> hit r e).
    { intros Hsf. split; [done|]. left. split; [done|]. split; [done|]. destruct (Nat.leb _ _); [done|]. split; done. }
    destruct (N.eqb_spec (s_kx e) KSUF_KEYLENX) as [E64|E64].
    + assert (Hlen : Nat.leb (length r) 8 = false).
      { destruct (Nat.leb_spec (length r) 8); [|done]. rewrite Ek in E64. unfold KSUF_KEYLENX in E64. lia. }
      eapply rd_bind; [by eapply rd_ksuf_equals|]. intros r4 w4 R4 _ ->. assert (Hw4 : snap w4) by (eapply grown_trans; [exact Hw3|apply R4]).
      rewrite suffix_pos. fold r. case_bool_decide as Esf.
      * cbn beta iota. apply rd_ret, Hfound, Hyes. by rewrite Hlen.
      * cbn beta iota. apply Hnext; [|done]. intros [_ [(_ & _ & H3)|[H3 _]]].
        { rewrite Hlen in H3. by destruct H3. } { rewrite E64 in H3. done. }
    + eapply (rd_bind _ _ _ _ _ _ _ _ _ _ (fun b _ => b = true)); [by apply rd_ret|]. intros b w4 R4 _ ->. apply rd_ret, Hfound, Hyes.
      destruct (Nat.leb_spec (length r) 8); done.
  - destruct (N.leb_spec LAYER_KEYLENX (s_kx e)) as [E128|E128]; cbn [andb].
    + destruct Hent as [(r' & v & Hr' & _)|(Ekx & _)].
      { pose proof (rest_lt _ _ Hr'). lia. }
      destruct (Nat.ltb_spec 8 (length r)).
      * apply rd_ret, Hfound. split; [done|]. by right.
      * apply Hnext; [|done]. intros [_ [H3|[_ H3]]]; [|lia]. pose proof (rest_lt _ _ H3). lia.
    + apply Hnext; [|done]. intros [_ [H3|[H3 _]]]; [|lia]. by apply rest_kx in H3.
Qed.
End Leaf.

(** ** the descent of a lookup *)
Lemma rd_maybe_parent : forall f p n w, A !! p = Some n -> 24 <= f + lvl (skel n) ->
  rd (maybe_parent f p) w (fun r _ => exists rn, A !! r = Some rn /\ g_lid (a_gh rn) = g_lid (a_gh n) /\ a_pa rn = 0%N).
Proof.
  induction f as [|f IH]; intros p n w Hp HFu.
  { pose proof (level_bound _ _ _ _ I p _ (skels_lookup _ _ _ Hp)). lia. }
  cbn [maybe_parent]. eapply rd_bind; [eapply (rd_flag _ _ _ _ _ _ _ p _ Hp v_is_leaf (is_leafb (a_bd n))); intros; by eapply vbits_leaf|]. intros r w1 _ _ ->.
  eapply rd_bind; [by apply rd_parent|]. intros r w2 _ _ ->.
  destruct (N.eqb_spec (a_pa n) 0) as [Hz|Hz]; [apply rd_ret; by exists n|].
  destruct (parent_of _ _ _ _ I p _ (skels_lookup _ _ _ Hp)) as (pn & J & q & E1 & E2 & _ & _ & E3 & E4 & _); [by eapply (nz mb sb HS)|done|].
  apply skels_some in E1 as (a & Ha & ->). eapply rd_weaken; [eapply IH; [exact Ha|]|].
  - unfold lvl at 1. rewrite E2. lia.
  - intros r w3 _ _ (rn & H1 & H2 & H3). exists rn. split; [done|]. split; [rewrite H2; exact E3|done].
Qed.
(** what the found pointer, or its absence, says *)
Definition rgood (l : N) (d : nat) (w : cw) (o : option N) (w' : cw) : Prop :=
  match o with Some h => reaches (sA (ws w')) kb l d h | None => forall h, ~ reaches (sA (ws w)) kb l d h end.
Lemma rgood_earlier l d w w1 o w' : CInv w -> CInv w1 -> Rely i w w1 -> rgood l d w1 o w' -> rgood l d w o w'.
Proof. intros HC HC1 HR. destruct o as [h|]; [done|]. intros H h Hr. eapply H, (reaches_grown w w1); [done|done|apply HR|exact Hr]. Qed.
Lemma c_get_loop n : forall d l st w, d * 8 <= length kb -> gpre mb sb kb l d n st -> CInv w -> rd (get_loop F n (kpos kb d) st) w (rgood l d w).
Proof.
  induction n as [|n IH]; intros d l st w Hd Hpre HC.
  { exfalso. assert (d <= 32) by lia. destruct st; cbn in Hpre; [lia| |];
    [destruct Hpre as (g & md & rt & pa & L & _ & _ & _ & HHn)|destruct Hpre as [(g & md & rt & pa & L & _ & _ & _ & HHn) _]]; lia. }
  assert (Hd32 : d <= 32) by lia.
  assert (IH' : forall st w1, gpre mb sb kb l d n st -> Rely i w w1 -> CInv w1 -> rd (get_loop F n (kpos kb d) st) w1 (rgood l d w)).
  { intros st1 w1 H1 R1 HC1. eapply rd_weaken; [by apply IH|]. intros o w2 _ _. by apply rgood_earlier. }
  destruct st as [r|r p|r p v]; cbn [get_loop].
  - destruct Hpre as [Hn (rn & Hr & Hlr)]. rewrite ikey_pos by done.
    eapply rd_bind; [eapply rd_maybe_parent; [exact Hr|lia]|]. intros r' w1 R1 HC1 (rn' & Hr' & Hlr' & Hpa').
    eapply rd_bind; [eapply (r_reach_leaf K B mb sb mu0 calls i HS HI0); [lia|exact Hr'|..]|].
    { pose proof (level_bound _ _ _ _ I r' _ (skels_lookup _ _ _ Hr')). lia. }
    { destruct (si_top _ _ _ _ I r' _ (skels_lookup _ _ _ Hr')) as (T1 & T2 & _); [by eapply (nz mb sb HS)|done|].
      pose proof (hi_xh _ _ _ _ HS HI0 _ _ (skels_lookup _ _ _ Hr')) as T3. pose proof (ik_top kb Hkb d). cbn in *. lia. }
    intros q w2 R2 HC2 (g & md & rt & pa & L & Hq & Hlq & Hb). apply IH'; [|by eapply rely_trans|done].
    exists g, md, rt, pa, L. split; [done|]. split; [congruence|]. split; [done|].
    pose proof (rank_le g (be_word (pad8 (drop (d * 8) kb)))). lia.
  - destruct Hpre as (g & md & rt & pa & L & Hq & Hlq & Hb & Hn).
    eapply rd_bind; [eapply rd_stable; [exact Hq|lia]|]. intros v w1 R1 HC1 Hv. apply IH'; [|done|done].
    split; [|done]. exists g, md, rt, pa, L. split; [done|]. split; [done|]. split; [done|]. lia.
  - destruct Hpre as [(g & md & rt & pa & L0 & Hq & Hlq & Hb & Hn) Hv].
    eapply rd_bind; [eapply (rd_flag _ _ _ _ _ _ _ p _ Hq v_is_deleted false); intros; by eapply vbits_deleted|]. intros r0 w1 R1 HC1 ->.
    eapply rd_bind; [eapply rd_permutation; by eapply (base_leaf K B mb sb mu0 calls Hfb)|]. intros pm w2 R2 HC2 (L & HL & HG0 & ->).
    pose proof (leaf_fine _ _ _ _ _ _ _ HC2 HL) as HLk. rewrite (ids_not_frozen (lb_perm L)) by apply HLk.
    assert (R12 : Rely i w w2) by (by eapply rely_trans).
    assert (Hs2 : grown (<[p := LF g MFree rt pa L]> ∅) (sA (ws w2))).
    { intros a n0 Ha. apply lookup_insert_Some in Ha as [[<- <-]|[_ Ha]]; [|by rewrite lookup_empty in Ha]. eexists. split; [exact HL|apply ngrow_refl]. }
    eapply rd_bind; [by eapply (rd_scan_leaf p g rt pa L _ _ HLk)|]. intros sn w3 R3 HC3 Hsn.
    eapply rd_bind; [by eapply rd_has_changed|]. intros r0 w4 R4 HC4 ->.
    pose proof (ti_dead (ci_t HC2)) as HN2. assert (R24 : Rely i w2 w4) by (by eapply rely_trans). assert (R14 : Rely i w w4) by (by eapply rely_trans).
    destruct sn as [[kx ptr]|].
    + destruct Hsn as (e & He & Hh & -> & ->). assert (Hent : entry (sA (ws w2)) l e) by (exists p, g, MFree, rt, pa, L; done).
      destruct (N.leb_spec LAYER_KEYLENX (s_kx e)) as [E|E].
      * destruct (lk_ent _ _ _ _ _ _ HLk e He) as (_ & [(r' & v' & Hr' & _)|(Ekx & nn & w0 & t & v' & E1 & _)]).
        { pose proof (rest_lt _ _ Hr'). lia. }
        assert (H8 : 8 < length (drop (d * 8) kb)).
        { destruct Hh as [_ [H3|[_ H3]]]; [|done]. pose proof (rest_lt _ _ H3). lia. }
        rewrite drop_length in H8. apply skels_some in E1 as (a & Ha & ->). rewrite shift_pos.
        destruct (was_there _ _ _ HC2 Ha) as (a0 & Ha0 & Gg & _).
        eapply rd_weaken; [eapply (IH (d + 1) (g_lid (a_gh a0))); [lia|split; [lia|eauto]|done]|].
        intros [h|] w5 R5 HC5 Hg; cbn in Hg |- *.
        { assert (R25 : Rely i w2 w5) by (by eapply rely_trans). destruct (rl_grow _ _ _ R25 _ _ Ha) as (a5 & Ha5 & Gg5 & _).
          eapply r_down; [eapply (entry_grown w2 w5); [done|done|apply R25|exact Hent]|done|apply Hh|rewrite drop_length; lia|exact Ha5|]. by rewrite Gg5, Gg. }
        intros h Hr. apply (reaches_grown w w2) in Hr; [|done|done|apply R12].
        apply reaches_hit in Hr as (e' & F1 & F2 & F3).
        assert (e' = e) as -> by (eapply (entry_uniq K B (ws w2) (ti_inv (ci_t HC2))); [done|done|done|by eapply hit_ecls]).
        destruct F3 as [[F3 _]|[_ (n' & F3 & F4)]]; [lia|]. assert (n' = a) as -> by congruence. rewrite Gg in F4.
        eapply Hg, (reaches_grown w2 w4); [done|done|apply R24|exact F4].
      * apply rd_ret. cbn. apply (reaches_grown w2 w4); [done|done|apply R24|]. destruct Hh as [Hh1 [Hh2|[Hh2 _]]]; [|lia]. by apply r_here.
    + eapply rd_bind; [eapply (rd_flag _ _ _ _ _ _ _ p _ Hq v_is_dirty false); intros; by eapply vbits_free_load|]. intros r0 w5 R5 HC5 ->.
      eapply rd_bind; [eapply rd_next; by eapply (base_leaf K B mb sb mu0 calls Hfb)|]. intros r0 w6 R6 HC6 ->.
      assert (R16 : Rely i w w6) by (eapply rely_trans; [exact R14|by eapply rely_trans]).
      assert (Hdone : (be_word (pad8 (drop (d * 8) kb)) < g_hi g)%N -> rgood l d w None w6).
      { intros Hlt h Hr. apply (reaches_grown w w2) in Hr; [|done|done|apply R12].
        apply reaches_hit in Hr as (e' & (p' & g' & md' & rt' & pa' & L' & F1 & F2 & F3) & F4 & _).
        pose proof (leaf_fine _ _ _ _ _ _ _ HC2 F1) as HL'.
        pose proof (HN2 _ _ _ _ _ _ _ F1 F3). pose proof (lk_span _ _ _ _ _ _ HL' e' F3) as [? _].
        destruct F4 as [F4 F5]. rewrite F4 in *.
        assert (p' = p).
        { eapply (holds_uniq K B (ws w2) (ti_inv (ci_t HC2))).
          - exists g', md', rt', pa', L'. split; [done|]. split; [exact F2|]. split; [apply H0|done].
          - exists g, MFree, rt, pa, L. split; [done|]. split; [done|]. lia. }
        subst p'. rewrite HL in F1. injection F1 as <- <- <- <- <-. eapply Hsn; [exact F3|]. split; done. }
      pose proof (ik_top kb Hkb d) as Htop.
      destruct (next_leaf _ _ _ _ HS HI0 _ _ _ _ _ _ Hq) as [[Hz Hi]|(Hz & He & g' & md' & rt' & pa' & L' & Hq' & Q1 & Q2 & Q3 & (x & Hx & Hxi) & Q4 & Q5)].
      * rewrite Hz. change (unmark_ptr 0) with 0%N. cbn [N.eqb negb andb]. apply rd_ret, Hdone. by rewrite Hi.
      * destruct (even_unmarked _ He) as [-> ->]. cbv zeta. destruct (N.eqb_spec (lb_nx L0) 0); [done|]. cbn [negb andb].
        assert (H0 : 0 ∈ ids L').
        { destruct (lk_first _ _ _ _ _ _ (iv_l _ _ _ _ _ HI0 _ _ _ _ _ _ Hq')) as [F1 _]; [rewrite Q3; by eapply (nz mb sb HS)|]. by eapply elem_of_list_lookup_2. }
        eapply rd_bind; [eapply rd_ikey; [by eapply (base_leaf K B mb sb mu0 calls Hfb)|exact H0|exact Hx]|]. intros r0 w7 R7 HC7 ->. rewrite Hxi, ikey_pos by done.
        destruct (N.leb_spec (g_hi g) (be_word (pad8 (drop (d * 8) kb)))) as [Hle|Hlt]; [|by apply rd_ret, Hdone].
        apply IH'; [|by eapply rely_trans|done]. exists g', md', rt', pa', L'. split; [done|]. split; [congruence|].
        assert (Eq : be_word (pad8 (drop (d * 8) kb)) = g_hi g) by lia.
        pose proof (si_gh _ _ _ _ I _ _ (skels_lookup _ _ _ Hq')) as [G _ _ _ _ _]. cbn in G.
        split; [lia|]. rewrite Eq in *.
        assert (Hr : rank g' (g_hi g) < rank g (g_hi g)).
        { unfold rank. rewrite N.ltb_irrefl. destruct (N.ltb_spec (g_hi g) (g_hi g')).
          - destruct (_ =? _)%N; lia.
          - destruct (N.eqb_spec (g_lo g) (g_hi g)) as [E|E]; [specialize (Q5 E); lia|].
            destruct (N.eqb_spec (g_lo g') (g_hi g')); lia. }
        lia.
Qed.
(** a lookup: what it finds is in the map, what it does not find was not in the map when it began *)
Definition gpost (w : cw) (o : option N) (w' : cw) : Prop :=
  match o with Some v => wmu w' !! kb = Some v | None => wmu w !! kb = None end.
Lemma c_get w : CInv w -> rd (get F kb) w (gpost w).
Proof.
  intros HC. unfold get. rewrite key_new_ok by done. eapply rd_bind; [apply rd_load_root|]. intros r w1 R1 HC1 ->.
  destruct (si_root _ _ _ _ I) as (nd & N1 & N2 & N3 & _ & N4). apply skels_some in N1 as (nr & HR & ->). cbn in N2.
  eapply rd_bind; [apply (c_get_loop F 0 MAIN); [lia| |done]; split; [lia|by exists nr]|]. intros [h|] w2 R2 HC2 Hg; cbn in Hg.
  - eapply (rd_bind _ _ _ _ _ _ _ _ _ _ (fun v w' => wmu w' !! kb = Some v)).
    + apply rd_at. intros w3 R3 HC3. apply (reaches_grown w2 w3) in Hg; [|done|done|apply R3].
      destruct (reaches_val K B (ws w3) (ti_inv (ci_t HC3)) kb MAIN 0 h Hkb (p_main _ _) Hg) as (v & V1 & V2). exists v.
      rewrite (vi_1 (ci_v HC3) h v) by (by rewrite (st_vals _ _ (ti_st (ci_t HC3)))). split; [done|]. apply (ti_mu (ci_t HC3)); [done|]. by exists h.
    + intros v w3 R3 HC3 Hv. by apply rd_ret.
  - apply rd_ret. cbn. destruct (wmu w !! kb) as [v|] eqn:E; [|done]. exfalso. apply (ti_mu (ci_t HC)) in E as (h & H1 & H2); [|done].
    eapply Hg, (reaches_grown w w1); [done|done|apply R1|exact H1].
Qed.
End S.
