(** An insertion of a present key while other threads look up and replace. *)
From Verif Require Import Base Perm PermFacts PermList PermLaws SpecPerm Key SpecKey KeyFacts Suffix SpecSuffix SuffixFacts Prog Version VersionFacts Mem Tree
  SpecTree SpecLin SpecConc TreeState TreePrim TreeInv TreeRead TreeSplit TreeSkel TreeInode TreeProp TreeLeaf TreeContent TreeInsert TreeTop UpdBase UpdRead UpdWrite.

Section X.
Context (K : bytes -> N -> Prop) (B : N) (mb : mem) (sb : ast) (mu0 : gmap bytes N).
Context (HS : St mb sb) (HI : Inv K B sb 0 0) (HN : NoDead (sA sb)) (Hmu0 : forall k x, is_bytes k -> maps sb k x <-> mu0 !! k = Some x).
Context (i : nat).
Local Notation A := (sA sb).
Local Notation SA := (skels (sA sb)).
Local Notation I := (iv_s _ _ _ _ _ HI).
Local Notation WInv := (WInv K B sb mu0).
Local Notation cwp := (cwp K B sb mu0).
Local Notation places := (status -> Prop).
Local Notation mineO := (mineO i).
Local Notation mineH := (mineH i).

Lemma cwp_reads {R T} (o : op) (bb : bool) (p : P R) (f : R -> P T) w (O : places) Φ (Q : T -> world -> places -> Prop) :
  reads K B sb mu0 i o bb p w O Φ -> (bb = true -> bare i w) -> WInv w -> O (Pending o) ->
  (forall r w' (O' : places), Rely i w w' -> WInv w' -> sub O O' -> Φ r w' O' -> cwp i (f r) w' O' Q) -> cwp i (bind p f) w O Q.
Proof. intros Hr Hb HW HO HQ. apply cwp_bind, Hr; [done|done|done|]. intros. by apply HQ. Qed.

Context (kb : bytes) (v : N) (Hkb : is_bytes kb) (Hlen : length kb <= 256) (HK : K kb v).
Local Notation o := (Insert kb v).
Local Notation reads := (reads K B sb mu0 i o false).

Section Search.
Context (d : nat) (Hd : d * 8 <= length kb).
Local Notation r := (drop (d * 8) kb).
Context (p : N) (g : ghost) (md : vmode) (rt : bool) (pa : N) (L : lbody) (Hp : A !! p = Some (LF g md rt pa L)).
Lemma r_search_slots : forall l j, j + length l = length (ids L) -> l = drop j (ids L) ->
  (forall q e, es L !! q = Some e -> q < j -> (s_ik e <= be_word (pad8 r))%N /\ ecls e <> rcls r) ->
  forall w O, reads (search_slots p (kpos kb d) j l) w O (fun x _ _ => searched L r x).
Proof.
  pose proof (iv_l _ _ _ _ _ HI _ _ _ _ _ _ Hp) as HL.
  induction l as [|x l IH]; intros j Hlj El Hj w O; cbn [search_slots].
  { apply reads_ret. cbn in Hlj. cbn. split; [rewrite es_ids; lia|]. split; [|split].
    - intros e He. apply elem_of_list_lookup in He as [q He]. eapply Hj; [exact He|]. apply lookup_lt_Some in He. rewrite es_ids in He. lia.
    - intros q e He Hji. by eapply Hj.
    - intros q e He Hji. apply lookup_lt_Some in He. rewrite es_ids in He. lia. }
  cbn [length] in Hlj.
  assert (Hx : ids L !! j = Some x).
  { rewrite <- (Nat.add_0_r j), <- lookup_drop, <- El. done. }
  assert (Hin : x ∈ ids L) by (by eapply elem_of_list_lookup_2).
  assert (Hi : x < 24) by (eapply ids_lt; [apply HL|done]).
  pose proof (ent_lookup _ _ _ _ _ _ HL x Hi) as Hs. set (e := ent L x) in *.
  assert (Hes : es L !! j = Some e) by (unfold es; by rewrite list_lookup_fmap, Hx).
  assert (He : e ∈ es L) by (by eapply elem_of_list_lookup_2).
  assert (Hcont : (s_ik e <= be_word (pad8 r))%N -> ecls e <> rcls r -> forall w O, reads (search_slots p (kpos kb d) (j + 1) l) w O (fun x _ _ => searched L r x)).
  { intros H1 H2. apply IH; [lia| |].
    - replace (j + 1) with (Datatypes.S j) by lia. rewrite (drop_S _ _ _ Hx) in El. congruence.
    - intros q e' He' Hji. destruct (decide (q = j)) as [->|]; [|apply (Hj q); [done|lia]].
      assert (e' = e) as -> by congruence. done. }
  assert (Hgt : (be_word (pad8 r) < s_ik e)%N -> searched L r (NotFound j)).
  { intros Hlt. assert (Hge : forall q e', es L !! q = Some e' -> j <= q -> (be_word (pad8 r) < s_ik e')%N).
    { intros q e' He' Hji. destruct (decide (q = j)) as [->|]; [by assert (e' = e) as -> by congruence|].
      pose proof (lk_sort _ _ _ _ _ _ HL j q e e' ltac:(lia) Hes He'). lia. }
    cbn. split; [rewrite es_ids; lia|]. split; [|split; [|done]].
    - intros e' He'. apply elem_of_list_lookup in He' as [q He']. destruct (decide (q < j)); [by eapply Hj|].
      intros E. injection E as E _. specialize (Hge q e' He' ltac:(lia)). lia.
    - intros q e' He' Hji. by apply (Hj q). }
  pose proof (lk_ent _ _ _ _ _ _ HL e He) as (Hpz & Hent).
  eapply reads_bind; [by eapply r_ikey|]. intros r1 w1 O1 _ _ _ ->. rewrite ikey_pos by done. cbv zeta.
  destruct (N.eqb_spec (s_ik e) (be_word (pad8 r))) as [Eik|Eik].
  2: { destruct (N.ltb_spec (be_word (pad8 r)) (s_ik e)); [by apply reads_ret, Hgt|]. apply Hcont; [done|].
       intros E. injection E as E _. done. }
  eapply reads_bind; [by eapply r_keylenx|]. intros r2 w2 O2 _ _ _ ->.
  eapply reads_bind; [by eapply r_val_ptr|]. intros ptr w3 O3 _ HI3 _ (md' & L' & y & Hp' & HLL & Hy & Hsl & -> & Hact & _).
  assert (HL' : leaf_ok K B (skels (sA (ws w3))) (sV (ws w3)) g L') by (eapply iv_l; [apply HI3|exact Hp']).
  assert (Hye : y ∈ es L'). { apply (es_elem _ _ _ _ _ _ HL'). exists x. rewrite (sleaf_ids _ _ HLL). done. }
  pose proof (lk_ent _ _ _ _ _ _ HL' y Hye) as (Hpz' & _).
  destruct (N.eqb_spec (s_ptr y) 0) as [|_]; [done|]. rewrite has_suffix_pos, search_kx, Eik, N.ltb_irrefl.
  assert (Hr : is_bytes r) by (by apply Forall_drop).
  destruct (N.leb_spec LAYER_KEYLENX (s_kx e)) as [E128|E128].
  { destruct Hent as [(r' & v' & Hr' & _)|(Ekx & _)]; [pose proof (rest_lt _ _ Hr'); lia|].
    destruct (Nat.ltb_spec 8 (length r)).
    - apply reads_ret. split; [done|]. exists e. done.
    - apply Hcont; [lia|]. intros E. injection E as _ E. rewrite Ekx in E. destruct (Nat.leb_spec (length r) 8); [|lia].
      change (N.min LAYER_KEYLENX 9) with 9%N in E. lia. }
  destruct Hent as [(r' & v' & Hr' & _)|(Ekx & _)]; [|lia].
  pose proof (rest_kx _ _ Hr') as Ekx. pose proof Hr' as (R1 & R2 & R3).
  assert (Epad : pad8 r' = pad8 r) by (apply slice_eq; [done|done|congruence]).
  destruct (N.eqb_spec (s_kx e) (if Nat.leb (length r) 8 then N.of_nat (length r) else KSUF_KEYLENX)) as [Ek|Ek].
  - destruct (N.eqb_spec (s_kx e) KSUF_KEYLENX) as [E64|E64].
    + assert (L1 : 8 < length r).
      { destruct (Nat.leb_spec (length r) 8); [|done]. rewrite Ek in E64. unfold KSUF_KEYLENX in E64. lia. }
      destruct (Nat.leb_spec (length r') 8) as [L2|L2]; [rewrite Ekx in E64; unfold KSUF_KEYLENX in E64; lia|].
      destruct R3 as [_ R3].
      eapply reads_bind; [by eapply r_ksuf|]. intros r4 w4 O4 _ _ _ ->.
      rewrite R3. apply reads_ret. rewrite suffix_pos. case_bool_decide as Esf.
      * split; [done|]. exists e. split; [done|]. assert (r' = r) as <-; [|done]. rewrite !pad8_long in Epad by lia.
        rewrite <- (take_drop 8 r'), <- (take_drop 8 r). congruence.
      * split; [done|]. exists e, r'. repeat (split; [done|]). split; [|done]. intros ->. done.
    + apply reads_ret. split; [done|]. exists e. split; [done|]. assert (r' = r) as <-; [|done].
      destruct (Nat.leb_spec (length r) 8); [|done]. destruct (Nat.leb_spec (length r') 8); [|done]. apply pad8_inj; [lia|done|done].
  - assert (Hnc : ecls e <> rcls r).
    { rewrite (rest_ecls _ _ Hr'). unfold rcls. intros E. injection E as _ E. apply Ek. rewrite Ekx.
      destruct (Nat.leb_spec (length r) 8), (Nat.leb_spec (length r') 8); lia. }
    destruct (N.eqb_spec (s_kx e) KSUF_KEYLENX) as [E64|E64]; cbn [andb]; [|by apply Hcont; [lia|]].
    destruct (Nat.ltb_spec 8 (length r)); [|by apply Hcont; [lia|]].
    exfalso. apply Ek. rewrite E64. destruct (Nat.leb_spec (length r) 8); [lia|done].
Qed.
Lemma r_search_for_insert w O : reads (search_for_insert p (lb_perm L) (kpos kb d)) w O (fun x _ _ => searched L r x).
Proof. apply r_search_slots; [done|done|]. intros; lia. Qed.
(** the key being in the tree, the search finds it or the way down to it *)
Lemma present_search x h : path A kb (g_lid g) d -> (g_lo g <= be_word (pad8 r) < g_hi g)%N -> reaches A kb (g_lid g) d h -> searched L r x ->
  (exists j e, x = Found j /\ j ∈ ids L /\ lb_sl L !! j = Some e /\ rest_of e r) \/
  (exists j e, x = Layer j /\ j ∈ ids L /\ lb_sl L !! j = Some e /\ s_kx e = LAYER_KEYLENX /\ s_ik e = be_word (pad8 r) /\ 8 < length r).
Proof.
  intros Hpath Hik Hre Hs. pose proof (iv_l _ _ _ _ _ HI _ _ _ _ _ _ Hp) as HL.
  assert (Hin : exists e, e ∈ es L /\ hit r e).
  { apply reaches_hit in Hre as (e' & (p' & g' & md' & rt' & pa' & L' & F1 & F2 & F3) & F4 & _). exists e'. split; [|done].
    pose proof (iv_l _ _ _ _ _ HI _ _ _ _ _ _ F1) as HL'.
    pose proof (HN _ _ _ _ _ _ _ F1 F3). pose proof (lk_span _ _ _ _ _ _ HL' e' F3) as [HH0 _].
    destruct F4 as [F4 F5]. rewrite F4 in *.
    assert (p' = p).
    { eapply holds_uniq; [exact HI|..].
      - exists g', md', rt', pa', L'. split; [done|]. split; [exact F2|]. split; [apply HH0|done].
      - exists g, md, rt, pa, L. split; [done|]. split; [done|]. lia. }
    subst p'. rewrite Hp in F1. by injection F1 as <- <- <- <- <-. }
  destruct Hin as (e & He & Hh). destruct x as [j|pos|j|j]; cbn in Hs.
  - left. destruct Hs as (H1 & e' & H2 & H3). by exists j, e'.
  - exfalso. destruct Hs as (_ & Hs & _). eapply Hs; [exact He|]. by apply hit_rcls.
  - exfalso. destruct Hs as (H1 & e' & r1 & H2 & H3 & H4 & H5 & H6 & H7).
    assert (He' : e' ∈ es L) by (by eapply rep_x).
    assert (e = e') as ->.
    { eapply entry_uniq; [exact HI|exact HN|by exists p, g, md, rt, pa, L|by exists p, g, md, rt, pa, L|].
      rewrite (hit_rcls _ _ Hh). pose proof (rest_ecls _ _ H4) as E. unfold ecls, rcls in *. injection E as E1 E2. rewrite E2, <- H3. f_equal.
      destruct (Nat.leb_spec (length r) 8), (Nat.leb_spec (length r1) 8); lia. }
    destruct Hh as [_ [Hr|[Hk _]]]; [apply H5; by eapply rest_fun|pose proof (rest_lt _ _ H4); lia].
  - right. destruct Hs as (H1 & e' & H2 & H3 & H4 & H5). by exists j, e'.
Qed.
End Search.

Context (fx : bool) (F : nat) (Hin : exists h, reaches A kb MAIN 0 h).
Lemma c_insert_loop n : forall d l lr w (O : places), d * 8 <= length kb -> path A kb l d -> (exists rn, A !! lr = Some rn /\ g_lid (a_gh rn) = l) ->
  WInv w -> O (Pending o) -> mineO w None -> mineH w None ->
  cwp i (insert_loop fx F n (kpos kb d) v lr) w O (fun r w' O' => exists ov, r = IOk (Some ov) /\ O' (Done (AIns (Some ov))) /\ mineO w' None /\ mineH w' None).
Proof.
  set (Q := fun r w' O' => _).
  induction n as [|n IH]; intros d l lr w O Hd Hpath (rn0 & Hlr & Hlid) HW HO Hmo Hmh; cbn [insert_loop]; [split; [done|by apply mine_bare]|].
  assert (Hbare : bare i w) by (by apply mine_bare).
  pose proof (ik_top kb Hkb d) as Htop. set (ik := be_word (pad8 (drop (d * 8) kb))) in *.
  assert (Eik : k_ikey (kpos kb d) = ik) by (by rewrite ikey_pos).
  eapply cwp_reads; [by eapply r_maybe_parent|done|done|done|]. intros r w1 O1 R1 W1 S1 (rn & Hr & Hlr' & Hpa).
  destruct (si_top _ _ _ _ I r _ (skels_lookup _ _ _ Hr)) as (T1 & T2 & _); [by eapply nz|done|].
  pose proof (hi_xh _ _ _ _ HS HI _ _ (skels_lookup _ _ _ Hr)) as T3. rewrite Eik.
  assert (g_lo (a_gh rn) <= ik <= g_hi (a_gh rn))%N by (cbn in *; lia).
  eapply cwp_reads; [by eapply r_reach_leaf|by intros _; eapply bare_rely|done|by apply S1|]. intros q w2 O2 R2 W2 S2 Hq.
  eapply cwp_reads; [eapply r_advance_by_bound; [exact HS|exact HI|exact Htop|exact Hq]|intros _; eapply bare_rely; [exact R2|by eapply bare_rely]|done|by apply S2, S1|]. intros ? w3 O3 R3 W3 S3 (p & -> & Hhold).
  destruct Hhold as (g & md & rt & pa & L & Hp & Hlg & Hik). cbv iota. rewrite Hlr', Hlid in Hlg.
  assert (R13 : Rely i w w3) by (eapply rely_trans; [exact R1|eapply rely_trans; [exact R2|exact R3]]).
  apply cwp_bind. eapply (c_lock K B sb mu0 Hmu0 i p g md rt pa L Hp O3); [|by intros s|by exists (Pending o); apply S3, S2, S1|by eapply mineO_rely|by eapply mineH_rely].
  intros lv w4 O4 L1 W4 S4 M4 N4 Hlv Hp4 HLL.
  pose proof (iv_l _ _ _ _ _ HI _ _ _ _ _ _ Hp) as HL.
  assert (HO4 : O4 (Pending o)) by (by apply S4, S3, S2, S1).
  clear dependent w. clear dependent w1. clear dependent w2. clear dependent w3.
  eapply (cwp_reads o false); [by eapply r_next_raw|done|done|done|]. intros ? w5 O5 R5 W5 S5 ->.
  assert (Hun : is_marked (lb_nx L) = false /\ unmark_ptr (lb_nx L) = lb_nx L).
  { destruct (N.eq_dec (lb_nx L) 0) as [->|Hz]; [done|]. destruct (next_lands K B mb sb HS HI l ik _ _ _ _ _ _ Hp Hlg ltac:(lia) Hz) as (g' & md' & rt' & pa' & L' & x & _ & He & _).
    destruct (even_unmarked _ He). done. }
  destruct Hun as [-> ->]. cbv zeta.
  eapply (cwp_reads o false _ _ _ _ (fun r _ _ => r = false)); [|done|done|by apply S5|].
  { destruct (N.eqb_spec (lb_nx L) 0) as [|Hz]; [by apply reads_ret|].
    destruct (next_lands K B mb sb HS HI l ik _ _ _ _ _ _ Hp Hlg ltac:(lia) Hz) as (g' & md' & rt' & pa' & L' & x & Hq' & _ & Hx & Hxi & _).
    eapply reads_bind; [by eapply r_ikey|]. intros ? w6 O6 _ _ _ ->. apply reads_ret. rewrite Hxi. apply N.leb_gt. lia. }
  intros ? w6 O6 R6 W6 S6 ->. cbv iota.
  eapply (cwp_reads o false); [by eapply r_permutation|done|done|by apply S6, S5|]. intros ? w7 O7 R7 W7 S7 ->.
  eapply (cwp_reads o false); [by eapply r_search_for_insert|done|done|by apply S7, S6, S5|]. intros x w8 O8 R8 W8 S8 Hsr.
  assert (Hre : exists h, reaches A kb l d h).
  { destruct Hin as [h Hh]. exists h. eapply path_through; done. }
  destruct Hre as [h0 Hre]. rewrite <- Hlg in Hpath, Hre.
  assert (R48 : Rely i w4 w8) by (do 4 (eapply rely_trans; [eassumption|]); apply rely_refl).
  pose proof (mineO_rely _ _ _ _ R48 M4) as M8. pose proof (mineH_rely _ _ _ _ R48 N4) as N8. pose proof (owned_rely _ _ _ _ _ R48 M4 Hp4) as Hp8.
  assert (HO8 : O8 (Pending o)) by (by apply S8, S7, S6, S5).
  clear dependent w4. clear dependent w5. clear dependent w6. clear dependent w7.
  destruct (present_search d Hd p g md rt pa L Hp x h0 Hpath Hik Hre Hsr) as [(j & e & -> & Hj & He & Hrest)|(j & e & -> & Hj & He & Hk & Hie & H8)]; cbv iota.
  - eapply (cwp_reads o false); [by eapply r_val_ptr|done|done|done|]. intros ? w9 O9 R9 W9 S9 (md' & L' & y & Hp9 & _ & Hy & Hsl & -> & Ha9 & _).
    pose proof (mineO_rely _ _ _ _ R9 M8) as M9. pose proof (mineH_rely _ _ _ _ R9 N8) as N9.
    rewrite (owned_rely _ _ _ _ _ R9 M8 Hp8) in Hp9. injection Hp9 as <- <-. pose proof (owned_rely _ _ _ _ _ R9 M8 Hp8) as Hp9.
    pose proof (iv_l _ _ _ _ _ (wi_in _ _ _ _ _ W9) _ _ _ _ _ _ Hp9) as HL1.
    assert (Hj1 : j ∈ ids L1) by (by rewrite (sleaf_ids _ _ HLL)).
    assert (Hye : y ∈ es L1) by (by eapply rep_x).
    assert (Hry : rest_of y (drop (d * 8) kb)) by (by eapply same_rest).
    destruct (lk_ent _ _ _ _ _ _ HL1 y Hye) as (Hpz & _).
    destruct (N.eqb_spec (s_ptr y) 0) as [|_]; [done|].
    destruct (val_now K B sb mu0 kb Hkb w9 (g_lid g) d y W9 Hpath) as (ov & Hov & _); [by exists p, g, MIns, rt, pa, L1|done|].
    assert (Hlive : live i (s_ptr y) w9) by (eapply slot_live; [exact Hp9|by eapply elem_of_list_lookup_2|done|by eapply rest_lt]).
    eapply (cwp_reads o false); [by eapply r_from_raw|done|done|by apply S9|]. intros ? w10 O10 R10 W10 S10 ->.
    pose proof (mineO_rely _ _ _ _ R10 M9) as M10. pose proof (mineH_rely _ _ _ _ R10 N9) as N10. pose proof (owned_rely _ _ _ _ _ R10 M9 Hp9) as Hp10.
    destruct (rl_live _ _ _ R10 Ha9 _ _ Hlive Hov) as [Hlive10 Hov10]. assert (Ha10 : i ∈ wact w10) by (by apply (rl_act _ _ _ R10)).
    apply cwp_bind. eapply (c_to_raw K B sb mu0 Hmu0 i v (Some p)); [exists (Pending o); by apply S10, S9|done|done|].
    intros h w11 O11 W11 S11 M11 N11 Ha11 Hh0 Hhv Han Hlv11. destruct (Hlv11 _ _ Ha10 Hlive10 Hov10) as [Hlive11 Hov11].
    rewrite <- (Han p eq_refl) in Hp10.
    assert (Emk : mark_insert p lv = Ret lv) by (unfold mark_insert, guard_mark_insert; by rewrite (vbits_inserting _ _ _ Hlv)). rewrite Emk. cbn [bind].
    apply cwp_bind. eapply (c_set_val_ptr K B sb mu0 HN Hmu0 i kb v Hkb Hlen HK p g rt pa L1 d j y h ov); [done|by apply S11, S10, S9|done|done|done|done|done|done|done|done|done|done|done|done|done|].
    intros w12 O12 L2 W12 HO12 M12 N12 Hp12.
    apply cwp_bind. eapply (c_unlock K B sb mu0 Hmu0 i p g rt pa lv L2); [by eexists|done|done|done|done|].
    intros w13 O13 W13 S13 M13 N13 Ha13.
    apply cwp_bind. eapply c_retire; [exact Hmu0|eexists; by apply S13|done|done|]. intros w14 O14 W14 S14 M14 N14.
    apply cwp_ret. exists ov. split; [done|]. split; [by apply S14, S13|done].
  - assert (Hent : entry A (g_lid g) e) by (exists p, g, md, rt, pa, L; split; [done|]; split; [done|]; by eapply rep_x).
    eapply (cwp_reads o false); [by eapply r_val_ptr|done|done|done|]. intros ? w9 O9 R9 W9 S9 (md' & L' & y & Hp9 & _ & Hy & Hsl & -> & Ha9 & _).
    pose proof (mineO_rely _ _ _ _ R9 M8) as M9. pose proof (mineH_rely _ _ _ _ R9 N8) as N9. pose proof (owned_rely _ _ _ _ _ R9 M8 Hp8) as Hp9'.
    assert (y = e) as -> by (by apply layer_same).
    apply cwp_bind. eapply (c_unlock K B sb mu0 Hmu0 i p g rt pa lv L1); [eexists; by apply S9|done|done|done|done|].
    intros w10 O10 W10 S10 M10 N10 _. rewrite shift_pos.
    destruct (lk_ent _ _ _ _ _ _ HL e ltac:(by eapply rep_x)) as (_ & [(r' & v' & Hr' & _)|(Ekx & nn & w' & t & v' & E1 & _)]).
    { pose proof (rest_lt _ _ Hr'). lia. }
    apply skels_some in E1 as (a & Ha & ->).
    eapply (IH (d + 1) (g_lid (a_gh a))); [rewrite drop_length in H8; lia| |eauto|done|by apply S10, S9|done|done].
    eapply p_down; [exact Hpath|exact Hent|done|done|done|done].
Qed.
End X.
