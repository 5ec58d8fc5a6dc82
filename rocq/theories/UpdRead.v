(** Descents and lookups while values are being replaced. *)
From Verif Require Import Base Perm PermFacts PermList PermLaws SpecPerm Key SpecKey KeyFacts Suffix SpecSuffix SuffixFacts Prog Version VersionFacts Mem Tree
  SpecTree SpecLin SpecConc TreeState TreePrim TreeInv TreeRead TreeSplit TreeSkel TreeInode TreeProp TreeLeaf TreeContent TreeInsert TreeTop UpdBase.

Section R.
Context (K : bytes -> N -> Prop) (B : N) (mb : mem) (sb : ast) (mu0 : gmap bytes N).
Context (HS : St mb sb) (HI : Inv K B sb 0 0) (HN : NoDead (sA sb)).
Context (i : nat) (o : op).
Local Notation A := (sA sb).
Local Notation SA := (skels (sA sb)).
Local Notation I := (iv_s _ _ _ _ _ HI).
Local Notation reads := (reads K B sb mu0 i o true).
Local Notation WInv := (WInv K B sb mu0).

Lemma r_maybe_parent F : forall p n w O, A !! p = Some n ->
  reads (maybe_parent F p) w O (fun r _ _ => exists rn, A !! r = Some rn /\ g_lid (a_gh rn) = g_lid (a_gh n) /\ a_pa rn = 0%N).
Proof.
  induction F as [|F IH]; intros p n w O Hp; cbn [maybe_parent]; [by apply reads_fuel|].
  eapply reads_bind; [by eapply r_flag_leaf|]. intros r w1 O1 _ HI1 _ ->. destruct n as [g md rt pa b]. cbn [a_bd].
  assert (HH : forall w O, reads (if (pa =? 0)%N then Ret p else maybe_parent F pa) w O
     (fun r _ _ => exists rn, A !! r = Some rn /\ g_lid (a_gh rn) = g_lid g /\ a_pa rn = 0%N)).
  { intros w' O'. destruct (N.eqb_spec pa 0) as [Hz|Hz].
    - apply reads_ret. by eexists.
    - destruct (parent_of _ _ _ _ I p _ (skels_lookup _ _ _ Hp)) as (pn & J & j & E1 & E2 & _ & _ & E3 & E4 & _).
      { by eapply nz. } { done. }
      apply skels_some in E1 as (a & Ha & ->). cbn [skel n_pa a_pa] in Ha. eapply reads_weaken; [eapply IH; exact Ha|].
      intros r w2 O2 _ _ _ (rn & H1 & H2 & H3). exists rn. split; [done|]. split; [|done]. rewrite H2. exact E3. }
  destruct b as [L|J]; cbn [is_leafb].
  - eapply reads_bind; [by eapply r_leaf_parent|]. intros r w2 O2 _ _ _ ->. apply HH.
  - eapply reads_bind; [by eapply r_inode_parent|]. intros r w2 O2 _ _ _ ->. apply HH.
Qed.

Lemma r_ub_loop p g md rt pa J ik : A !! p = Some (ND g md rt pa J) -> forall fuel l r w O,
  l <= r -> r <= ib_nk J -> r - l <= fuel ->
  (forall x, bnds g J !! l = Some x -> x <= ik)%N -> (forall x, bnds g J !! (r + 1)%nat = Some x -> ik <= x)%N ->
  reads (ub_loop fuel p ik l r) w O (fun ci _ _ => ci <= ib_nk J /\ (forall x, bnds g J !! ci = Some x -> x <= ik)%N /\
     (forall x, bnds g J !! (ci + 1)%nat = Some x -> ik <= x)%N).
Proof.
  intros Hp. pose proof (si_inode _ _ _ _ I p _ J (skels_lookup _ _ _ Hp) eq_refl) as HJ.
  induction fuel as [|fuel IH]; intros l r w O Hlr Hr Hf Hl Hu; cbn [ub_loop].
  - destruct (Nat.ltb_spec l r); [lia|]. apply reads_ret. assert (l = r) as -> by lia. done.
  - destruct (Nat.ltb_spec l r); [|apply reads_ret; assert (l = r) as -> by lia; done].
    cbv zeta. set (mid := (l + r) / 2).
    assert (Hm : l <= mid < r).
    { unfold mid. split; [apply Nat.div_le_lower_bound; lia|apply Nat.div_lt_upper_bound; lia]. }
    destruct (lookup_lt_is_Some_2 (ib_ks J) mid) as [x Hx]; [destruct HJ; lia|].
    assert (Hb : bnds g J !! (mid + 1) = Some x) by (rewrite bnds_mid; [done|lia|destruct HJ; lia]).
    eapply reads_bind; [by eapply r_inode_ikey|]. intros r' w1 O1 _ _ _ ->.
    destruct (N.compare_spec ik x) as [->|Hc|Hc].
    + apply reads_ret. split; [lia|]. split; [intros; assert (x0 = x) by congruence; lia|].
      intros y Hy. eapply (bnds_step _ _ _ _ I p _ J (mid + 1)); [by apply skels_lookup|done|done|done].
    + apply IH; [lia|lia|lia|done|]. intros y Hy. assert (y = x) by congruence. lia.
    + apply IH; [lia|lia|lia| |done]. intros y Hy. assert (y = x) by congruence. lia.
Qed.

Lemma r_reach_leaf F st sn ik : A !! st = Some sn -> (g_lo (a_gh sn) <= ik <= g_hi (a_gh sn))%N -> forall n p pn w O, A !! p = Some pn ->
  g_lid (a_gh pn) = g_lid (a_gh sn) -> (g_lo (a_gh pn) <= ik <= g_hi (a_gh pn))%N ->
  reads (reach_leaf F n st p ik) w O (fun q _ _ => lands sb (g_lid (a_gh sn)) ik q).
Proof.
  intros Hst Hsik. induction n as [|n IH]; intros p pn w O Hp Hlid Hik; cbn [reach_leaf]; [by apply reads_fuel|].
  destruct pn as [g md rt pa b]. cbn [a_gh] in *.
  eapply reads_bind; [by eapply r_stable|]. intros v w1 O1 _ _ _ _.
  eapply reads_bind; [by eapply r_flag_leaf|]. intros r w2 O2 _ _ _ ->. cbn [a_bd]. destruct b as [L|J]; cbn [is_leafb].
  - apply reads_ret. by exists g, md, rt, pa, L.
  - pose proof (si_inode _ _ _ _ I p _ J (skels_lookup _ _ _ Hp) eq_refl) as HJ.
    eapply reads_bind.
    { unfold upper_bound_internode. eapply reads_bind; [by eapply r_nkeys|]. intros r w3 O3 _ _ _ ->.
      eapply r_ub_loop; [exact Hp|lia|lia|lia|..].
      { intros x Hx. rewrite bnds_0 in Hx. injection Hx as <-. apply Hik. }
      { intros x Hx. rewrite bnds_last in Hx by (destruct HJ; lia). injection Hx as <-. apply Hik. } }
    intros ci w3 O3 _ _ _ (Hci & Hl & Hu).
    destruct (kid_at _ _ _ _ I p _ J ci (skels_lookup _ _ _ Hp) eq_refl Hci) as (c & cn & _ & Hc & _ & Hcn & C1 & C2 & C3 & C4 & C5).
    pose proof (hi_xh _ _ _ _ HS HI _ _ Hcn) as Hxh.
    apply skels_some in Hcn as (a & Ha & ->). eapply reads_bind; [by eapply r_child|]. intros r w4 O4 _ _ _ ->.
    pose proof (nz _ _ HS _ _ Ha). destruct (N.eqb_spec c 0); [done|].
    eapply reads_bind; [by eapply r_has_changed|]. intros ch w5 O5 _ _ _ _. destruct ch.
    { eapply reads_bind; [by eapply r_has_split|]. intros sp w6 O6 _ _ _ _. destruct sp; [by eapply IH|]. by eapply IH. }
    eapply IH; [exact Ha|cbn in C2; congruence|].
    specialize (Hl _ C4). specialize (Hu _ C5). rewrite Hxh in Hu. split; [exact Hl|exact Hu].
Qed.

Lemma next_lands l ik p g md rt pa L : A !! p = Some (LF g md rt pa L) -> g_lid g = l -> (g_lo g <= ik <= g_hi g)%N -> lb_nx L <> 0%N ->
  exists g' md' rt' pa' L' x, A !! lb_nx L = Some (LF g' md' rt' pa' L') /\ N.even (lb_nx L) = true /\ lb_sl L' !! 0 = Some x /\
    s_ik x = g_hi g /\ g_lid g' = l /\ ((g_hi g <= ik)%N -> (g_lo g' <= ik <= g_hi g')%N /\ ik = g_hi g).
Proof.
  intros Hp Hl Hik Hnz. destruct (next_leaf _ _ _ _ HS HI _ _ _ _ _ _ Hp) as [[Hz Hi]|(Hz & He & g' & md' & rt' & pa' & L' & Hq & Q1 & Q2 & Q3 & (x & Hx & Hxi) & Q4 & Q5)]; [done|].
  exists g', md', rt', pa', L', x. split; [done|]. split; [done|]. split; [done|]. split; [done|]. split; [congruence|]. intros Hh.
  pose proof (si_gh _ _ _ _ I _ _ (skels_lookup _ _ _ Hq)) as [G _ _ _ _ _]. cbn in G. lia.
Qed.

Lemma r_by_bound_loop F ik l : (ik < TOP)%N -> forall n hops p g md rt pa L w O,
  A !! p = Some (LF g md rt pa L) -> g_lid g = l -> (g_lo g <= ik <= g_hi g)%N -> rank g ik + hops < 128 ->
  reads (by_bound_loop F n p ik hops) w O (fun r _ _ => exists q, r = (q, false) /\ holds sb l ik q).
Proof.
  intros Ht. induction n as [|n IH]; intros hops p g md rt pa L w O Hp Hl Hik Hh; cbn [by_bound_loop]; [by apply reads_fuel|].
  unfold MAX_BLINK_HOPS. destruct (Nat.leb_spec 128 hops); [lia|].
  eapply reads_bind; [by eapply r_next_raw|]. intros r w1 O1 _ _ _ ->.
  destruct (next_leaf _ _ _ _ HS HI _ _ _ _ _ _ Hp) as [[Hz Hi]|(Hz & He & g' & md' & rt' & pa' & L' & Hq & Q1 & Q2 & Q3 & (x & Hx & Hxi) & Q4 & Q5)].
  - rewrite Hz. change (is_marked 0) with false. cbv iota.
    change (unmark_ptr 0) with 0%N. cbn [N.eqb]. apply reads_ret. exists p. split; [done|]. exists g, md, rt, pa, L. rewrite Hi. split; [done|]. split; [done|]. lia.
  - destruct (even_unmarked _ He) as [-> ->]. cbv zeta. destruct (N.eqb_spec (lb_nx L) 0); [done|].
    eapply reads_bind; [by eapply r_ikey|]. intros r w2 O2 _ _ _ ->. rewrite Hxi.
    destruct (N.leb_spec (g_hi g) ik).
    + assert (ik = g_hi g) as -> by lia.
      pose proof (si_gh _ _ _ _ I _ _ (skels_lookup _ _ _ Hq)) as [G _ _ _ _ _]. cbn in G.
      assert (Hr : rank g' (g_hi g) < rank g (g_hi g)).
      { unfold rank. rewrite N.ltb_irrefl. destruct (N.ltb_spec (g_hi g) (g_hi g')).
        - destruct (_ =? _)%N; lia.
        - destruct (N.eqb_spec (g_lo g) (g_hi g)) as [E|E]; [specialize (Q5 E); lia|].
          destruct (N.eqb_spec (g_lo g') (g_hi g')); lia. }
      eapply IH; [exact Hq|congruence|lia|lia].
    + apply reads_ret. exists p. split; [done|]. exists g, md, rt, pa, L. split; [done|]. split; [done|]. lia.
Qed.
Lemma r_advance_by_bound F ik l p w O : (ik < TOP)%N -> lands sb l ik p ->
  reads (advance_by_bound F p ik) w O (fun r _ _ => exists q, r = (q, false) /\ holds sb l ik q).
Proof.
  intros Ht (g & md & rt & pa & L & Hp & Hl & Hik). unfold advance_by_bound.
  eapply reads_bind; [by eapply r_flag_splitting|]. intros r w1 O1 _ _ _ ->.
  eapply reads_bind; [by eapply (reads_ret _ _ _ _ _ _ _ _ _ _ (fun _ _ _ => True))|]. intros r w2 O2 _ _ _ _.
  pose proof (rank_le g ik). eapply r_by_bound_loop; [done|done|done|done|lia].
Qed.

Lemma r_advance_loop F ik l : forall n p v w O, lands sb l ik p ->
  reads (advance_loop F n p v ik) w O (fun r _ _ => lands sb l ik r.1).
Proof.
  induction n as [|n IH]; intros p v w O HL; cbn [advance_loop]; [by apply reads_fuel|].
  pose proof HL as (g & md & rt & pa & L & Hp & Hl & Hik).
  eapply reads_bind; [by eapply r_flag_deleted|]. intros r w1 O1 _ _ _ ->.
  eapply reads_bind; [by eapply r_next_raw|]. intros r w2 O2 _ _ _ ->.
  destruct (N.eq_dec (lb_nx L) 0) as [Hz|Hz].
  { rewrite Hz. change (is_marked 0) with false. cbv iota. change (unmark_ptr 0) with 0%N. cbn [N.eqb]. by apply reads_ret. }
  destruct (next_lands l ik _ _ _ _ _ _ Hp Hl Hik Hz) as (g' & md' & rt' & pa' & L' & x & Hq & He & Hx & Hxi & Hl' & Hb').
  destruct (even_unmarked _ He) as [-> ->]. cbv zeta. destruct (N.eqb_spec (lb_nx L) 0); [done|].
  eapply reads_bind; [by eapply r_ikey|]. intros r w3 O3 _ _ _ ->. rewrite Hxi.
  destruct (N.leb_spec (g_hi g) ik); [|by apply reads_ret].
  eapply reads_bind; [by eapply r_stable|]. intros r w4 O4 _ _ _ _. apply IH.
  exists g', md', rt', pa', L'. split; [done|]. split; [done|]. by apply Hb'.
Qed.
Lemma r_advance_to_key F ik l p v w O : lands sb l ik p -> reads (advance_to_key F p ik v) w O (fun r _ _ => lands sb l ik r.1).
Proof.
  intros HL. pose proof HL as (g & md & rt & pa & L & Hp & Hl & Hik). unfold advance_to_key.
  eapply reads_bind; [by eapply r_stable|]. intros r w1 O1 _ _ _ _.
  eapply reads_bind; [by eapply r_has_split|]. intros sp w2 O2 _ _ _ _.
  eapply (reads_bind _ _ _ _ _ _ _ _ _ _ _ (fun _ _ _ => True)).
  { destruct sp; [by apply reads_ret|by eapply r_flag_any]. }
  intros go w3 O3 _ _ _ _. destruct go; [|by apply reads_ret].
  eapply reads_bind; [by eapply r_stable|]. intros v' w4 O4 _ _ _ _. by apply r_advance_loop.
Qed.

Lemma r_descend F l ik p pn {R} (f : N -> N -> P R) w O Ψ : A !! p = Some pn -> g_lid (a_gh pn) = l -> (ik < TOP)%N ->
  (forall r q rn w O, A !! r = Some rn -> g_lid (a_gh rn) = l -> lands sb l ik q -> reads (f r q) w O Ψ) ->
  reads (r <- maybe_parent F p ;; q <- reach_leaf F F r r ik ;; f r q) w O Ψ.
Proof.
  intros Hp Hl Ht Hf. eapply reads_bind; [by eapply r_maybe_parent|].
  intros r w1 O1 _ _ _ (rn & Hr & Hlr & Hpa). 
  destruct (si_top _ _ _ _ I r _ (skels_lookup _ _ _ Hr)) as (T1 & T2 & _); [by eapply nz|done|].
  pose proof (hi_xh _ _ _ _ HS HI _ _ (skels_lookup _ _ _ Hr)) as T3.
  assert (g_lo (a_gh rn) <= ik <= g_hi (a_gh rn))%N by (cbn in *; lia).
  eapply reads_bind; [by eapply r_reach_leaf|]. intros q w2 O2 _ _ _ Hq. eapply Hf; [exact Hr|congruence|]. by rewrite <- Hl, <- Hlr.
Qed.

(** ** lookups *)
Context (kb : bytes) (Hkb : is_bytes kb).
Lemma same_NoDead w : WInv w -> NoDead (sA (ws w)).
Proof. intros HW. eapply same_dead; [apply HW|done]. Qed.
Lemma val_now w l d e : WInv w -> path A kb l d -> entry (sA (ws w)) l e -> rest_of e (drop (d * 8) kb) ->
  exists v, sV (ws w) !! s_ptr e = Some v /\ wmu w !! kb = Some v.
Proof.
  intros HW Hpa He Hr. pose proof (same_path _ _ _ _ _ (wi_same _ _ _ _ _ HW) Hpa) as Hpa'.
  destruct (value_entry _ _ _ (wi_in _ _ _ _ _ HW) _ _ _ _ Hkb Hpa' He Hr) as (v & Hv & _). exists v. split; [done|].
  apply (wi_mu _ _ _ _ _ HW); [done|]. exists (s_ptr e). split; [|done]. eapply path_reaches; [exact Hpa'|]. apply r_here; [done|by eapply rest_lt|done].
Qed.
Lemma slot_live w p g md rt pa L e : sA (ws w) !! p = Some (LF g md rt pa L) -> e ∈ lb_sl L -> s_ptr e <> 0%N -> (s_kx e < LAYER_KEYLENX)%N -> live i (s_ptr e) w.
Proof.
  intros Hp He Hz Hk. left. apply elem_of_app. left. apply big_elem. exists p, (LF g md rt pa L). split; [done|]. cbn.
  unfold nrefs. cbn. apply elem_of_list_In, in_concat. exists (srefs e). split; [by apply in_map, elem_of_list_In|]. apply elem_of_list_In. unfold srefs. destruct (N.eqb_spec (s_ptr e) 0); [done|]. destruct (N.ltb_spec (s_kx e) LAYER_KEYLENX); [by left|lia].
Qed.
(** a handle a lookup may return: it is protected, and what it holds is an answer *)
Definition gotv (h : N) (w : world) (O : status -> Prop) : Prop :=
  exists v, i ∈ wact w /\ live i h w /\ sV (ws w) !! h = Some v /\ O (Done (AGet (Some v))).
Lemma gotv_mono h w w' (O O' : status -> Prop) : Rely i w w' -> (forall s, O s -> O' s) -> gotv h w O -> gotv h w' O'.
Proof.
  intros HR HO (v & H1 & H2 & H3 & H4). destruct (rl_live _ _ _ HR H1 _ _ H2 H3). exists v. split; [by apply (rl_act _ _ _ HR)|]. auto.
Qed.
Context (Ho : forall mu, map_step mu o = (AGet (mu !! kb), mu)).

Lemma r_scan_leaf l p g md rt pa L d w O : A !! p = Some (LF g md rt pa L) -> g_lid g = l -> path A kb l d -> d * 8 <= length kb ->
  reads (scan_leaf p (kpos kb d) (active_slots (lb_perm L))) w O (fun r w' O' =>
    (exists e ptr, e ∈ es L /\ hit (drop (d * 8) kb) e /\ r = Some (s_kx e, ptr) /\ (s_kx e = LAYER_KEYLENX -> ptr = s_ptr e) /\
       ((s_kx e < LAYER_KEYLENX)%N -> gotv ptr w' O')) \/
    (r = None /\ forall e, e ∈ es L -> ~ hit (drop (d * 8) kb) e)).
Proof.
  intros Hp Hlg Hpath Hd. pose proof (iv_l _ _ _ _ _ HI _ _ _ _ _ _ Hp) as HL.
  set (Φ := fun r w' O' => _).
  assert (HG : forall sl, (forall j, j ∈ sl -> j ∈ ids L) ->
    ((forall j e, j ∈ ids L -> j ∉ sl -> lb_sl L !! j = Some e -> ~ hit (drop (d * 8) kb) e)) ->
    forall w O, reads (scan_leaf p (kpos kb d) sl) w O Φ).
  2: { apply HG; [done|]. done. }
  induction sl as [|j sl IH]; intros Hl HQ w' O'; cbn [scan_leaf].
  { apply reads_ret. right. split; [done|]. intros e He. apply (es_elem _ _ _ _ _ _ HL) in He as (j & Hj & Hs & _).
    eapply HQ; [exact Hj|apply not_elem_of_nil|done]. }
  assert (Hin : j ∈ ids L) by (apply Hl; left).
  assert (Hj : j < 24) by (eapply ids_lt; [apply HL|done]).
  pose proof (ent_lookup _ _ _ _ _ _ HL j Hj) as Hs. set (e := ent L j) in *.
  assert (He : e ∈ es L) by (apply (es_elem _ _ _ _ _ _ HL); eauto).
  pose proof (lk_ent _ _ _ _ _ _ HL e He) as (Hpz & Hent).
  assert (Hnext : ~ hit (drop (d * 8) kb) e -> forall w O, reads (scan_leaf p (kpos kb d) sl) w O Φ).
  { intros Hno. apply IH; [intros; apply Hl; by right|]. intros j' e' Hj' Hnj Hje. destruct (decide (j' = j)) as [->|].
    - assert (e' = e) as -> by congruence. done.
    - eapply HQ; [done| |done]. rewrite not_elem_of_cons. done. }
  eapply reads_bind; [by eapply r_ikey|]. intros r1 w1 O1 _ _ _ ->.
  rewrite ikey_pos by done.
  destruct (N.eqb_spec (s_ik e) (be_word (pad8 (drop (d * 8) kb)))) as [Eik|Eik].
  2: { apply Hnext. by intros [? _]. }
  eapply reads_bind; [by eapply r_keylenx|]. intros r2 w2 O2 _ _ _ ->.
  eapply reads_bind; [by eapply r_val_ptr|]. intros ptr w3 O3 _ HI3 _ (md' & L' & y & Hp' & HLL & Hy & Hsl & -> & Hact & HO3).
  assert (HL' : leaf_ok K B (skels (sA (ws w3))) (sV (ws w3)) g L') by (eapply iv_l; [apply HI3|exact Hp']).
  assert (Hye : y ∈ es L'). { apply (es_elem _ _ _ _ _ _ HL'). exists j. rewrite (sleaf_ids _ _ HLL). done. }
  pose proof (lk_ent _ _ _ _ _ _ HL' y Hye) as (Hpz' & _).
  destruct (N.eqb_spec (s_ptr y) 0) as [|_]; [done|].
  rewrite search_kx, has_suffix_pos.
  set (r := drop (d * 8) kb) in *.
  assert (Hgot : (s_kx e < LAYER_KEYLENX)%N -> rest_of e r -> gotv (s_ptr y) w3 O3).
  { intros Hlt Hre. destruct (val_now w3 l d y HI3 Hpath) as (v & Hv & Hm).
    { exists p, g, md', rt, pa, L'. done. } { by eapply same_rest. }
    exists v. split; [done|]. split; [|split; [done|]].
    - eapply slot_live; [exact Hp'|by eapply elem_of_list_lookup_2|done|]. destruct Hsl as (_ & -> & _). done.
    - apply HO3. rewrite Ho, Hm. done. }
  assert (Hyes : forall w4 (O4 : status -> Prop), Rely i w3 w4 -> (forall s, O3 s -> O4 s) -> hit r e -> Φ (Some (s_kx e, s_ptr y)) w4 O4).
  { intros w4 O4 HR HO4 Hh. left. exists e, (s_ptr y). split; [done|]. split; [done|]. split; [done|]. split; [by apply Hsl|].
    intros Hlt. eapply gotv_mono; [done|done|]. apply Hgot; [done|]. destruct Hh as [_ [?|[? _]]]; [done|lia]. }
  destruct (N.eqb_spec (s_kx e) (if Nat.leb (length r) 8 then N.of_nat (length r) else KSUF_KEYLENX)) as [Ek|Ek].
  - assert (Hyes' : (if Nat.leb (length r) 8 then True else s_sf e = Some (drop 8 r)) -> hit r e).
    { intros Hsf. split; [done|]. left. split; [by apply Forall_drop|]. split; [done|]. destruct (Nat.leb _ _); [done|]. split; done. }
    destruct (N.eqb_spec (s_kx e) KSUF_KEYLENX) as [E64|E64].
    + assert (Hlen : Nat.leb (length r) 8 = false).
      { destruct (Nat.leb_spec (length r) 8); [|done]. rewrite Ek in E64. unfold KSUF_KEYLENX in E64. lia. }
      eapply reads_bind; [by eapply r_ksuf_equals|]. intros r4 w4 O4 HR4 _ HO4 ->.
      rewrite suffix_pos. fold r. case_bool_decide as Esf.
      * apply reads_ret, Hyes; [done|done|]. apply Hyes'. by rewrite Hlen.
      * apply Hnext. intros [_ [(_ & _ & H3)|[H3 _]]].
        { rewrite Hlen in H3. by destruct H3. } { rewrite E64 in H3. done. }
    + eapply reads_bind; [by eapply (reads_ret _ _ _ _ _ _ _ _ _ _ (fun r w' _ => r = true))|]. intros r4 w4 O4 HR4 _ HO4 ->.
      apply reads_ret, Hyes; [done|done|]. apply Hyes'. destruct (Nat.leb_spec (length r) 8); done.
  - destruct (N.leb_spec LAYER_KEYLENX (s_kx e)) as [E128|E128]; cbn [andb].
    + destruct Hent as [(r' & v & Hr' & _)|(Ekx & _)].
      { pose proof (rest_lt _ _ Hr'). lia. }
      destruct (Nat.ltb_spec 8 (length r)).
      * apply reads_ret, Hyes; [apply rely_refl|done|]. split; [done|]. by right.
      * apply Hnext. intros [_ [H3|[_ H3]]]; [|lia]. pose proof (rest_lt _ _ H3). lia.
    + apply Hnext. intros [_ [H3|[H3 _]]]; [|lia]. by apply rest_kx in H3.
Qed.

Definition upre (l : N) (d : nat) (st : gstate) : Prop :=
  let ik := be_word (pad8 (drop (d * 8) kb)) in
  match st with
  | GLayer r => exists rn, A !! r = Some rn /\ g_lid (a_gh rn) = l
  | GLeaf r p | GSearch r p _ => (exists rn, A !! r = Some rn /\ g_lid (a_gh rn) = l) /\ lands sb l ik p
  end.
Lemma r_get_loop F n : forall d l st w O, d * 8 <= length kb -> path A kb l d -> upre l d st ->
  reads (get_loop F n (kpos kb d) st) w O (fun r w' O' =>
    match r with Some h => gotv h w' O' | None => forall h, ~ reaches A kb l d h end).
Proof.
  induction n as [|n IH]; intros d l st w O Hd Hpath Hpre; cbn [get_loop]; [by apply reads_fuel|].
  destruct st as [r|r p|r p v].
  - destruct Hpre as (rn & Hr & Hlr). rewrite ikey_pos by done. 
    eapply r_descend; [exact Hr|exact Hlr|by apply ik_top|]. intros r' q rn' w1 O1 Hr' Hlr' Hq. apply IH; [done|done|]. split; [by exists rn'|done].
  - destruct Hpre as [Hr Hlr]. pose proof Hlr as (g & md & rt & pa & L & Hp & Hl & Hik).
    eapply reads_bind; [by eapply r_stable|]. intros v w1 O1 _ _ _ _. by apply IH.
  - destruct Hpre as [Hr Hlr]. pose proof Hlr as (g & md & rt & pa & L & Hp & Hl & Hik).
    pose proof (iv_l _ _ _ _ _ HI _ _ _ _ _ _ Hp) as HL.
    eapply reads_bind; [by eapply r_flag_deleted|]. intros r1 w1 O1 _ _ _ ->.
    eapply reads_bind; [by eapply r_permutation|]. intros r2 w2 O2 _ _ _ ->. rewrite (ids_not_frozen (lb_perm L)) by apply HL.
    eapply reads_bind; [by eapply r_scan_leaf|]. intros snap w3 O3 _ _ _ Hsnap.
    eapply reads_bind; [by eapply r_has_changed|]. intros ch w4 O4 HR4 _ HO4 _. destruct ch.
    { rewrite ikey_pos by done. eapply reads_bind; [by eapply r_advance_to_key|]. intros [q v'] w5 O5 _ _ _ Hq. cbn in Hq.
      destruct (N.eqb_spec q p) as [->|]; by apply IH. }
    destruct Hsnap as [(e & ptr & He & Hh & -> & Hptr & Hgot)|(-> & Hno)].
    + assert (Hent : entry A l e) by (exists p, g, md, rt, pa, L; done).
      destruct (N.leb_spec LAYER_KEYLENX (s_kx e)) as [E|E].
      * destruct (lk_ent _ _ _ _ _ _ HL e He) as (_ & [(r' & v' & Hr' & _)|(Ekx & nn & w' & t & v' & E1 & _)]).
        { pose proof (rest_lt _ _ Hr'). lia. }
        assert (H8 : 8 < length (drop (d * 8) kb)).
        { destruct Hh as [_ [H3|[_ H3]]]; [|done]. pose proof (rest_lt _ _ H3). lia. }
        rewrite (Hptr Ekx). apply skels_some in E1 as (a & Ha & ->). rewrite shift_pos.
        eapply reads_weaken; [eapply (IH (d + 1) (g_lid (a_gh a)))|].
        { rewrite drop_length in H8. lia. }
        { eapply p_down; [exact Hpath|exact Hent|done|apply Hh|done|done]. }
        { cbn. eauto. }
        intros [h|] w5 O5 _ _ _ Hr5; [done|]. intros h Hrh. 
        apply reaches_hit in Hrh as (e' & F1 & F2 & F3).
        assert (e' = e) as -> by (eapply entry_uniq; [done|done|done|done|by eapply hit_ecls]).
        destruct F3 as [[F3 _]|[_ (n' & F3 & F4)]]; [lia|]. assert (n' = a) as -> by congruence. by eapply Hr5.
      * apply reads_ret. eapply gotv_mono; [done|done|]. by apply Hgot.
    + eapply reads_bind; [by eapply r_flag_any|]. intros dirty w5 O5 _ _ _ _. destruct dirty.
      { eapply reads_bind; [by eapply r_stable|]. intros v' w6 O6 _ _ _ _. by apply IH. }
      eapply reads_bind; [by eapply r_next_raw|]. intros r6 w6 O6 _ _ _ ->.
      assert (Hdone : (be_word (pad8 (drop (d * 8) kb)) < g_hi g)%N -> forall h, ~ reaches A kb l d h).
      { intros Hlt h Hr'.
        apply reaches_hit in Hr' as (e' & (p' & g' & md' & rt' & pa' & L' & F1 & F2 & F3) & F4 & _).
        pose proof (iv_l _ _ _ _ _ HI _ _ _ _ _ _ F1) as HL'.
        pose proof (HN _ _ _ _ _ _ _ F1 F3). pose proof (lk_span _ _ _ _ _ _ HL' e' F3) as [HH0 _].
        destruct F4 as [F4 F5]. rewrite F4 in *.
        assert (p' = p).
        { eapply holds_uniq; [exact HI|..].
          - exists g', md', rt', pa', L'. split; [done|]. split; [exact F2|]. split; [apply HH0|done].
          - exists g, md, rt, pa, L. split; [done|]. split; [done|]. lia. }
        subst p'. rewrite Hp in F1. injection F1 as <- <- <- <- <-. eapply Hno; [exact F3|]. split; done. }
      pose proof (ik_top kb Hkb d) as Htop.
      destruct (N.eq_dec (lb_nx L) 0) as [Hz|Hz].
      * rewrite Hz. change (unmark_ptr 0) with 0%N. cbn [N.eqb negb andb]. apply reads_ret. apply Hdone.
        destruct (next_leaf _ _ _ _ HS HI _ _ _ _ _ _ Hp) as [[_ ->]|(? & _)]; done.
      * destruct (next_lands l _ _ _ _ _ _ _ Hp Hl Hik Hz) as (g' & md' & rt' & pa' & L' & x & Hq & He & Hx & Hxi & Hl' & Hb').
        destruct (even_unmarked _ He) as [-> ->]. cbv zeta. destruct (N.eqb_spec (lb_nx L) 0); [done|]. cbn [negb andb].
        eapply reads_bind; [by eapply r_ikey|]. intros r7 w7 O7 _ _ _ ->. rewrite Hxi, ikey_pos by done.
        destruct (N.leb_spec (g_hi g) (be_word (pad8 (drop (d * 8) kb)))) as [Hle|Hlt]; [|apply reads_ret; by apply Hdone].
        apply IH; [done|done|]. split; [done|]. exists g', md', rt', pa', L'. split; [done|]. split; [done|]. by apply Hb'.
Qed.
End R.
