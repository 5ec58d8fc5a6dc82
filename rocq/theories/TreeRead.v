(** Descent, scanning and lookup, run alone. *)
From Verif Require Import Base Perm PermFacts PermList SpecPerm PermLaws Key SpecKey KeyFacts Suffix Prog Version Mem Tree TreeState TreePrim TreeInv.

(** ** active slots *)
Lemma ids_active v : p_wf P24 v -> active_slots v = active P24 v.
Proof.
  intros H. unfold active_slots, active, slots_of, perm_get, perm_size. pose proof (wf_size _ _ H) as Hs.
  change (pW P24) with 24 in *. unfold p_slots. change (pW P24) with 24.
  assert (E : seq 0 24 = seq 0 (p_size P24 v) ++ seq (p_size P24 v) (24 - p_size P24 v)).
  { rewrite <- seq_app. f_equal. lia. }
  rewrite E, map_app. rewrite take_app_alt by (by rewrite map_length, seq_length). done.
Qed.
Lemma ids_len v : length (active_slots v) = perm_size v.
Proof. unfold active_slots. by rewrite map_length, seq_length. Qed.
Lemma ids_nodup v : p_wf P24 v -> NoDup (active_slots v).
Proof.
  intros H. rewrite ids_active by done. apply perm_word_wf in H as (_ & _ & Hnd & _).
  rewrite <- (take_drop (p_size P24 v) (slots_of P24 v)) in Hnd. by apply NoDup_app in Hnd as [? _].
Qed.
Lemma ids_lt v i : p_wf P24 v -> i ∈ active_slots v -> i < 24.
Proof.
  intros H Hi. rewrite ids_active in Hi by done. apply perm_word_wf in H as (_ & _ & _ & Hin).
  apply Hin. unfold active in Hi. apply elem_of_take in Hi as (j & Hj & _). by eapply elem_of_list_lookup_2.
Qed.
Lemma ids_size v : p_wf P24 v -> length (active_slots v) <= 24.
Proof. intros H. rewrite ids_len. exact (wf_size _ _ H). Qed.

Section LeafFacts.
Context (K : bytes -> N -> Prop) (B : N) (S : gmap N snode) (V : gmap N N) (g : ghost) (L : lbody).
Context (H : leaf_ok K B S V g L).
Lemma ent_lookup i : i < 24 -> lb_sl L !! i = Some (ent L i).
Proof.
  intros Hi. unfold ent. destruct (nth_lookup_or_length (lb_sl L) i slot0) as [E|E]; [exact E|]. rewrite (lk_len _ _ _ _ _ _ H) in E. lia.
Qed.
Lemma es_lookup j e : es L !! j = Some e <-> exists i, ids L !! j = Some i /\ lb_sl L !! i = Some e /\ i < 24.
Proof.
  unfold es. rewrite list_lookup_fmap. split.
  - intros Hj. destruct (ids L !! j) as [i|] eqn:E; [|done]. injection Hj as <-. exists i.
    assert (i < 24) by (eapply ids_lt; [apply H|]; by eapply elem_of_list_lookup_2).
    split; [done|]. split; [by apply ent_lookup|done].
  - intros (i & E & Hi & Hlt). rewrite E. cbn. rewrite ent_lookup in Hi by done. done.
Qed.
Lemma es_elem e : e ∈ es L <-> exists i, i ∈ ids L /\ lb_sl L !! i = Some e /\ i < 24.
Proof.
  rewrite elem_of_list_lookup. setoid_rewrite es_lookup. setoid_rewrite (elem_of_list_lookup (ids L)). naive_solver.
Qed.
Lemma es_len : length (es L) = perm_size (lb_perm L).
Proof. unfold es. rewrite map_length. apply ids_len. Qed.
End LeafFacts.

(** ** addresses *)
Lemma even_unmarked p : N.even p = true -> is_marked p = false /\ unmark_ptr p = p.
Proof.
  intros H. assert (N.testbit p 0 = false) as E by (rewrite N.bit0_odd, <- N.negb_even, H; done).
  split; [exact E|]. unfold unmark_ptr. apply N.bits_inj. intros i. rewrite N.ldiff_spec.
  destruct (N.eq_dec i 0) as [->|Hi]; [by rewrite E|].
  rewrite (N.bits_above_log2 1 i); [by rewrite andb_true_r|]. cbn. lia.
Qed.

Section Read.
Context (K : bytes -> N -> Prop) (B : N) (m : mem) (s : ast).
Context (HS : St m s) (HI : Inv K B s 0 0) (HF : free_but [] (sA s)).
Local Notation A := (sA s).
Local Notation SA := (skels (sA s)).
Local Notation I := (iv_s _ _ _ _ _ HI).

Lemma nz p n : A !! p = Some n -> p <> 0%N.
Proof. intros H. by eapply St_addr. Qed.
Lemma free p n : A !! p = Some n -> a_md n = MFree.
Proof. intros H. eapply HF; [done|]. apply not_elem_of_nil. Qed.
Lemma hi_xh p n : SA !! p = Some n -> xh n = hi n.
Proof.
  intros H. apply (go_eq _ _ _ (si_gh _ _ _ _ I p n H)). apply skels_some in H as (a & Ha & _). by eapply nz.
Qed.

Lemma wp_maybe_parent F : forall p n (Q : N -> mem -> Prop), A !! p = Some n -> 24 <= F + lvl (skel n) ->
  (forall r rn, A !! r = Some rn -> g_lid (a_gh rn) = g_lid (a_gh n) -> a_pa rn = 0%N -> Q r m) ->
  wp (maybe_parent F p) m Q.
Proof.
  induction F as [|F IH]; intros p n Q Hp HFu HQ.
  { pose proof (level_bound _ _ _ _ I p _ (skels_lookup _ _ _ Hp)). lia. }
  cbn [maybe_parent]. apply wp_bind. destruct n as [g md rt pa b].
  eapply wp_flag_leaf; [done|done|]. apply wp_bind.
  assert (HH : wp (if (pa =? 0)%N then Ret p else maybe_parent F pa) m Q).
  { destruct (N.eqb_spec pa 0) as [Hz|Hz].
    - apply wp_ret. by eapply HQ.
    - destruct (parent_of _ _ _ _ I p _ (skels_lookup _ _ _ Hp)) as (pn & J & i & E1 & E2 & _ & _ & E3 & E4 & _).
      { by eapply nz. } { done. }
      apply skels_some in E1 as (a & Ha & ->). eapply IH; [exact Ha|..].
      + unfold lvl at 1. rewrite E2. lia.
      + intros r rn H1 H2 H3. eapply HQ; [done| |done]. rewrite H2. exact E3. }
  destruct b as [L|J]; cbn [is_leafb].
  - eapply wp_leaf_parent; [done|done|]. exact HH.
  - eapply wp_inode_parent; [done|done|]. exact HH.
Qed.

Lemma wp_ub_loop p g md rt pa J ik : A !! p = Some (ND g md rt pa J) -> forall fuel l r (Q : nat -> mem -> Prop),
  l <= r -> r <= ib_nk J -> r - l <= fuel ->
  (forall x, bnds g J !! l = Some x -> x <= ik)%N -> (forall x, bnds g J !! (r + 1)%nat = Some x -> ik <= x)%N ->
  (forall ci, ci <= ib_nk J -> (forall x, bnds g J !! ci = Some x -> x <= ik)%N ->
     (forall x, bnds g J !! (ci + 1)%nat = Some x -> ik <= x)%N -> Q ci m) ->
  wp (ub_loop fuel p ik l r) m Q.
Proof.
  intros Hp. pose proof (si_inode _ _ _ _ I p _ J (skels_lookup _ _ _ Hp) eq_refl) as HJ.
  induction fuel as [|fuel IH]; intros l r Q Hlr Hr Hf Hl Hu HQ; cbn [ub_loop].
  - destruct (Nat.ltb_spec l r); [lia|]. apply wp_ret. assert (l = r) as -> by lia. by apply HQ.
  - destruct (Nat.ltb_spec l r); [|apply wp_ret; assert (l = r) as -> by lia; by apply HQ].
    cbv zeta. set (mid := (l + r) / 2).
    assert (Hm : l <= mid < r).
    { unfold mid. split; [apply Nat.div_le_lower_bound; lia|apply Nat.div_lt_upper_bound; lia]. }
    destruct (lookup_lt_is_Some_2 (ib_ks J) mid) as [x Hx]; [destruct HJ; lia|].
    assert (Hb : bnds g J !! (mid + 1) = Some x) by (rewrite bnds_mid; [done|lia|destruct HJ; lia]).
    apply wp_bind. eapply wp_inode_ikey; [done|done|exact Hx|].
    destruct (N.compare_spec ik x) as [->|Hc|Hc].
    + apply wp_ret. apply HQ; [lia|intros; assert (x0 = x) by congruence; lia|].
      intros y Hy. eapply (bnds_step _ _ _ _ I p _ J (mid + 1)); [by apply skels_lookup|done|done|done].
    + apply IH; [lia|lia|lia|done| |done]. intros y Hy. assert (y = x) by congruence. lia.
    + apply IH; [lia|lia|lia| |done|done]. intros y Hy. assert (y = x) by congruence. lia.
Qed.

(** leaf [p] of layer [l] with [lo <= ik <= hi] *)
Definition lands (l ik p : N) : Prop :=
  exists g md rt pa L, A !! p = Some (LF g md rt pa L) /\ g_lid g = l /\ (g_lo g <= ik <= g_hi g)%N.
Lemma wp_reach_leaf F st ik : 0 < F -> forall n p pn (Q : N -> mem -> Prop), A !! p = Some pn ->
  lvl (skel pn) < n -> (g_lo (a_gh pn) <= ik <= g_hi (a_gh pn))%N ->
  (forall q, lands (g_lid (a_gh pn)) ik q -> Q q m) -> wp (reach_leaf F n st p ik) m Q.
Proof.
  intros HF0. induction n as [|n IH]; intros p pn Q Hp Hn Hik HQ; [lia|].
  cbn [reach_leaf]. pose proof (free _ _ Hp) as Hfr. destruct pn as [g md rt pa b]. cbn [a_md a_gh] in *.
  apply wp_bind. eapply wp_stable; [done|done|done|done|]. intros v Hv _. apply wp_bind.
  eapply wp_flag_leaf; [done|done|]. destruct b as [L|J]; cbn [is_leafb].
  - apply wp_ret. apply HQ. by exists g, md, rt, pa, L.
  - pose proof (si_inode _ _ _ _ I p _ J (skels_lookup _ _ _ Hp) eq_refl) as HJ.
    apply wp_bind. unfold upper_bound_internode. apply wp_bind. eapply wp_nkeys; [done|done|].
    eapply wp_ub_loop; [done|lia|lia|lia|..].
    { intros x Hx. rewrite bnds_0 in Hx. injection Hx as <-. lia. }
    { intros x Hx. rewrite bnds_last in Hx by (destruct HJ; lia). injection Hx as <-. lia. }
    intros ci Hci Hl Hu.
    destruct (kid_at _ _ _ _ I p _ J ci (skels_lookup _ _ _ Hp) eq_refl Hci) as (c & cn & _ & Hc & _ & Hcn & C1 & C2 & C3 & C4 & C5).
    pose proof (hi_xh _ _ Hcn) as Hxh.
    apply skels_some in Hcn as (a & Ha & ->). apply wp_bind. eapply wp_child; [done|done|exact Hc|].
    pose proof (nz _ _ Ha). destruct (N.eqb_spec c 0); [done|]. apply wp_bind.
    eapply wp_has_changed; [exact Hv|]. eapply IH; [exact Ha|..].
    + unfold lvl at 1 in Hn. cbn in Hn. lia.
    + specialize (Hl _ C4). specialize (Hu _ C5). rewrite Hxh in Hu. split; [exact Hl|exact Hu].
    + intros q Hq. apply HQ. cbn in C2. by rewrite <- C2.
Qed.

(** the next leaf *)
Lemma next_leaf p g md rt pa L : A !! p = Some (LF g md rt pa L) ->
  (lb_nx L = 0%N /\ g_hi g = TOP) \/
  (lb_nx L <> 0%N /\ N.even (lb_nx L) = true /\ exists g' md' rt' pa' L', A !! lb_nx L = Some (LF g' md' rt' pa' L') /\
    g_lid g' = g_lid g /\ g_lo g' = g_hi g /\ lb_pv L' = p /\ (exists x, lb_sl L' !! 0 = Some x /\ s_ik x = g_hi g) /\
    (g_lo g' = g_hi g' -> forall e, e ∈ es L -> (s_ik e < g_hi g)%N) /\
    (g_lo g = g_hi g -> (g_lo g' < g_hi g')%N)).
Proof.
  intros Hp. pose proof (si_leaf _ _ _ _ I p _ _ _ (skels_lookup _ _ _ Hp) eq_refl) as HL. cbn in HL.
  destruct (N.eq_dec (lb_nx L) 0) as [Hz|Hz]; [left; split; [done|by apply (lo_end _ _ _ _ _ HL)]|right].
  destruct (lo_nx _ _ _ _ _ HL Hz) as (qn & nx' & E1 & E2 & E3 & E4).
  pose proof E1 as E1'. apply skels_some in E1 as (a & Ha & ->). split; [done|].
  split; [by eapply St_addr|]. destruct a as [g' md' rt' pa' b]. destruct b as [L'|]; [|done].
  cbn in *. injection E2 as E2 E5.
  exists g', md', rt', pa', L'. split; [done|]. split; [done|]. split; [done|]. split; [done|].
  assert (HLp : leaf_ok K B SA (sV s) g L) by (by eapply HI).
  assert (HLq : leaf_ok K B SA (sV s) g' L') by (by eapply HI).
  assert (Hpz : p <> 0%N) by (by eapply nz).
  destruct (lk_first _ _ _ _ _ _ HLq) as [F1 F2]; [congruence|].
  assert (Hd : g_lo g' = g_hi g' -> forall e, e ∈ es L -> (s_ik e < g_hi g)%N).
  { intros Hd. apply (lk_deg _ _ _ _ _ _ HLp _ Hz E1'). exact Hd. }
  split; [|split; [exact Hd|]].
  - exists (ent L' 0). split; [eapply ent_lookup; [done|lia]|]. congruence.
  - intros Hg. pose proof (si_gh _ _ _ _ I _ _ E1') as G. destruct (N.eq_dec (g_lo g') (g_hi g')) as [E|E].
    + exfalso. assert (Hpv : lb_pv L <> 0%N) by (by apply (lo_deg _ _ _ _ _ HL)).
      destruct (lk_first _ _ _ _ _ _ HLp Hpv) as [F3 F4].
      specialize (Hd E (ent L 0)). rewrite F4 in Hd. enough (g_lo g < g_hi g)%N by lia. apply Hd.
      unfold es. apply elem_of_list_fmap_1. by eapply elem_of_list_lookup_2.
    + destruct G as [G _ _ _ _ _]. cbn in G. lia.
Qed.

Lemma ids_not_frozen v : p_wf P24 v -> is_frozen v = false.
Proof. intros H. by apply wf_not_frozen. Qed.

(** how many hops may remain *)
Definition rank (g : ghost) (ik : N) : nat := if (ik <? g_hi g)%N then 0 else if (g_lo g =? g_hi g)%N then 1 else 2.

(** leaf [p] is the one responsible for [ik] in layer [l] *)
Definition holds (l ik p : N) : Prop :=
  exists g md rt pa L, A !! p = Some (LF g md rt pa L) /\ g_lid g = l /\ (g_lo g <= ik < g_hi g)%N.
Lemma wp_by_bound_loop F ik l : (ik < TOP)%N -> forall n hops p g md rt pa L (Q : N * bool -> mem -> Prop),
  A !! p = Some (LF g md rt pa L) -> g_lid g = l -> (g_lo g <= ik <= g_hi g)%N ->
  rank g ik < n -> rank g ik + hops < 128 ->
  (forall q, holds l ik q -> Q (q, false) m) -> wp (by_bound_loop F n p ik hops) m Q.
Proof.
  intros Ht. induction n as [|n IH]; intros hops p g md rt pa L Q Hp Hl Hik Hn Hh HQ; [lia|].
  cbn [by_bound_loop]. unfold MAX_BLINK_HOPS. destruct (Nat.leb_spec 128 hops); [lia|].
  apply wp_bind. eapply wp_next_raw; [done|done|].
  destruct (next_leaf _ _ _ _ _ _ Hp) as [[Hz Hi]|(Hz & He & g' & md' & rt' & pa' & L' & Hq & Q1 & Q2 & Q3 & (x & Hx & Hxi) & Q4 & Q5)].
  - rewrite Hz. cbn [is_marked]. change (is_marked 0) with false. cbv iota.
    change (unmark_ptr 0) with 0%N. cbn [N.eqb]. apply wp_ret. apply HQ. exists g, md, rt, pa, L. rewrite Hi. split; [done|]. split; [done|]. lia.
  - destruct (even_unmarked _ He) as [-> ->]. cbv zeta. destruct (N.eqb_spec (lb_nx L) 0); [done|].
    apply wp_bind. eapply wp_ikey; [done|done|exact Hx|]. rewrite Hxi.
    destruct (N.leb_spec (g_hi g) ik).
    + assert (ik = g_hi g) as -> by lia.
      pose proof (si_gh _ _ _ _ I _ _ (skels_lookup _ _ _ Hq)) as [G _ _ _ _ _]. cbn in G.
      assert (Hr : rank g' (g_hi g) < rank g (g_hi g)).
      { unfold rank. rewrite N.ltb_irrefl. destruct (N.ltb_spec (g_hi g) (g_hi g')).
        - destruct (_ =? _)%N; lia.
        - destruct (N.eqb_spec (g_lo g) (g_hi g)) as [E|E]; [specialize (Q5 E); lia|].
          destruct (N.eqb_spec (g_lo g') (g_hi g')); lia. }
      eapply IH; [exact Hq|congruence|lia|lia|lia|exact HQ].
    + apply wp_ret. apply HQ. exists g, md, rt, pa, L. split; [done|]. split; [done|]. lia.
Qed.
Lemma wp_advance_by_bound F ik l p (Q : N * bool -> mem -> Prop) : (ik < TOP)%N -> 3 <= F ->
  lands l ik p -> (forall q, holds l ik q -> Q (q, false) m) -> wp (advance_by_bound F p ik) m Q.
Proof.
  intros Ht HF3 (g & md & rt & pa & L & Hp & Hl & Hik) HQ. unfold advance_by_bound.
  pose proof (free _ _ Hp) as Hfr. cbn in Hfr. subst md.
  apply wp_bind. eapply wp_flag_splitting; [done|done|]. apply wp_bind, wp_ret.
  assert (rank g ik <= 2). { unfold rank. destruct (_ <? _)%N; [lia|]. destruct (_ =? _)%N; lia. }
  eapply wp_by_bound_loop; [done|done|done|done|lia|lia|done].
Qed.

(** from any node of a layer to the leaf responsible for [ik] *)
Lemma wp_descend F l ik p pn {R} (f : N -> N -> P R) (Q : R -> mem -> Prop) : A !! p = Some pn -> g_lid (a_gh pn) = l -> (ik < TOP)%N -> 25 <= F ->
  (forall r q rn, A !! r = Some rn -> g_lid (a_gh rn) = l -> lands l ik q -> wp (f r q) m Q) ->
  wp (r <- maybe_parent F p ;; q <- reach_leaf F F r r ik ;; f r q) m Q.
Proof.
  intros Hp Hl Ht HF25 HQ. apply wp_bind. eapply wp_maybe_parent; [exact Hp|lia|].
  intros r rn Hr Hlr Hpa. apply wp_bind. eapply wp_reach_leaf; [lia|exact Hr|..].
  - pose proof (level_bound _ _ _ _ I r _ (skels_lookup _ _ _ Hr)). lia.
  - destruct (si_top _ _ _ _ I r _ (skels_lookup _ _ _ Hr)) as (T1 & T2 & _); [by eapply nz|done|].
    pose proof (hi_xh _ _ (skels_lookup _ _ _ Hr)) as T3. cbn in *. lia.
  - intros q Hq. eapply HQ; [exact Hr|congruence|]. by rewrite <- Hl, <- Hlr.
Qed.

(** ** scanning one leaf *)
Context (kb : bytes) (Hkb : is_bytes kb).
Definition hit (r : bytes) (e : slot) : Prop :=
  s_ik e = be_word (pad8 r) /\ (rest_of e r \/ (s_kx e = LAYER_KEYLENX /\ 8 < length r)).
Lemma search_kx d : search_keylenx (kpos kb d) =
  if Nat.leb (length (drop (d * 8) kb)) 8 then N.of_nat (length (drop (d * 8) kb)) else KSUF_KEYLENX.
Proof.
  unfold search_keylenx. rewrite has_suffix_pos, current_len_pos.
  destruct (Nat.ltb_spec 8 (length (drop (d * 8) kb))), (Nat.leb_spec (length (drop (d * 8) kb)) 8); try lia; done.
Qed.
Lemma rest_kx e r : rest_of e r -> s_kx e = if Nat.leb (length r) 8 then N.of_nat (length r) else KSUF_KEYLENX.
Proof. intros (_ & _ & H). destruct (Nat.leb _ _); [done|by destruct H]. Qed.
Lemma rest_lt e r : rest_of e r -> (s_kx e < LAYER_KEYLENX)%N.
Proof.
  intros H. rewrite (rest_kx _ _ H). destruct (Nat.leb_spec (length r) 8); unfold LAYER_KEYLENX, KSUF_KEYLENX; lia.
Qed.
Lemma hit_ecls e e' r : hit r e -> hit r e' -> ecls e = ecls e'.
Proof.
  intros [H1 H2] [H3 H4]. unfold ecls. f_equal; [congruence|].
  assert (HH : forall x, rest_of x r \/ (s_kx x = LAYER_KEYLENX /\ 8 < length r) ->
    N.min (s_kx x) 9 = if Nat.leb (length r) 8 then N.of_nat (length r) else 9%N).
  { intros x [Hx|[-> Hx]].
    - rewrite (rest_kx _ _ Hx). destruct (Nat.leb_spec (length r) 8); [lia|done].
    - destruct (Nat.leb_spec (length r) 8); [lia|done]. }
  by rewrite (HH e), (HH e').
Qed.
Lemma wp_scan_leaf p g md rt pa L d (Q : option (N * N) -> mem -> Prop) : A !! p = Some (LF g md rt pa L) -> d * 8 <= length kb ->
  (forall e, e ∈ es L -> hit (drop (d * 8) kb) e -> Q (Some (s_kx e, s_ptr e)) m) ->
  ((forall e, e ∈ es L -> ~ hit (drop (d * 8) kb) e) -> Q None m) ->
  wp (scan_leaf p (kpos kb d) (active_slots (lb_perm L))) m Q.
Proof.
  intros Hp Hd HQ1 HQ2. pose proof (iv_l _ _ _ _ _ HI _ _ _ _ _ _ Hp) as HL.
  assert (HG : forall l, (forall i, i ∈ l -> i ∈ ids L) ->
    ((forall i e, i ∈ l -> lb_sl L !! i = Some e -> ~ hit (drop (d * 8) kb) e) -> Q None m) ->
    wp (scan_leaf p (kpos kb d) l) m Q).
  2: { apply HG; [done|]. intros HN. apply HQ2. intros e He. apply (es_elem _ _ _ _ _ _ HL) in He as (i & Hi & Hs & _). by eapply HN. }
  clear HQ2. induction l as [|i l IH]; intros Hl HQ2; cbn [scan_leaf].
  { apply wp_ret, HQ2. intros i e Hi. by apply elem_of_nil in Hi. }
  assert (Hin : i ∈ ids L) by (apply Hl; left).
  assert (Hi : i < 24) by (eapply ids_lt; [apply HL|done]).
  pose proof (ent_lookup _ _ _ _ _ _ HL i Hi) as Hs. set (e := ent L i) in *.
  assert (He : e ∈ es L) by (apply (es_elem _ _ _ _ _ _ HL); eauto).
  pose proof (lk_ent _ _ _ _ _ _ HL e He) as (Hpz & Hent).
  assert (Hnext : ~ hit (drop (d * 8) kb) e -> wp (scan_leaf p (kpos kb d) l) m Q).
  { intros Hno. apply IH; [intros; apply Hl; by right|]. intros HN. apply HQ2.
    intros j e' Hj Hje. apply elem_of_cons in Hj as [->|Hj]; [|by eapply HN].
    assert (e' = e) as -> by congruence. done. }
  apply wp_bind. eapply wp_ikey; [done|done|exact Hs|].
  rewrite ikey_pos by done.
  destruct (N.eqb_spec (s_ik e) (be_word (pad8 (drop (d * 8) kb)))) as [Eik|Eik].
  2: { apply Hnext. by intros [? _]. }
  apply wp_bind. eapply wp_keylenx; [done|done|exact Hs|].
  apply wp_bind. eapply wp_val_ptr; [done|done|exact Hs|].
  destruct (N.eqb_spec (s_ptr e) 0) as [|_]; [done|].
  rewrite search_kx, has_suffix_pos.
  set (r := drop (d * 8) kb) in *.
  assert (Hr : is_bytes r) by (by apply Forall_drop).
  destruct (N.eqb_spec (s_kx e) (if Nat.leb (length r) 8 then N.of_nat (length r) else KSUF_KEYLENX)) as [Ek|Ek].
  - assert (Hyes : (if Nat.leb (length r) 8 then True else s_sf e = Some (drop 8 r)) -> hit r e).
    { intros Hsf. split; [done|]. left. split; [done|]. split; [done|]. destruct (Nat.leb _ _); [done|]. split; done. }
    apply wp_bind. destruct (N.eqb_spec (s_kx e) KSUF_KEYLENX) as [E64|E64].
    + assert (Hlen : Nat.leb (length r) 8 = false).
      { destruct (Nat.leb_spec (length r) 8); [|done]. rewrite Ek in E64. unfold KSUF_KEYLENX in E64. lia. }
      eapply wp_ksuf_equals; [done|done|exact Hs|done|].
      rewrite suffix_pos. fold r. case_bool_decide as Esf.
      * cbn beta iota. apply wp_ret; apply HQ1; [done|]. apply Hyes. by rewrite Hlen.
      * cbn beta iota. apply Hnext. intros [_ [(_ & _ & H3)|[H3 _]]].
        { rewrite Hlen in H3. by destruct H3. } { rewrite E64 in H3. done. }
    + apply wp_ret. apply wp_ret; apply HQ1; [done|]. apply Hyes.
      destruct (Nat.leb_spec (length r) 8); done.
  - destruct (N.leb_spec LAYER_KEYLENX (s_kx e)) as [E128|E128]; cbn [andb].
    + destruct Hent as [(r' & v & Hr' & _)|(Ekx & _)].
      { pose proof (rest_lt _ _ Hr'). lia. }
      destruct (Nat.ltb_spec 8 (length r)).
      * apply wp_ret; apply HQ1; [done|]. split; [done|]. by right.
      * apply Hnext. intros [_ [H3|[_ H3]]]; [|lia]. pose proof (rest_lt _ _ H3). lia.
    + apply Hnext. intros [_ [H3|[H3 _]]]; [|lia]. by apply rest_kx in H3.
Qed.

(** ** the responsible leaf is unique *)
Lemma holds_uniq l ik p q : holds l ik p -> holds l ik q -> p = q.
Proof.
  intros (g & md & rt & pa & L & Hp & Hl & Hb) (g' & md' & rt' & pa' & L' & Hp' & Hl' & Hb').
  destruct (N.eq_dec p q) as [|Hne]; [done|].
  destruct (si_disj _ _ _ _ I p q _ _ (skels_lookup _ _ _ Hp) (skels_lookup _ _ _ Hp') Hne) as [H|H]; cbn in *; try done; try congruence; lia.
Qed.
Lemma entry_uniq l e e' : NoDead A -> entry A l e -> entry A l e' -> ecls e = ecls e' -> e = e'.
Proof.
  intros HN (p & g & md & rt & pa & L & Hp & Hl & He) (q & g' & md' & rt' & pa' & L' & Hq & Hl' & He') Hc.
  pose proof (iv_l _ _ _ _ _ HI _ _ _ _ _ _ Hp) as HL. pose proof (iv_l _ _ _ _ _ HI _ _ _ _ _ _ Hq) as HL'.
  assert (Eik : s_ik e = s_ik e') by (unfold ecls in Hc; congruence).
  assert (p = q).
  { eapply (holds_uniq l (s_ik e)).
    - exists g, md, rt, pa, L. split; [done|]. split; [done|]. pose proof (HN _ _ _ _ _ _ _ Hp He).
      pose proof (lk_span _ _ _ _ _ _ HL e He). lia.
    - exists g', md', rt', pa', L'. split; [done|]. split; [done|]. pose proof (HN _ _ _ _ _ _ _ Hq He').
      pose proof (lk_span _ _ _ _ _ _ HL' e' He'). lia. }
  subst q. rewrite Hp in Hq. injection Hq as <- <- <- <- <-.
  apply elem_of_list_lookup in He as [i Hi]. apply elem_of_list_lookup in He' as [j Hj].
  assert (i = j).
  { eapply (NoDup_lookup (map ecls (es L))); [apply HL|rewrite list_lookup_fmap, Hi; done|]. rewrite list_lookup_fmap, Hj. cbn. by rewrite Hc. }
  subst. congruence.
Qed.

Lemma reaches_hit l d h : reaches A kb l d h -> exists e, entry A l e /\ hit (drop (d * 8) kb) e /\
  ((s_kx e < LAYER_KEYLENX)%N /\ h = s_ptr e \/
   s_kx e = LAYER_KEYLENX /\ exists n, A !! s_ptr e = Some n /\ reaches A kb (g_lid (a_gh n)) (d + 1) h).
Proof.
  intros H. inversion H as [? ? e H1 H2 H3|? ? e n ? H1 H2 H3 H4 H5 H6]; subst; exists e; (split; [done|]).
  - split; [split; [apply H3|by left]|]. left. done.
  - split; [split; [done|by right]|]. right. eauto.
Qed.
Lemma reaches_fun l d h h' : NoDead A -> reaches A kb l d h -> reaches A kb l d h' -> h = h'.
Proof.
  intros HN H. revert h'. induction H as [l d e H1 H2 H3|l d e n h H1 H2 H3 H4 H5 H6 IH]; intros h' H'.
  - apply reaches_hit in H' as (e' & E1 & E2 & E3).
    assert (e' = e).
    { eapply entry_uniq; [done|exact E1|exact H1|]. eapply hit_ecls; [exact E2|]. split; [apply H3|by left]. }
    subst e'. destruct E3 as [[_ ->]|[E3 _]]; [done|lia].
  - apply reaches_hit in H' as (e' & E1 & E2 & E3).
    assert (e' = e).
    { eapply entry_uniq; [done|exact E1|exact H1|]. eapply hit_ecls; [exact E2|]. split; [done|by right]. }
    subst e'. destruct E3 as [[E3 _]|[_ (n' & E3 & E4)]]; [lia|]. apply IH. by assert (n' = n) as <- by congruence.
Qed.

(** ** lookup *)
Definition good (l : N) (d : nat) (o : option N) : Prop :=
  (forall h, o = Some h -> reaches A kb l d h) /\ (NoDead A -> forall h, reaches A kb l d h -> o = Some h).
Definition gpre (l : N) (d n : nat) (st : gstate) : Prop :=
  let ik := be_word (pad8 (drop (d * 8) kb)) in
  let at_leaf p k := exists g md rt pa L, A !! p = Some (LF g md rt pa L) /\ g_lid g = l /\ (g_lo g <= ik <= g_hi g)%N /\
      8 * (32 - d) + 2 * rank g ik + k <= n in
  match st with
  | GLayer r => 8 * (33 - d) <= n /\ exists rn, A !! r = Some rn /\ g_lid (a_gh rn) = l
  | GLeaf r p => at_leaf p 2
  | GSearch r p v => at_leaf p 1 /\ rd_ver p m = Some v
  end.
Lemma ik_top d : (be_word (pad8 (drop (d * 8) kb)) < TOP)%N.
Proof.
  eapply N.lt_le_trans; [apply be_word_lt, pad8_bytes; by apply Forall_drop|]. rewrite pad8_length. done.
Qed.
Lemma rank_le g ik : rank g ik <= 2.
Proof. unfold rank. destruct (_ <? _)%N; [lia|]. destruct (_ =? _)%N; lia. Qed.
Lemma wp_get_loop F n : 300 <= F -> length kb <= 256 -> forall d l st (Q : option N -> mem -> Prop), d * 8 <= length kb ->
  gpre l d n st -> (forall o, good l d o -> Q o m) -> wp (get_loop F n (kpos kb d) st) m Q.
Proof.
  intros HFu Hlen. induction n as [|n IH]; intros d l st Q Hd Hpre HQ.
  { exfalso. assert (d <= 32) by lia. destruct st; cbn in Hpre; [lia| |];
    [destruct Hpre as (g & md & rt & pa & L & _ & _ & _ & HHn)|destruct Hpre as [(g & md & rt & pa & L & _ & _ & _ & HHn) _]]; lia. }
  assert (Hd32 : d <= 32) by lia.
  destruct st as [r|r p|r p v]; cbn [get_loop].
  - destruct Hpre as [Hn (rn & Hr & Hlr)]. rewrite ikey_pos by done.
    eapply wp_descend; [exact Hr|done|apply ik_top|lia|].
    intros r' q rn' Hr' Hlr' (g & md & rt & pa & L & Hq & Hlq & Hb).
    eapply (IH d l); [done| |done]. exists g, md, rt, pa, L. split; [done|]. split; [done|]. split; [done|].
    pose proof (rank_le g (be_word (pad8 (drop (d * 8) kb)))). lia.
  - destruct Hpre as (g & md & rt & pa & L & Hq & Hlq & Hb & Hn).
    pose proof (free _ _ Hq) as Hfr. cbn in Hfr. apply wp_bind. eapply wp_stable; [done|done|lia|done|].
    intros w Hw _. eapply (IH d l); [done| |done]. split; [|done]. exists g, md, rt, pa, L. split; [done|]. split; [done|]. split; [done|]. lia.
  - destruct Hpre as [(g & md & rt & pa & L & Hq & Hlq & Hb & Hn) Hv].
    pose proof (free _ _ Hq) as Hfr. cbn in Hfr. pose proof (iv_l _ _ _ _ _ HI _ _ _ _ _ _ Hq) as HL.
    apply wp_bind. eapply wp_flag_deleted; [done|done|].
    apply wp_bind. eapply wp_permutation; [done|done|]. rewrite (ids_not_frozen (lb_perm L)) by apply HL.
    apply wp_bind. eapply wp_scan_leaf; [exact Hq|done|..].
    + (* a hit *)
      intros e He Hh. apply wp_bind. eapply wp_has_changed; [done|].
      assert (Hent : entry A l e) by (exists p, g, md, rt, pa, L; done).
      destruct (N.leb_spec LAYER_KEYLENX (s_kx e)) as [E|E].
      * destruct (lk_ent _ _ _ _ _ _ HL e He) as (_ & [(r' & v' & Hr' & _)|(Ekx & nn & w & t & v' & E1 & _)]).
        { pose proof (rest_lt _ _ Hr'). lia. }
        assert (H8 : 8 < length (drop (d * 8) kb)).
        { destruct Hh as [_ [H3|[_ H3]]]; [|done]. pose proof (rest_lt _ _ H3). lia. }
        rewrite drop_length in H8. apply skels_some in E1 as (a & Ha & ->). rewrite shift_pos.
        eapply (IH (d + 1) (g_lid (a_gh a))); [lia|split; [lia|eauto]|].
        intros o [Ho1 Ho2]. apply HQ. split.
        { intros h Hh'. eapply r_down; [exact Hent|done|apply Hh|rewrite drop_length; lia|exact Ha|by apply Ho1]. }
        intros HN h Hh'. apply Ho2; [done|].
        apply reaches_hit in Hh' as (e' & F1 & F2 & F3).
        assert (e' = e) as -> by (eapply entry_uniq; [done|done|done|by eapply hit_ecls]).
        destruct F3 as [[F3 _]|[_ (n' & F3 & F4)]]; [lia|]. by assert (n' = a) as <- by congruence.
      * apply wp_ret, HQ. destruct Hh as [Hh1 [Hh2|[Hh2 _]]]; [|lia]. split.
        { intros h [= <-]. by apply r_here. }
        intros HN h Hr. f_equal. eapply reaches_fun; [done| |exact Hr]. by apply r_here.
    + (* no hit *)
      intros Hno. apply wp_bind. eapply wp_has_changed; [done|].
      apply wp_bind. eapply wp_flag_dirty; [done|done|done|].
      apply wp_bind. eapply wp_next_raw; [done|done|].
      assert (Hdone : (be_word (pad8 (drop (d * 8) kb)) < g_hi g)%N -> wp (Ret None) m Q).
      { intros Hlt. apply wp_ret, HQ. split; [done|]. intros HN h Hr. exfalso.
        apply reaches_hit in Hr as (e' & (p' & g' & md' & rt' & pa' & L' & F1 & F2 & F3) & F4 & _).
        pose proof (iv_l _ _ _ _ _ HI _ _ _ _ _ _ F1) as HL'.
        pose proof (HN _ _ _ _ _ _ _ F1 F3). pose proof (lk_span _ _ _ _ _ _ HL' e' F3) as [? _].
        destruct F4 as [F4 F5]. rewrite F4 in *.
        assert (p' = p).
        { eapply holds_uniq.
          - exists g', md', rt', pa', L'. split; [done|]. split; [exact F2|]. split; [apply H0|done].
          - exists g, md, rt, pa, L. split; [done|]. split; [done|]. lia. }
        subst p'. rewrite Hq in F1. injection F1 as <- <- <- <- <-. eapply Hno; [exact F3|]. split; done. }
      pose proof (ik_top d) as Htop.
      destruct (next_leaf _ _ _ _ _ _ Hq) as [[Hz Hi]|(Hz & He & g' & md' & rt' & pa' & L' & Hq' & Q1 & Q2 & Q3 & (x & Hx & Hxi) & Q4 & Q5)].
      * rewrite Hz. change (unmark_ptr 0) with 0%N. cbn [N.eqb negb andb]. apply Hdone. by rewrite Hi.
      * destruct (even_unmarked _ He) as [-> ->]. cbv zeta. destruct (N.eqb_spec (lb_nx L) 0); [done|]. cbn [negb andb].
        apply wp_bind. eapply wp_ikey; [done|done|exact Hx|]. rewrite Hxi, ikey_pos by done.
        destruct (N.leb_spec (g_hi g) (be_word (pad8 (drop (d * 8) kb)))) as [Hle|Hlt]; [|by apply Hdone].
        eapply (IH d l); [done| |done]. exists g', md', rt', pa', L'. split; [done|]. split; [congruence|].
        assert (Eq : be_word (pad8 (drop (d * 8) kb)) = g_hi g) by lia.
        pose proof (si_gh _ _ _ _ I _ _ (skels_lookup _ _ _ Hq')) as [G _ _ _ _ _]. cbn in G.
        split; [lia|]. rewrite Eq in *.
        assert (Hr : rank g' (g_hi g) < rank g (g_hi g)).
        { unfold rank. rewrite N.ltb_irrefl. destruct (N.ltb_spec (g_hi g) (g_hi g')).
          - destruct (_ =? _)%N; lia.
          - destruct (N.eqb_spec (g_lo g) (g_hi g)) as [E|E]; [specialize (Q5 E); lia|].
            destruct (N.eqb_spec (g_lo g') (g_hi g')); lia. }
        lia.
Qed.
End Read.
