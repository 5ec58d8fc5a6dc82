(** The split of a leaf keeps the invariant, and the content. *)
From Verif Require Import Base Perm PermFacts PermList SpecPerm PermLaws Key SpecKey KeyFacts Prog Version Mem Tree TreeState TreePrim TreeInv TreeRead TreeSplit TreeSkel TreeInode TreeProp.

Definition prefwd (S S' : gmap N snode) : Prop := forall x n, S !! x = Some n -> exists n', S' !! x = Some n' /\ pre n' = pre n.
Lemma ent_ok_mono (K K' : bytes -> N -> Prop) S S' (V V' : gmap N N) g g' e :
  (forall k v, K k v -> K' k v) -> prefwd S S' -> (forall x v, V !! x = Some v -> V' !! x = Some v) -> g_pre g' = g_pre g ->
  ent_ok K S V g e -> ent_ok K' S' V' g' e.
Proof.
  intros HK HS HV E [H0 [(r & v & H1 & H2 & H3 & H4)|(H1 & n & w & t & v & H2 & H3 & H4 & H5 & H6 & H7 & H8 & H9)]]; (split; [done|]); rewrite E.
  - left. exists r, v. auto 10.
  - right. split; [done|]. destruct (HS _ _ H2) as (n' & N1 & N2). exists n', w, t, v. rewrite N2. auto 10.
Qed.
Lemma leaf_ok_mono (K K' : bytes -> N -> Prop) (B B' : N) S S' (V V' : gmap N N) g L :
  (forall k v, K k v -> K' k v) -> prefwd S S' -> (forall x v, V !! x = Some v -> V' !! x = Some v) -> (B <= B')%N ->
  (forall qn', lb_nx L <> 0%N -> S' !! lb_nx L = Some qn' -> lo qn' = hi qn' -> exists qn, S !! lb_nx L = Some qn /\ lo qn = hi qn) ->
  leaf_ok K B S V g L -> leaf_ok K' B' S' V' g L.
Proof.
  intros HK HS HV HB Hd H. split; try apply H.
  - intros e He. eapply ent_ok_mono; [done|done|done|done|]. by apply H.
  - intros qn Hz Hq Hdg. destruct (Hd qn Hz Hq Hdg) as (qn0 & E1 & E2). eapply (lk_deg _ _ _ _ _ _ H qn0); done.
  - pose proof (lk_bud _ _ _ _ _ _ H). lia.
Qed.

(** what a rearrangement of the tree leaves alone *)
Record csame (A A' : gmap N anode) : Prop := {
  cs_node : forall x n, A !! x = Some n -> exists n', A' !! x = Some n' /\ g_lid (a_gh n') = g_lid (a_gh n) /\ g_pre (a_gh n') = g_pre (a_gh n);
  cs_ent : forall l e, entry A' l e <-> entry A l e }.
Lemma csame_trans A B C : csame A B -> csame B C -> csame A C.
Proof.
  intros [N1 E1] [N2 E2]. split.
  - intros x n Hx. destruct (N1 x n Hx) as (n' & H1 & H2 & H3). destruct (N2 x n' H1) as (n'' & H4 & H5 & H6). exists n''. split; [done|]. split; congruence.
  - intros l e. by rewrite E2, E1.
Qed.
Lemma csame_refl A : csame A A.
Proof. split; [eauto|done]. Qed.
Lemma nsim_leaf_eq n n' L : nsim n n' -> (a_bd n = BLeaf L <-> a_bd n' = BLeaf L).
Proof. intros (_ & _ & H). destruct (a_bd n); [by destruct H as (-> & _)|]. by destruct H as (J' & -> & _). Qed.
Lemma lsame_csame A A' : lsame A A' -> csame A A'.
Proof.
  intros [F G]. split.
  - intros x n Hx. destruct (F x n Hx) as (n' & H1 & H2 & H3 & _). eauto.
  - intros l e. split.
    + intros (p & g & md & rt & pa & L & Hp & Hl & He). destruct (G p _ Hp eq_refl) as (n & Hn & Hs).
      pose proof Hs as (E1 & _). pose proof (proj2 (nsim_leaf_eq _ _ L Hs) eq_refl) as Hb.
      destruct n as [g0 md0 rt0 pa0 b0]. cbn in *. subst b0. exists p, g0, md0, rt0, pa0, L. split; [done|]. split; [congruence|done].
    + intros (p & g & md & rt & pa & L & Hp & Hl & He). destruct (F p _ Hp) as (n & Hn & Hs).
      pose proof Hs as (E1 & _). pose proof (proj1 (nsim_leaf_eq _ _ L Hs) eq_refl) as Hb.
      destruct n as [g0 md0 rt0 pa0 b0]. cbn in *. subst b0. exists p, g0, md0, rt0, pa0, L. split; [done|]. split; [congruence|done].
Qed.
Lemma lsame_NoDead A A' : lsame A A' -> NoDead A -> NoDead A'.
Proof.
  intros [F G] HN p g md rt pa L e Hp He. destruct (G p _ Hp eq_refl) as (n & Hn & Hs).
  pose proof (proj2 (nsim_leaf_eq _ _ L Hs) eq_refl) as Hb. destruct n as [g0 md0 rt0 pa0 b0]. cbn in Hb. subst b0.
  destruct Hs as (_ & _ & _ & _ & E). cbn in E. rewrite E. by eapply HN.
Qed.
(** the leaf responsible for [ik] has a free slot *)
Definition roomy (A : gmap N anode) (l ik : N) : Prop :=
  forall p g md rt pa L, A !! p = Some (LF g md rt pa L) -> g_lid g = l -> (g_lo g <= ik < g_hi g)%N -> perm_size (lb_perm L) < 24.
Lemma lsame_roomy A A' l ik : lsame A A' -> roomy A l ik -> roomy A' l ik.
Proof.
  intros [F G] HN p g md rt pa L Hp Hl Hik. destruct (G p _ Hp eq_refl) as (n & Hn & Hs).
  pose proof (proj2 (nsim_leaf_eq _ _ L Hs) eq_refl) as Hb. destruct n as [g0 md0 rt0 pa0 b0]. cbn in Hb. subst b0.
  destruct Hs as (E1 & _ & _ & E2 & E3). cbn in *. eapply HN; [exact Hn|congruence|lia].
Qed.

(** ** the two halves of a leaf *)
Section Halves.
Context (K : bytes -> N -> Prop) (B : N) (S : gmap N snode) (V : gmap N N) (g : ghost) (L : lbody).
Context (HL : leaf_ok K B S V g L) (Hsz : perm_size (lb_perm L) = 24) (pos : nat) (Hpos : 1 <= pos < 24).
Lemma hl_lens : length (ids L) = 24 /\ length (es L) = 24.
Proof. unfold es. rewrite map_length. unfold ids. by rewrite ids_len. Qed.
Lemma left_wf : p_wf P24 (perm_set_size (lb_perm L) pos) /\ active_slots (perm_set_size (lb_perm L) pos) = take pos (ids L) /\
  perm_size (perm_set_size (lb_perm L) pos) = pos.
Proof.
  pose proof (lk_perm _ _ _ _ _ _ HL) as Hw. pose proof (proj2 (perm_word_wf P24 _) Hw) as Hw'.
  destruct (set_size_law_holds P24 P24_ok (lb_perm L) pos Hw') as (H1 & H2 & H3); [change (pW P24) with 24; lia|].
  apply perm_word_wf in H1. split; [done|]. split; [|done].
  rewrite ids_active by done. unfold active, perm_set_size. rewrite H2, H3.
  unfold ids. rewrite ids_active by done. unfold active. rewrite take_take. f_equal. unfold perm_size in Hsz. rewrite Hsz. lia.
Qed.
Lemma left_es slp bg nx : left_slots L pos (24 - pos) slp -> es (left_leaf L pos slp bg nx) = take pos (es L).
Proof.
  intros [Hlen Hs]. destruct left_wf as (_ & Hi & _). destruct hl_lens as [L1 L2]. unfold es, ids. cbn [left_leaf lb_perm]. rewrite Hi, firstn_map.
  apply map_ext_in. intros i Hi'. apply elem_of_list_In in Hi'.
  assert (Hlt : i < 24). { eapply ids_lt; [apply HL|]. apply elem_of_take in Hi' as (j & Hj & _). by eapply elem_of_list_lookup_2. }
  destruct (Hs i _ (ent_lookup _ _ _ _ _ _ HL i Hlt)) as (y & Hy & Hd).
  rewrite decide_False in Hd.
  - subst y. unfold ent. cbn [lb_sl left_leaf]. by apply nth_lookup_Some.
  - intros Hin. apply elem_of_take in Hi' as (j & Hj & Hjp). apply elem_of_take in Hin as (j' & Hj' & _). rewrite lookup_drop in Hj'.
    pose proof (NoDup_lookup _ _ _ _ (ids_nodup _ (lk_perm _ _ _ _ _ _ HL)) Hj Hj'). lia.
Qed.
Lemma right_wf : p_wf P24 (perm_make_sorted (24 - pos)) /\ active_slots (perm_make_sorted (24 - pos)) = seq 0 (24 - pos).
Proof.
  destruct (make_sorted_law_holds P24 P24_ok (24 - pos)) as (H1 & H2 & _); [change (pW P24) with 24; lia|].
  apply perm_word_wf in H1. split; [done|]. rewrite ids_active by done. done.
Qed.
Lemma right_es bg bud nx pv : es (right_leaf L pos bg bud nx pv) = drop pos (es L).
Proof.
  destruct right_wf as (_ & Hi). destruct hl_lens as [L1 L2]. unfold es, ids at 1. cbn [right_leaf lb_perm]. rewrite Hi.
  change (map (ent L) (ids L)) with (es L). apply list_eq. intros i. rewrite list_lookup_fmap, lookup_drop.
  destruct (decide (i < 24 - pos)).
  - rewrite lookup_seq_lt by lia. cbn [fmap option_fmap option_map].
    destruct (lookup_lt_is_Some_2 (es L) (pos + i)) as [e He]; [lia|]. rewrite He. f_equal.
    unfold ent. apply nth_lookup_Some. cbn [lb_sl right_leaf]. unfold right_slots.
    rewrite lookup_app_l by (rewrite take_length, drop_length; lia). by rewrite lookup_take, lookup_drop by lia.
  - rewrite lookup_seq_ge by lia. rewrite lookup_ge_None_2; [done|lia].
Qed.
Lemma es_split e : e ∈ es L <-> e ∈ take pos (es L) \/ e ∈ drop pos (es L).
Proof. rewrite <- elem_of_app. by rewrite take_drop. Qed.

Context (sk : N) (e0 : slot) (He0 : es L !! pos = Some e0) (Hsk : s_ik e0 = sk).
Lemma left_le e : e ∈ take pos (es L) -> (s_ik e <= sk)%N.
Proof.
  intros H. apply elem_of_take in H as (i & Hi & Hlt). rewrite <- Hsk. eapply (lk_sort _ _ _ _ _ _ HL i pos); [lia|done|done].
Qed.
Lemma right_ge e : e ∈ drop pos (es L) -> (sk <= s_ik e)%N.
Proof.
  intros H. apply elem_of_list_lookup in H as [i Hi]. rewrite lookup_drop in Hi. destruct i as [|i].
  - rewrite Nat.add_0_r in Hi. assert (e = e0) as -> by congruence. lia.
  - rewrite <- Hsk. eapply (lk_sort _ _ _ _ _ _ HL pos (pos + Datatypes.S i)); [lia|done|done].
Qed.
Lemma left_lt e l0 : es L !! (pos - 1) = Some l0 -> (s_ik l0 < sk)%N -> e ∈ take pos (es L) -> (s_ik e < sk)%N.
Proof.
  intros Hl Hlt H. apply elem_of_take in H as (i & Hi & Hip). destruct (decide (i = pos - 1)) as [->|].
  - assert (e = l0) as -> by congruence. done.
  - pose proof (lk_sort _ _ _ _ _ _ HL i (pos - 1) _ _ ltac:(lia) Hi Hl). lia.
Qed.

Context (S' : gmap N snode) (q : N) (HS' : prefwd S S').
Lemma left_ok slp bg : left_slots L pos (24 - pos) slp -> (g_lo g < sk)%N ->
  (forall qn, S' !! q = Some qn -> lo qn = hi qn -> forall e, e ∈ take pos (es L) -> (s_ik e < sk)%N) ->
  leaf_ok K B S' V (mk_gh (g_lid g) (g_pre g) (g_lo g) sk (g_hi g)) (left_leaf L pos slp bg q).
Proof.
  intros Hslp Hlo Hdeg. pose proof (left_es slp bg q Hslp) as Hes. destruct left_wf as (W1 & W2 & W3).
  destruct Hslp as [Hlen Hs].
  assert (Hback : forall i x, slp !! i = Some x -> exists y, lb_sl L !! i = Some y /\ ((s_ptr x = 0%N /\ s_sf x = None) \/ x = y)).
  { intros i x Hx. destruct (lookup_lt_is_Some_2 (lb_sl L) i) as [y Hy].
    { rewrite (lk_len _ _ _ _ _ _ HL), <- Hlen. by eapply lookup_lt_Some. }
    exists y. split; [done|]. destruct (Hs i y Hy) as (x' & Hx' & Hd). assert (x' = x) as -> by congruence.
    case_decide; [by left|by right]. }
  split.
  - done.
  - done.
  - intros i x Hx Hni. cbn [left_leaf lb_sl] in Hx. unfold ids in Hni. cbn [left_leaf lb_perm] in Hni. rewrite W2 in Hni.
    destruct (lookup_lt_is_Some_2 (lb_sl L) i) as [y Hy].
    { rewrite (lk_len _ _ _ _ _ _ HL), <- Hlen. by eapply lookup_lt_Some. }
    destruct (Hs i y Hy) as (x' & Hx' & Hd). assert (x' = x) as -> by congruence.
    case_decide as Hc; [apply Hd|]. subst x. eapply (lk_free _ _ _ _ _ _ HL); [exact Hy|]. intros Hin.
    rewrite <- (take_drop pos (ids L)) in Hin. apply elem_of_app in Hin as [?|Hin]; [done|]. apply Hc.
    rewrite take_ge; [done|]. rewrite drop_length. destruct hl_lens. lia.
  - intros i x Hx Hk. cbn [left_leaf lb_sl] in Hx. destruct (Hback i x Hx) as (y & Hy & [[_ ?]| ->]); [done|]. by eapply (lk_sf _ _ _ _ _ _ HL).
  - intros i j e e' Hij Hi Hj. rewrite Hes in Hi, Hj. apply lookup_take_Some in Hi as [Hi _]. apply lookup_take_Some in Hj as [Hj _].
    by eapply (lk_sort _ _ _ _ _ _ HL i j).
  - intros e He. rewrite Hes in He. pose proof (left_le e He). cbn [g_lo g_hi].
    destruct (lk_span _ _ _ _ _ _ HL e) as [[? ?] ?]; [apply es_split; by left|]. lia.
  - intros e He. rewrite Hes in He. eapply ent_ok_mono; [|exact HS'| | |apply (lk_ent _ _ _ _ _ _ HL)]; [done|done|done|]. apply es_split. by left.
  - rewrite Hes. rewrite <- (firstn_map ecls). pose proof (lk_nd _ _ _ _ _ _ HL) as Hnd. rewrite <- (take_drop pos (map ecls (es L))) in Hnd.
    by apply NoDup_app in Hnd as [? _].
  - cbn [left_leaf lb_pv]. intros Hz. destruct (lk_first _ _ _ _ _ _ HL Hz) as [F1 F2]. split.
    + unfold ids. cbn [left_leaf lb_perm]. rewrite W2. rewrite lookup_take by lia. done.
    + cbn [g_lo]. rewrite <- F2.
      assert (Hx : es (left_leaf L pos slp bg q) !! 0 = es L !! 0) by (rewrite Hes; rewrite lookup_take by lia; done).
      unfold es in Hx. rewrite !list_lookup_fmap in Hx. unfold ids in Hx. cbn [left_leaf lb_perm] in Hx. rewrite W2 in Hx. rewrite lookup_take in Hx by lia.
      change (active_slots (lb_perm L)) with (ids L) in Hx. rewrite F1 in Hx. injection Hx as Hx. unfold left_leaf in *. by rewrite Hx.
  - cbn [left_leaf lb_nx]. intros qn Hz Hq Hd e He. rewrite Hes in He. cbn [g_hi]. by eapply Hdeg.
  - cbn [left_leaf lb_bud]. apply HL.
Qed.
Lemma right_ok bg bud p nxt0 : (bud <= B)%N -> p <> 0%N -> nxt0 = lb_nx L ->
  (forall qn', lb_nx L <> 0%N -> S' !! lb_nx L = Some qn' -> lo qn' = hi qn' -> exists qn, S !! lb_nx L = Some qn /\ lo qn = hi qn) ->
  leaf_ok K B S' V (mk_gh (g_lid g) (g_pre g) sk (g_hi g) (g_hi g)) (right_leaf L pos bg bud nxt0 p).
Proof.
  intros Hbud Hp0 -> Hdeg. pose proof (right_es bg bud (lb_nx L) p) as Hes. destruct right_wf as (W1 & W2). destruct hl_lens as [L1 L2].
  assert (Hsl : forall i x, lb_sl (right_leaf L pos bg bud (lb_nx L) p) !! i = Some x -> (i < 24 - pos /\ x ∈ drop pos (es L)) \/ (24 - pos <= i /\ x = slot0)).
  { intros i x Hx. cbn [right_leaf lb_sl] in Hx. unfold right_slots in Hx. destruct (decide (i < 24 - pos)).
    - left. split; [done|]. rewrite lookup_app_l in Hx by (rewrite take_length, drop_length; lia). rewrite lookup_take in Hx by done. by eapply elem_of_list_lookup_2.
    - right. split; [lia|]. rewrite lookup_app_r in Hx by (rewrite take_length, drop_length; lia). by apply lookup_replicate in Hx as [-> _]. }
  split.
  - cbn [right_leaf lb_sl]. unfold right_slots. rewrite app_length, replicate_length, take_length, drop_length. lia.
  - done.
  - intros i x Hx Hni. destruct (Hsl i x Hx) as [[Hi _]|[_ ->]]; [|done]. exfalso. apply Hni. unfold ids. cbn [right_leaf lb_perm].
    rewrite W2. apply elem_of_seq. lia.
  - intros i x Hx Hk. destruct (Hsl i x Hx) as [[_ Hin]|[_ ->]]; [|done].
    assert (He : x ∈ es L) by (apply es_split; by right). apply (es_elem _ _ _ _ _ _ HL) in He as (j & _ & Hj & _). by eapply (lk_sf _ _ _ _ _ _ HL).
  - intros i j e e' Hij Hi Hj. rewrite Hes in Hi, Hj. rewrite lookup_drop in Hi, Hj. eapply (lk_sort _ _ _ _ _ _ HL (pos + i) (pos + j)); [lia|done|done].
  - intros e He. rewrite Hes in He. pose proof (right_ge e He). cbn [g_lo g_hi].
    destruct (lk_span _ _ _ _ _ _ HL e) as [[? ?] ?]; [apply es_split; by right|]. lia.
  - intros e He. rewrite Hes in He. eapply ent_ok_mono; [|exact HS'| | |apply (lk_ent _ _ _ _ _ _ HL)]; [done|done|done|]. apply es_split. by right.
  - rewrite Hes. rewrite <- (skipn_map ecls). pose proof (lk_nd _ _ _ _ _ _ HL) as Hnd. rewrite <- (take_drop pos (map ecls (es L))) in Hnd.
    by apply NoDup_app in Hnd as (_ & _ & ?).
  - intros _. split.
    + unfold ids. cbn [right_leaf lb_perm]. rewrite W2. apply lookup_seq_lt. lia.
    + cbn [g_lo]. assert (Hx : es (right_leaf L pos bg bud (lb_nx L) p) !! 0 = Some e0) by (rewrite Hes, lookup_drop, Nat.add_0_r; done).
      unfold es in Hx. rewrite list_lookup_fmap in Hx. unfold ids in Hx. cbn [right_leaf lb_perm] in Hx. rewrite W2 in Hx.
      rewrite lookup_seq_lt in Hx by lia. injection Hx as Hx. unfold right_leaf in *. by rewrite Hx.
  - cbn [right_leaf lb_nx]. intros qn Hz Hq Hd e He. rewrite Hes in He. destruct (Hdeg qn Hz Hq Hd) as (qn0 & E1 & E2).
    cbn [g_hi]. eapply (lk_deg _ _ _ _ _ _ HL qn0); [done|done|done|]. apply es_split. by right.
  - done.
Qed.
End Halves.

Section SplitInv.
Context (fx : bool) (K : bytes -> N -> Prop) (B : N) (m0 : mem) (s s' : ast) (p q : N) (g : ghost) (md : vmode) (rt : bool) (pa : N) (L : lbody).
Context (HS : St m0 s) (HI : Inv K B s 0 0) (Hp : sA s !! p = Some (LF g md rt pa L)) (Hq : sA s !! q = None) (Hq0 : q <> 0%N).
Context (Hsz : perm_size (lb_perm L) = 24) (ik : N) (pos : nat) (Hcut : cut_ok fx L ik pos) (Hik : (g_lo g <= ik < g_hi g)%N).
Context (e0 : slot) (He0 : es L !! pos = Some e0).
Context (slp : list slot) (bgp bgq bud : N) (Hslp : left_slots L pos (24 - pos) slp) (Hbud : (bud <= B)%N).
Definition sp_gl := mk_gh (g_lid g) (g_pre g) (g_lo g) (s_ik e0) (g_hi g).
Definition sp_gr := mk_gh (g_lid g) (g_pre g) (s_ik e0) (g_hi g) (g_hi g).
Definition sp_nx (n : anode) : anode :=
  mk_anode (a_gh n) (a_md n) (a_rt n) (a_pa n) (match a_bd n with BLeaf L' => BLeaf (lset_pv q L') | b => b end).
Context (HA : forall x, sA s' !! x = if decide (x = p) then Some (LF sp_gl MSpl rt pa (left_leaf L pos slp bgp q))
  else if decide (x = q) then Some (LF sp_gr MSpl false 0%N (right_leaf L pos bgq bud (lb_nx L) p))
  else if decide (x = lb_nx L) then sp_nx <$> sA s !! x else sA s !! x).
Context (HR : sR s' = sR s) (HV : sV s' = sV s).

Lemma sp_HL : leaf_ok K B (skels (sA s)) (sV s) g L. Proof. by eapply (iv_l _ _ _ _ _ HI). Qed.
Lemma sp_pos : 1 <= pos < 24. Proof. apply Hcut. Qed.
Lemma sp_p0 : p <> 0%N. Proof. intros E. pose proof (si_zero _ _ _ _ (iv_s _ _ _ _ _ HI)) as H. rewrite <- E, (skels_lookup _ _ _ Hp) in H. done. Qed.
Lemma sp_pq : p <> q. Proof. intros E. rewrite E in Hp. congruence. Qed.
Lemma sp_lo : (g_lo g < s_ik e0)%N. Proof. eapply cut_lo; [apply sp_HL|done|exact Hcut|done]. Qed.
Lemma sp_e0 : (s_ik e0 <= g_hi g)%N /\ (s_ik e0 < TOP)%N.
Proof. destruct (lk_span _ _ _ _ _ _ sp_HL e0) as [[? ?] ?]; [by eapply elem_of_list_lookup_2|]. done. Qed.
Lemma sp_l0 : exists l0, es L !! (pos - 1) = Some l0.
Proof. pose proof sp_pos. apply lookup_lt_is_Some_2. rewrite (proj2 (hl_lens _ Hsz)). lia. Qed.
(** either the cut is between different slices or the right part is not empty *)
Lemma sp_cases : (forall e, e ∈ take pos (es L) -> (s_ik e < s_ik e0)%N) \/ (s_ik e0 < g_hi g)%N.
Proof.
  destruct sp_l0 as [l0 Hl0]. destruct Hcut as [_ Hc]. destruct (Hc l0 e0 Hl0 He0) as [H|(_ & _ & _ & H)]; [left|right; lia].
  intros e. exact (left_lt _ _ _ _ _ _ sp_HL Hsz pos sp_pos (s_ik e0) e0 eq_refl e l0 Hl0 H).
Qed.
Lemma sp_skel x : skels (sA s') !! x = if decide (x = p) then Some (lsn q (skel (LF g md rt pa L)) (lb_pv L) (s_ik e0))
  else if decide (x = q) then Some (rsn p (skel (LF g md rt pa L)) (lb_nx L) (s_ik e0))
  else if decide (x = lb_nx L) then upd_pv q <$> skels (sA s) !! x else skels (sA s) !! x.
Proof.
  unfold skels. rewrite !lookup_fmap, HA. destruct (decide (x = p)); [done|]. destruct (decide (x = q)); [done|].
  destruct (decide (x = lb_nx L)); [|done]. destruct (sA s !! x) as [[? ? ? ? [?|?]]|]; done.
Qed.
Lemma sp_sinv : SInv (skels (sA s')) (sR s') p q.
Proof.
  rewrite HR. pose proof (iv_s _ _ _ _ _ HI) as I.
  assert (Hdeg : forall z zn nz pz yn, skels (sA s) !! z = Some zn -> n_sb zn = SL nz pz -> nz <> 0%N -> skels (sA s) !! nz = Some yn ->
    lo yn = hi yn -> exists gz mz rz paz Lz, sA s !! z = Some (LF gz mz rz paz Lz) /\ zn = skel (LF gz mz rz paz Lz) /\
      (forall e, e ∈ es Lz -> (s_ik e < g_hi gz)%N) /\ (g_lo gz = g_hi gz -> False)).
  { intros z zn nz pz yn Hz Hsb Hn0 Hy Hd. apply skels_some in Hz as (n & Hz & ->). destruct n as [gz mz rz paz [Lz|Jz]]; [|done].
    cbn in Hsb. injection Hsb as E1 E2. exists gz, mz, rz, paz, Lz. split; [done|]. split; [done|].
    destruct (next_leaf _ _ _ _ HS HI _ _ _ _ _ _ Hz) as [[? _]|(_ & _ & g' & md' & rt' & pa' & L' & N1 & N2 & N3 & N4 & N5 & N6 & N7)]; [congruence|].
    rewrite E1 in N1. rewrite (skels_lookup _ _ _ N1) in Hy. injection Hy as <-. cbn in Hd. split; [by apply N6|]. intros E. specialize (N7 E). lia. }
  eapply (sinv_leaf_split (skels (sA s)) (skels (sA s')) (sR s) p q (skel (LF g md rt pa L)) (lb_nx L) (lb_pv L) (s_ik e0)); try done.
  - by apply skels_lookup.
  - unfold skels. by rewrite lookup_fmap, Hq.
  - split; [apply sp_lo|apply sp_e0].
  - apply sp_e0.
  - intros z zn nz pz yn Hz Hsb Hn0 Hy Hd Hd'. destruct (Hdeg z zn nz pz yn Hz Hsb Hn0 Hy Hd') as (? & ? & ? & ? & ? & _ & -> & _ & Hx). by apply Hx.
  - intros E Hn yn Hy Hd. destruct (Hdeg p _ _ _ _ (skels_lookup _ _ _ Hp) eq_refl Hn Hy Hd) as (? & ? & ? & ? & ? & Hp' & _ & Hx & _).
    rewrite Hp in Hp'. injection Hp' as <- <- <- <- <-. specialize (Hx e0 (elem_of_list_lookup_2 _ _ _ He0)). cbn in E. lia.
  - apply sp_skel.
Qed.
Lemma sp_fwd x n : sA s !! x = Some n -> exists n', sA s' !! x = Some n' /\ g_lid (a_gh n') = g_lid (a_gh n) /\ g_pre (a_gh n') = g_pre (a_gh n).
Proof.
  intros Hx. rewrite HA. destruct (decide (x = p)) as [->|]; [rewrite Hp in Hx; injection Hx as <-; eauto|].
  destruct (decide (x = q)) as [->|]; [congruence|]. destruct (decide (x = lb_nx L)); [|eauto].
  rewrite Hx. exists (sp_nx n). done.
Qed.
Lemma sp_prefwd : prefwd (skels (sA s)) (skels (sA s')).
Proof. intros x a Hx. apply skels_some in Hx as (n & Hx & ->). destruct (sp_fwd x n Hx) as (n' & H1 & _ & H3). exists (skel n'). split; [by apply skels_lookup|done]. Qed.
(** other leaves *)
Lemma sp_other x gx mx rx pax Lx : x <> p -> x <> q -> sA s' !! x = Some (LF gx mx rx pax Lx) ->
  exists L0, sA s !! x = Some (LF gx mx rx pax L0) /\ (x <> lb_nx L -> Lx = L0) /\ (x = lb_nx L -> Lx = lset_pv q L0).
Proof.
  intros N1 N2 Hx. rewrite HA in Hx. rewrite (decide_False (P := x = p)), (decide_False (P := x = q)) in Hx by done.
  destruct (decide (x = lb_nx L)) as [E|E].
  - destruct (sA s !! x) as [[? ? ? ? [?|?]]|]; try done. cbn in Hx. injection Hx as <- <- <- <- <-. eexists. split; [done|]. split; done.
  - exists Lx. done.
Qed.
Lemma sp_deg x : x <> q -> forall qn', skels (sA s') !! x = Some qn' -> lo qn' = hi qn' -> exists qn, skels (sA s) !! x = Some qn /\ lo qn = hi qn.
Proof.
  intros Hxq qn' Hx Hd. rewrite sp_skel in Hx. destruct (decide (x = p)) as [->|].
  { injection Hx as <-. cbn in Hd. pose proof sp_lo. lia. }
  destruct (decide (x = q)); [done|]. destruct (decide (x = lb_nx L)); [|eauto].
  destruct (skels (sA s) !! x) as [a|]; [|done]. cbn in Hx. injection Hx as <-. exists a. done.
Qed.
Lemma sp_ptr_ne x n : sA s !! x = Some n -> x <> q. Proof. congruence. Qed.
Lemma split_inv : Inv K B s' p q.
Proof.
  split; [apply sp_sinv|]. intros x gx mx rx pax Lx Hx. rewrite HV. pose proof sp_pos as Hpos. pose proof sp_HL as HL.
  assert (Hnq : lb_nx L <> q).
  { destruct (next_leaf _ _ _ _ HS HI _ _ _ _ _ _ Hp) as [[-> _]|(_ & _ & g' & md' & rt' & pa' & L' & N1 & _)]; congruence. }
  destruct (decide (x = p)) as [->|Nxp].
  { rewrite HA, decide_True in Hx by done. injection Hx as <- <- <- <- <-.
    eapply (left_ok _ _ _ _ _ _ HL Hsz pos Hpos (s_ik e0) e0 He0 eq_refl _ q sp_prefwd slp bgp Hslp sp_lo).
    intros qn Hqn Hd. destruct sp_cases as [H|H]; [done|]. exfalso. rewrite sp_skel in Hqn.
    rewrite decide_False in Hqn by (intros E; by apply sp_pq). rewrite decide_True in Hqn by done. injection Hqn as <-. cbn in Hd. lia. }
  destruct (decide (x = q)) as [->|Nxq].
  { rewrite HA, decide_False, decide_True in Hx by done. injection Hx as <- <- <- <- <-.
    eapply (right_ok _ _ _ _ _ _ HL Hsz pos Hpos (s_ik e0) e0 He0 eq_refl _ sp_prefwd bgq bud p _ Hbud sp_p0 eq_refl).
    intros qn' Hn. by apply sp_deg. }
  destruct (sp_other x gx mx rx pax Lx Nxp Nxq Hx) as (L0 & H0 & H1 & H2).
  pose proof (iv_l _ _ _ _ _ HI _ _ _ _ _ _ H0) as HL0.
  assert (HL1 : leaf_ok K B (skels (sA s')) (sV s) gx L0).
  { eapply leaf_ok_mono; [| | | | |exact HL0]; [done|apply sp_prefwd|done|lia|]. intros qn' Hn. apply sp_deg.
    destruct (next_leaf _ _ _ _ HS HI _ _ _ _ _ _ H0) as [[? _]|(_ & _ & g' & md' & rt' & pa' & L' & N1 & _)]; [done|congruence]. }
  destruct (decide (x = lb_nx L)) as [E|E]; [|by rewrite H1].
  rewrite H2 by done. destruct (next_leaf _ _ _ _ HS HI _ _ _ _ _ _ Hp) as [[Hz _]|(_ & _ & g' & md' & rt' & pa' & L' & N1 & N2 & N3 & N4 & _)].
  { rewrite Hz in E. exfalso. pose proof (si_zero _ _ _ _ (iv_s _ _ _ _ _ HI)) as Z. rewrite <- E, (skels_lookup _ _ _ H0) in Z. done. }
  rewrite <- E, H0 in N1. injection N1 as <- <- <- <- <-.
  destruct HL1. split; try done. intros _. apply lk_first. rewrite N4. apply sp_p0.
Qed.
Lemma split_csame : csame (sA s) (sA s').
Proof.
  split; [apply sp_fwd|]. pose proof sp_pos as Hpos. pose proof sp_HL as HL.
  assert (HesL : es (left_leaf L pos slp bgp q) = take pos (es L)) by (exact (left_es _ _ _ _ _ _ HL Hsz pos Hpos slp bgp q Hslp)).
  assert (HesR : es (right_leaf L pos bgq bud (lb_nx L) p) = drop pos (es L)) by (exact (right_es L Hsz pos Hpos _ _ _ _)).
  intros l e. split.
  - intros (x & gx & mx & rx & pax & Lx & Hx & Hl & He). destruct (decide (x = p)) as [->|Nxp].
    { rewrite HA, decide_True in Hx by done. injection Hx as <- <- <- <- <-. rewrite HesL in He. exists p, g, md, rt, pa, L. split; [done|]. split; [done|].
      apply (es_split L pos). by left. }
    destruct (decide (x = q)) as [->|Nxq].
    { rewrite HA, decide_False, decide_True in Hx by done. injection Hx as <- <- <- <- <-. rewrite HesR in He. exists p, g, md, rt, pa, L. split; [done|]. split; [done|].
      apply (es_split L pos). by right. }
    destruct (sp_other x gx mx rx pax Lx Nxp Nxq Hx) as (L0 & H0 & H1 & H2). exists x, gx, mx, rx, pax, L0. split; [done|]. split; [done|].
    destruct (decide (x = lb_nx L)) as [E|E]; [rewrite H2 in He by done; exact He|rewrite H1 in He by done; exact He].
  - intros (x & gx & mx & rx & pax & Lx & Hx & Hl & He). destruct (decide (x = p)) as [->|Nxp].
    { rewrite Hp in Hx. injection Hx as <- <- <- <- <-. apply (es_split L pos) in He as [He|He].
      - exists p, sp_gl, MSpl, rt, pa, (left_leaf L pos slp bgp q). rewrite HA, decide_True, HesL by done. done.
      - exists q, sp_gr, MSpl, false, 0%N, (right_leaf L pos bgq bud (lb_nx L) p). pose proof sp_pq. rewrite HA, decide_False, decide_True, HesR by congruence. done. }
    assert (x <> q) by congruence. destruct (decide (x = lb_nx L)) as [E|E].
    + exists x, gx, mx, rx, pax, (lset_pv q Lx). rewrite HA, decide_False, decide_False, decide_True by done. rewrite Hx. done.
    + exists x, gx, mx, rx, pax, Lx. rewrite HA, !decide_False by done. done.
Qed.
Lemma split_nodead : (forall e, e ∈ take pos (es L) -> (s_ik e < s_ik e0)%N) -> NoDead (sA s) -> NoDead (sA s').
Proof.
  intros Hst HN x gx mx rx pax Lx e Hx He. pose proof sp_pos as Hpos. pose proof sp_HL as HL.
  destruct (decide (x = p)) as [->|Nxp].
  { rewrite HA, decide_True in Hx by done. injection Hx as <- <- <- <- <-. rewrite (left_es _ _ _ _ _ _ HL Hsz pos Hpos slp bgp q Hslp) in He. cbn. by apply Hst. }
  destruct (decide (x = q)) as [->|Nxq].
  { rewrite HA, decide_False, decide_True in Hx by done. injection Hx as <- <- <- <- <-. rewrite (right_es L Hsz pos Hpos) in He. cbn.
    eapply HN; [exact Hp|]. apply (es_split L pos). by right. }
  destruct (sp_other x gx mx rx pax Lx Nxp Nxq Hx) as (L0 & H0 & H1 & H2). eapply HN; [exact H0|].
  destruct (decide (x = lb_nx L)) as [E|E]; [rewrite H2 in He by done; exact He|rewrite H1 in He by done; exact He].
Qed.
Lemma split_roomy : roomy (sA s') (g_lid g) ik.
Proof.
  intros x gx mx rx pax Lx Hx Hl Hb. pose proof sp_pos as Hpos. pose proof sp_HL as HL.
  destruct (decide (x = p)) as [->|Nxp].
  { rewrite HA, decide_True in Hx by done. injection Hx as <- <- <- <- <-. cbn [left_leaf lb_perm].
    destruct (left_wf _ _ _ _ _ _ HL Hsz pos Hpos) as (_ & _ & ->). lia. }
  destruct (decide (x = q)) as [->|Nxq].
  { rewrite HA, decide_False, decide_True in Hx by done. injection Hx as <- <- <- <- <-. cbn [right_leaf lb_perm].
    rewrite <- ids_len. rewrite (proj2 (right_wf L Hsz pos Hpos)). rewrite seq_length. lia. }
  destruct (sp_other x gx mx rx pax Lx Nxp Nxq Hx) as (L0 & H0 & _). exfalso. apply Nxp. eapply (holds_uniq _ _ _ HI (g_lid g) ik).
  - exists gx, mx, rx, pax, L0. done.
  - exists g, md, rt, pa, L. done.
Qed.
End SplitInv.

(** ** when the cut separates different slices *)
(** two keys with the same zero-padded eight-byte slice where at least one of them ends *)
Definition clash (k1 k2 : bytes) : Prop := k1 <> k2 /\ exists d,
  take (d * 8) k1 = take (d * 8) k2 /\ pad8 (drop (d * 8) k1) = pad8 (drop (d * 8) k2) /\
  (length (drop (d * 8) k1) <= 8 \/ length (drop (d * 8) k2) <= 8).
Definition split_fine (fx : bool) (K : bytes -> N -> Prop) : Prop :=
  fx = true \/ forall k1 k2 v1 v2, K k1 v1 -> K k2 v2 -> ~ clash k1 k2.

(** an entry stands for a key *)
Lemma ent_key K S V g e : ent_ok K S V g e -> exists r v, K (g_pre g ++ r) v /\ s_ik e = be_word (pad8 r) /\
  N.min (s_kx e) 9 = (if Nat.leb (length r) 8 then N.of_nat (length r) else 9%N) /\ is_bytes (take 8 r).
Proof.
  intros [_ [(r & v & H1 & H2 & H3 & H4)|(H1 & n & w & t & v & H2 & H3 & H4 & H5 & H6 & H7 & H8 & H9)]].
  - exists r, v. split; [done|]. destruct H1 as (B1 & B2 & B3). split; [done|]. split; [|by apply Forall_take].
    destruct (Nat.leb_spec (length r) 8); [rewrite B3; lia|]. by destruct B3 as [-> _].
  - exists (w ++ t), v. split; [done|]. assert (Et : take 8 (w ++ t) = w) by (by apply take_app_alt).
    split; [|split; [|by rewrite Et]].
    + rewrite H5. f_equal. unfold pad8. rewrite Et. replace (8 - length (w ++ t)) with 0; [by rewrite app_nil_r|]. rewrite app_length. lia.
    + rewrite H1, app_length. destruct t; [done|]. cbn [length]. destruct (Nat.leb_spec (length w + Datatypes.S (length t)) 8); [lia|done].
Qed.
Lemma same_slice_clash K S V g e e' : (exists d, length (g_pre g) = d * 8) -> ent_ok K S V g e -> ent_ok K S V g e' -> s_ik e = s_ik e' -> ecls e <> ecls e' ->
  exists k k' v v', K k v /\ K k' v' /\ clash k k'.
Proof.
  intros [d Hd] H H' Hik Hc. destruct (ent_key _ _ _ _ _ H) as (r & v & A1 & A2 & A3 & A4). destruct (ent_key _ _ _ _ _ H') as (r' & v' & B1 & B2 & B3 & B4).
  assert (Hm : N.min (s_kx e) 9 <> N.min (s_kx e') 9) by (intros E; apply Hc; unfold ecls; congruence).
  exists (g_pre g ++ r), (g_pre g ++ r'), v, v'. split; [done|]. split; [done|]. split.
  - intros E. apply app_inv_head in E. subst r'. congruence.
  - exists d. rewrite <- Hd, !take_app, !drop_app. split; [done|]. split.
    + rewrite <- (pad8_take r), <- (pad8_take r'). apply be_word_inj; [by apply pad8_bytes|by apply pad8_bytes|by rewrite !pad8_length|].
      rewrite !pad8_take. congruence.
    + destruct (Nat.leb_spec (length r) 8); [by left|]. destruct (Nat.leb_spec (length r') 8); [by right|]. congruence.
Qed.

Lemma cut_strict fx K B S V g L (HL : leaf_ok K B S V g L) (Hsz : perm_size (lb_perm L) = 24) ik pos l0 e0 :
  (exists d, length (g_pre g) = d * 8) -> split_fine fx K -> cut_ok fx L ik pos -> es L !! (pos - 1) = Some l0 -> es L !! pos = Some e0 ->
  forall e, e ∈ take pos (es L) -> (s_ik e < s_ik e0)%N.
Proof.
  intros Hd Hf [Hp Hc] Hl He e. apply (left_lt _ _ _ _ _ _ HL Hsz pos Hp (s_ik e0) e0 eq_refl e l0 Hl).
  destruct (Hc l0 e0 Hl He) as [|(Hfx & _ & Hik & _)]; [done|]. exfalso. destruct Hf as [|Hf]; [congruence|].
  destruct (same_slice_clash K S V g l0 e0 Hd) as (k & k' & v & v' & C1 & C2 & C3).
  - apply HL. by eapply elem_of_list_lookup_2.
  - apply HL. by eapply elem_of_list_lookup_2.
  - done.
  - intros E. pose proof (lk_nd _ _ _ _ _ _ HL) as Hnd. pose proof (NoDup_lookup _ (pos - 1) pos (ecls e0) Hnd) as HH.
    rewrite !list_lookup_fmap, Hl, He in HH. cbn in HH. rewrite E in HH. specialize (HH eq_refl eq_refl). lia.
  - exact (Hf _ _ _ _ C1 C2 C3).
Qed.

Lemma wp_handle_leaf_split fx K B F m s p lv ik g rt pa L (Q : bool -> mem -> Prop) : 0 < F ->
  St m s -> Inv K B s 0 0 -> free_but [p] (sA s) -> sA s !! p = Some (LF g MIns rt pa L) -> vbits lv MIns rt true ->
  perm_size (lb_perm L) = 24 -> (g_lo g <= ik < g_hi g)%N -> (6144 <= B)%N ->
  (forall m' s', St m' s' -> Inv K B s' 0 0 -> free_but [] (sA s') -> csame (sA s) (sA s') -> envsame s s' ->
     roomy (sA s') (g_lid g) ik -> (split_fine fx K -> NoDead (sA s) -> NoDead (sA s')) -> Q true m') ->
  wp (handle_leaf_split fx F p lv ik) m Q.
Proof.
  intros HF HS HI Hfree Hp Hlv Hsz Hik HB HQ. unfold handle_leaf_split.
  pose proof (iv_l _ _ _ _ _ HI _ _ _ _ _ _ Hp) as HL.
  assert (Hp0 : p <> 0%N).
  { intros E. pose proof (si_zero _ _ _ _ (iv_s _ _ _ _ _ HI)) as H. rewrite <- E, (skels_lookup _ _ _ Hp) in H. done. }
  pose proof (si_rt _ _ _ _ (iv_s _ _ _ _ _ HI) _ _ (skels_lookup _ _ _ Hp)) as Hrt. rewrite decide_False in Hrt by done. cbn in Hrt.
  apply wp_bind. eapply wp_calculate_split_point; [exact HS|exact Hp|exact HL|exact Hsz|]. intros pos Hcut. cbv beta iota.
  apply wp_bind. eapply wp_flag_root; [exact HS|exact Hp|].
  apply wp_bind. eapply wp_leaf_parent; [exact HS|exact Hp|].
  apply wp_bind.
  assert (Hmain : forall (Q' : bool -> mem -> Prop), (forall main, (pa = 0%N -> main = (sR s =? p)%N) -> Q' main m) ->
    wp (if rt then rt0 <- load_root ;; Ret (rt0 =? p)%N else Ret false) m Q').
  { intros Q' H. destruct rt.
    - apply wp_bind. eapply wp_load_root; [exact HS|]. apply wp_ret. by apply H.
    - apply wp_ret. apply H. intros ->. done. }
  apply Hmain. clear Hmain. intros main Hmain. cbv zeta.
  apply wp_bind. eapply (wp_alloc_node _ _ HS); [intros bgs; apply (leaf_new_rel g)|apply (new_leaf_refs g)|apply (new_leaf_refs g)|].
  intros q m1 Hq0 Hqe Hq H1. change (setfn ?a (setA ?b ?c ?d)) with (setA b c (setfn a d)) in H1.
  assert (Hne : p <> q) by congruence.
  apply wp_bind. eapply (wp_mark_split _ _ H1); [rewrite setA_lookup_ne by congruence; exact Hp|done|exact Hlv|].
  intros lv2 m2 Hlv2 H2.
  apply wp_bind. eapply (wp_split_into K B (skels (sA s)) (sV s) _ p q Hne g g rt pa L HL Hsz pos); [apply Hcut|exact HF|exact H2|].
  intros e0 slp bgp bgq bud m3 He0 H3 Hslp Hbud.
  apply wp_bind. eapply (wp_track _ _ H3 q (sfn s)); [done|]. intros m4 H4.
  change (setfn ?a (setA ?b ?c (setA ?d ?e ?f))) with (setA b c (setA d e (setfn a f))) in H4.
  replace (setfn (sfn s) (setfn (q :: sfn s) s)) with s in H4 by (by destruct s).
  pose proof (next_leaf _ _ _ _ HS HI _ _ _ _ _ _ Hp) as Hnx.
  apply wp_bind. eapply (wp_link_sibling _ p q Hne _ _ _ _ _ _ _ _ _ _ _ _ _ HF H4).
  { cbn [left_leaf lb_nx]. destruct Hnx as [[Hz _]|(Hz & Hev & g' & md' & rt' & pa' & L' & N1 & N2 & N3 & N4 & N5 & N6 & N7)].
    - left. split; [done|]. pose proof (si_zero _ _ _ _ (iv_s _ _ _ _ _ HI)) as H. unfold skels in H. rewrite lookup_fmap in H. by destruct (sA s !! 0%N).
    - right. split; [|split; [congruence|eauto 10]]. intros E. rewrite E, Hp in N1. injection N1 as <- <- <- <- <-. specialize (N7 ltac:(congruence)). lia. }
  intros m5 H5. change (lb_nx (left_leaf L pos slp bgp (lb_nx L))) with (lb_nx L) in H5.
  set (gl := sp_gl g e0). set (gr := sp_gr g e0).
  pose proof (St_ghost _ _ H5 p _ _ _ _ _ (setA_lookup _ _ _) gl) as H6. rewrite setA_setA in H6.
  assert (Hlq : forall X Y t, sA (setA p X (setA q Y t)) !! q = Some Y).
  { intros X Y t. rewrite setA_lookup_ne by done. apply setA_lookup. }
  pose proof (St_ghost _ _ H6 q _ _ _ _ _ (Hlq _ _ _) gr) as H7.
  rewrite setA_comm, setA_setA in H7 by congruence.
  match type of H7 with St _ ?t => set (s' := t) in * end.
  assert (HA : forall x, sA s' !! x = if decide (x = p) then Some (LF gl MSpl rt pa (left_leaf L pos slp bgp q))
    else if decide (x = q) then Some (LF gr MSpl false 0%N (right_leaf L pos bgq bud (lb_nx L) p))
    else if decide (x = lb_nx L) then sp_nx q <$> sA s !! x else sA s !! x).
  { intros x. unfold s'. destruct (decide (x = p)) as [->|X1]; [by rewrite setA_lookup|]. rewrite setA_lookup_ne by congruence.
    destruct (decide (x = q)) as [->|X2]; [by rewrite setA_lookup|]. rewrite setA_lookup_ne by congruence.
    unfold relink. change (lb_nx (left_leaf L pos slp bgp (lb_nx L))) with (lb_nx L).
    destruct Hnx as [[Hz _]|(Hz & Hev & g' & md' & rt' & pa' & L' & N1 & _)].
    - assert (Hnone : sA s !! lb_nx L = None).
      { rewrite Hz. pose proof (si_zero _ _ _ _ (iv_s _ _ _ _ _ HI)) as H. unfold skels in H. rewrite lookup_fmap in H. by destruct (sA s !! 0%N). }
      rewrite Hnone. destruct (decide (x = lb_nx L)) as [->|]; [|done]. by rewrite Hnone.
    - rewrite N1. destruct (decide (x = lb_nx L)) as [->|]; [by rewrite setA_lookup, N1|by rewrite setA_lookup_ne by congruence]. }
  assert (Henv : sR s' = sR s /\ envsame s s').
  { unfold s', relink, envsame. change (lb_nx (left_leaf L pos slp bgp (lb_nx L))) with (lb_nx L).
    destruct (sA s !! lb_nx L) as [[? ? ? ? [?|?]]|]; auto 10. }
  destruct Henv as [HR Henv]. pose proof Henv as (_ & HV & _).
  assert (Hb' : (bud <= B)%N) by lia.
  pose proof (split_inv fx K B m s s' p q g MIns rt pa L HS HI Hp Hq Hq0 Hsz ik pos Hcut Hik e0 He0 slp bgp bgq bud Hslp Hb' HA HR HV) as HI'.
  pose proof (split_csame fx K B s s' p q g MIns rt pa L HI Hp Hq Hsz ik pos Hcut e0 slp bgp bgq bud Hslp HA) as Hcs.
  pose proof (HA p) as Hp'. rewrite decide_True in Hp' by done.
  pose proof (HA q) as Hq'. rewrite decide_False, decide_True in Hq' by congruence.
  eapply (wp_propagate K B F HF 64 0 m5 s' p lv2 q); [exact H7|exact HI'| |exact Hp'|exact Hq'|done|done|exact Hlv2|done|..].
  - intros x n Hx Hin. rewrite HA in Hx. apply not_elem_of_cons in Hin as [X1 Hin]. apply not_elem_of_cons in Hin as [X2 _].
    rewrite decide_False, decide_False in Hx by done. destruct (decide (x = lb_nx L)).
    + apply fmap_Some in Hx as (n0 & Hx & ->). cbn. eapply Hfree; [exact Hx|]. by intros ->%elem_of_list_singleton.
    + eapply Hfree; [exact Hx|]. by intros ->%elem_of_list_singleton.
  - intros Hz. rewrite HR, Hmain by done. split; [done|]. rewrite Hz in Hrt |- *. rewrite Hrt. done.
  - lia.
  - intros m' s'' S1 S2 S3 S4 S5. apply (HQ m' s''); [done|done|done|..].
    + eapply csame_trans; [exact Hcs|by apply lsame_csame].
    + by eapply envsame_trans.
    + eapply lsame_roomy; [exact S4|].
      by eapply (split_roomy fx K B s s' p q g MIns rt pa L).
    + intros Hf HN. eapply lsame_NoDead; [exact S4|].
      eapply (split_nodead fx K B s s' p q g MIns rt pa L); [done..| |done].
      assert (exists l0, es L !! (pos - 1) = Some l0) as [l0 Hl0].
      { apply lookup_lt_is_Some_2. pose proof (proj1 Hcut). rewrite (proj2 (hl_lens _ Hsz)). lia. }
      eapply cut_strict; [exact HL|done|..]; [|exact Hf|exact Hcut|exact Hl0|exact He0].
      apply (go_pre _ _ _ (si_gh _ _ _ _ (iv_s _ _ _ _ _ HI) _ _ (skels_lookup _ _ _ Hp))).
Qed.
