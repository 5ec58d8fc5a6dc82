(** The insertion of a key into one leaf. *)
From Verif Require Import Base Perm PermFacts PermList SpecPerm PermLaws Key SpecKey KeyFacts Suffix SpecSuffix SuffixFacts Prog Version Mem Tree TreeState TreePrim TreeInv TreeRead TreeSplit TreeSkel TreeInode TreeProp TreeLeaf TreeContent.

(** the class of the rest of a key within its slice *)
Definition rcls (r : bytes) : N * N := (be_word (pad8 r), if Nat.leb (length r) 8 then N.of_nat (length r) else 9%N).
Lemma rest_ecls e r : rest_of e r -> ecls e = rcls r.
Proof.
  intros H. unfold ecls, rcls. rewrite (rest_kx _ _ H). destruct H as (_ & -> & _). f_equal. destruct (Nat.leb_spec (length r) 8); [lia|done].
Qed.
Lemma hit_rcls e r : hit r e -> ecls e = rcls r.
Proof.
  intros [H1 [H2|[H2 H3]]]; [by apply rest_ecls|]. unfold ecls, rcls. rewrite H1, H2. destruct (Nat.leb_spec (length r) 8); [lia|done].
Qed.

Lemma es_ids L : length (es L) = length (ids L). Proof. unfold es. by rewrite map_length. Qed.
Definition searched (L : lbody) (r : bytes) (x : ins_search) : Prop :=
  match x with
  | Found i => i ∈ ids L /\ exists e, lb_sl L !! i = Some e /\ rest_of e r
  | Layer i => i ∈ ids L /\ exists e, lb_sl L !! i = Some e /\ s_kx e = LAYER_KEYLENX /\ s_ik e = be_word (pad8 r) /\ 8 < length r
  | Conflict i => i ∈ ids L /\ exists e r1, lb_sl L !! i = Some e /\ s_ik e = be_word (pad8 r) /\ rest_of e r1 /\ r1 <> r /\ 8 < length r /\ 8 < length r1
  | NotFound pos => pos <= length (es L) /\ (forall e, e ∈ es L -> ecls e <> rcls r) /\
      (forall j e, es L !! j = Some e -> j < pos -> (s_ik e <= be_word (pad8 r))%N) /\
      (forall j e, es L !! j = Some e -> pos <= j -> (be_word (pad8 r) < s_ik e)%N)
  end.

Section Search.
Context (K : bytes -> N -> Prop) (B : N) (m : mem) (s : ast) (HS : St m s).
Context (kb : bytes) (Hkb : is_bytes kb) (d : nat) (Hd : d * 8 <= length kb).
Local Notation r := (drop (d * 8) kb).
Context (p : N) (g : ghost) (md : vmode) (rt : bool) (pa : N) (L : lbody) (S : gmap N snode) (V : gmap N N).
Context (Hp : sA s !! p = Some (LF g md rt pa L)) (HL : leaf_ok K B S V g L).

Lemma wp_search_slots (Q : ins_search -> mem -> Prop) : (forall x, searched L r x -> Q x m) ->
  forall l i, i + length l = length (ids L) -> l = drop i (ids L) ->
  (forall j e, es L !! j = Some e -> j < i -> (s_ik e <= be_word (pad8 r))%N /\ ecls e <> rcls r) ->
  wp (search_slots p (kpos kb d) i l) m Q.
Proof.
  intros HQ. induction l as [|x l IH]; intros i Hlen El Hj; cbn [search_slots].
  { apply wp_ret, HQ. cbn in Hlen. cbn. split; [rewrite es_ids; lia|]. split; [|split].
    - intros e He. apply elem_of_list_lookup in He as [j He]. eapply Hj; [exact He|]. apply lookup_lt_Some in He. rewrite es_ids in He. lia.
    - intros j e He Hji. by eapply Hj.
    - intros j e He Hji. apply lookup_lt_Some in He. rewrite es_ids in He. lia. }
  cbn [length] in Hlen.
  assert (Hx : ids L !! i = Some x).
  { rewrite <- (Nat.add_0_r i), <- lookup_drop, <- El. done. }
  assert (Hin : x ∈ ids L) by (by eapply elem_of_list_lookup_2).
  assert (Hi : x < 24) by (eapply ids_lt; [apply HL|done]).
  pose proof (ent_lookup _ _ _ _ _ _ HL x Hi) as Hs. set (e := ent L x) in *.
  assert (Hes : es L !! i = Some e) by (unfold es; by rewrite list_lookup_fmap, Hx).
  assert (He : e ∈ es L) by (by eapply elem_of_list_lookup_2).
  assert (Hcont : (s_ik e <= be_word (pad8 r))%N -> ecls e <> rcls r -> wp (search_slots p (kpos kb d) (i + 1) l) m Q).
  { intros H1 H2. apply IH; [lia| |].
    - replace (i + 1) with (Datatypes.S i) by lia. rewrite (drop_S _ _ _ Hx) in El. congruence.
    - intros j e' He' Hji. destruct (decide (j = i)) as [->|]; [|apply (Hj j); [done|lia]].
      assert (e' = e) as -> by congruence. done. }
  assert (Hgt : (be_word (pad8 r) < s_ik e)%N -> searched L r (NotFound i)).
  { intros Hlt. assert (Hge : forall j e', es L !! j = Some e' -> i <= j -> (be_word (pad8 r) < s_ik e')%N).
    { intros j e' He' Hji. destruct (decide (j = i)) as [->|]; [by assert (e' = e) as -> by congruence|].
      pose proof (lk_sort _ _ _ _ _ _ HL i j e e' ltac:(lia) Hes He'). lia. }
    cbn. split; [rewrite es_ids; lia|]. split; [|split; [|done]].
    - intros e' He'. apply elem_of_list_lookup in He' as [j He']. destruct (decide (j < i)); [by eapply Hj|].
      intros E. injection E as E _. specialize (Hge j e' He' ltac:(lia)). lia.
    - intros j e' He' Hji. by apply (Hj j). }
  pose proof (lk_ent _ _ _ _ _ _ HL e He) as (Hpz & Hent).
  apply wp_bind. eapply wp_ikey; [done|done|exact Hs|]. rewrite ikey_pos by done. cbv zeta.
  destruct (N.eqb_spec (s_ik e) (be_word (pad8 r))) as [Eik|Eik].
  2: { destruct (N.ltb_spec (be_word (pad8 r)) (s_ik e)); [by apply wp_ret, HQ, Hgt|]. apply Hcont; [done|].
       intros E. injection E as E _. done. }
  apply wp_bind. eapply wp_keylenx; [done|done|exact Hs|].
  apply wp_bind. eapply wp_val_ptr; [done|done|exact Hs|].
  destruct (N.eqb_spec (s_ptr e) 0) as [|_]; [done|]. rewrite has_suffix_pos, search_kx, Eik, N.ltb_irrefl.
  assert (Hr : is_bytes r) by (by apply Forall_drop).
  destruct (N.leb_spec LAYER_KEYLENX (s_kx e)) as [E128|E128].
  { destruct Hent as [(r' & v & Hr' & _)|(Ekx & _)]; [pose proof (rest_lt _ _ Hr'); lia|].
    destruct (Nat.ltb_spec 8 (length r)).
    - apply wp_ret, HQ. split; [done|]. exists e. done.
    - apply Hcont; [lia|]. intros E. injection E as _ E. rewrite Ekx in E. destruct (Nat.leb_spec (length r) 8); [|lia].
      change (N.min LAYER_KEYLENX 9) with 9%N in E. lia. }
  destruct Hent as [(r' & v & Hr' & _)|(Ekx & _)]; [|lia].
  assert (Hcls : ecls e <> rcls r' -> False) by (intros H; by apply H, rest_ecls).
  pose proof (rest_kx _ _ Hr') as Ekx. pose proof Hr' as (R1 & R2 & R3).
  assert (Epad : pad8 r' = pad8 r) by (apply slice_eq; [done|done|congruence]).
  destruct (N.eqb_spec (s_kx e) (if Nat.leb (length r) 8 then N.of_nat (length r) else KSUF_KEYLENX)) as [Ek|Ek].
  - destruct (N.eqb_spec (s_kx e) KSUF_KEYLENX) as [E64|E64].
    + assert (L1 : 8 < length r).
      { destruct (Nat.leb_spec (length r) 8); [|done]. rewrite Ek in E64. unfold KSUF_KEYLENX in E64. lia. }
      destruct (Nat.leb_spec (length r') 8) as [L2|L2]; [rewrite Ekx in E64; unfold KSUF_KEYLENX in E64; lia|].
      destruct R3 as [_ R3].
      apply wp_bind. eapply wp_ksuf; [done|done|exact Hs|]. rewrite E64. change (KSUF_KEYLENX =? KSUF_KEYLENX)%N with true. cbv iota.
      rewrite R3. apply wp_ret. rewrite suffix_pos. apply HQ. case_bool_decide as Esf.
      * split; [done|]. exists e. split; [done|]. assert (r' = r) as <-; [|done]. rewrite !pad8_long in Epad by lia.
        rewrite <- (take_drop 8 r'), <- (take_drop 8 r). congruence.
      * split; [done|]. exists e, r'. repeat (split; [done|]). split; [|done]. intros ->. done.
    + apply wp_ret, HQ. split; [done|]. exists e. split; [done|]. assert (r' = r) as <-; [|done].
      destruct (Nat.leb_spec (length r) 8); [|done]. destruct (Nat.leb_spec (length r') 8); [|done]. apply pad8_inj; [lia|done|done].
  - assert (Hnc : ecls e <> rcls r).
    { rewrite (rest_ecls _ _ Hr'). unfold rcls. intros E. injection E as _ E. apply Ek. rewrite Ekx.
      destruct (Nat.leb_spec (length r) 8), (Nat.leb_spec (length r') 8); lia. }
    destruct (N.eqb_spec (s_kx e) KSUF_KEYLENX) as [E64|E64]; cbn [andb]; [|by apply Hcont; [lia|]].
    destruct (Nat.ltb_spec 8 (length r)); [|by apply Hcont; [lia|]].
    exfalso. apply Ek. rewrite E64. destruct (Nat.leb_spec (length r) 8); [lia|done].
Qed.
Lemma wp_search_for_insert (Q : ins_search -> mem -> Prop) : (forall x, searched L r x -> Q x m) ->
  wp (search_for_insert p (lb_perm L) (kpos kb d)) m Q.
Proof. intros HQ. apply (wp_search_slots Q HQ); [done|done|]. intros; lia. Qed.
End Search.

(** ** a new entry in a leaf *)
Lemma perm_insert_facts v pos : p_wf P24 v -> perm_size v < 24 -> pos <= perm_size v ->
  exists np, perm_insert_from_back v pos = (np, perm_back v) /\ p_wf P24 np /\
    active_slots np = take pos (active_slots v) ++ perm_back v :: drop pos (active_slots v) /\
    perm_back v ∉ active_slots v /\ perm_back v < 24.
Proof.
  intros Hw Hs Hpos. pose proof (insert_law_holds P24 P24_ok v pos (proj2 (perm_word_wf P24 v) Hw) Hs Hpos) as H.
  unfold perm_insert_from_back. destruct (p_insert_from_back P24 v pos) as [np sl] eqn:E.
  assert (sl = perm_back v) as -> by (change sl with ((np, sl).2); rewrite <- E; unfold p_insert_from_back; reflexivity).
  destruct H as (H1 & H2 & H3). apply perm_word_wf in H1. exists np. split; [done|]. split; [done|].
  rewrite !ids_active by done. split; [done|].
  pose proof (proj2 (perm_word_wf P24 v) Hw) as (_ & _ & Hnd & Hin).
  assert (Hsp : slots_of P24 v = active P24 v ++ SpecPerm.free P24 v) by (unfold active, SpecPerm.free; by rewrite take_drop).
  rewrite Hsp, H3 in Hnd. split.
  - intros Hx. apply NoDup_app in Hnd as (_ & Hnd & _). apply (Hnd _ Hx). apply elem_of_app. right. by left.
  - apply Hin. rewrite Hsp, H3. apply elem_of_app. right. apply elem_of_app. right. by left.
Qed.

Section Add.
Context (K : bytes -> N -> Prop) (B B' : N) (S : gmap N snode) (V V' : gmap N N) (g : ghost) (L : lbody) (HL : leaf_ok K B S V g L).
Context (pos : nat) (y : slot) (r : bytes) (np bg bud : N) (i : nat).
Context (HV : forall h w, V !! h = Some w -> V' !! h = Some w) (HB : (B <= B')%N) (Hbud : (bud <= B')%N).
Context (Hwf : p_wf P24 np) (Hact : active_slots np = take pos (ids L) ++ i :: drop pos (ids L)) (Hni : i ∉ ids L) (Hi : i < 24).
Context (Hs : searched L r (NotFound pos)) (Hy : rest_of y r) (Hey : ent_ok K S V' g y) (Hsf : s_kx y <> KSUF_KEYLENX -> s_sf y = None).
Context (Hik : (g_lo g <= be_word (pad8 r) < g_hi g)%N) (Htop : (be_word (pad8 r) < TOP)%N).
Definition add_leaf : lbody := mk_lbody np (<[i := y]> (lb_sl L)) bg bud (lb_nx L) (lb_pv L).
Lemma add_ent_ne j : j <> i -> ent add_leaf j = ent L j.
Proof. intros H. unfold ent, add_leaf. cbn. rewrite !nth_lookup, list_lookup_insert_ne by congruence. done. Qed.
Lemma add_ent_i : ent add_leaf i = y.
Proof. unfold ent, add_leaf. cbn. rewrite nth_lookup, list_lookup_insert; [done|]. rewrite (lk_len _ _ _ _ _ _ HL). done. Qed.
Lemma add_es : es add_leaf = take pos (es L) ++ y :: drop pos (es L).
Proof.
  unfold es at 1. change (ids add_leaf) with (active_slots np). rewrite Hact, map_app. cbn [map]. rewrite add_ent_i.
  assert (E : forall l, (forall j, j ∈ l -> j ∈ ids L) -> map (ent add_leaf) l = map (ent L) l).
  { intros l Hl. apply map_ext_in. intros j Hj. apply add_ent_ne. intros ->. apply Hni, Hl. by apply elem_of_list_In. }
  rewrite !E.
  - unfold es. by rewrite fmap_take, fmap_drop.
  - intros j Hj. rewrite <- (take_drop pos (ids L)). apply elem_of_app. by right.
  - intros j Hj. rewrite <- (take_drop pos (ids L)). apply elem_of_app. by left.
Qed.
Lemma add_elem e : e ∈ es add_leaf <-> e = y \/ e ∈ es L.
Proof.
  rewrite add_es, elem_of_app, elem_of_cons. rewrite <- (take_drop pos (es L)) at 3. rewrite elem_of_app. tauto.
Qed.
Lemma add_yik : s_ik y = be_word (pad8 r). Proof. apply Hy. Qed.
Lemma add_pos : lb_pv L <> 0%N -> 1 <= pos.
Proof.
  intros Hpv. destruct (lk_first _ _ _ _ _ _ HL Hpv) as [F1 F2]. destruct Hs as (_ & _ & _ & Hge). destruct pos; [|lia]. exfalso.
  specialize (Hge 0 (ent L 0)). rewrite F2 in Hge. enough (be_word (pad8 r) < g_lo g)%N by lia. apply Hge; [|lia]. unfold es. by rewrite list_lookup_fmap, F1.
Qed.
Lemma add_ok : leaf_ok K B' S V' g add_leaf.
Proof.
  destruct Hs as (Hp1 & Hp2 & Hp3 & Hp4). pose proof add_yik as Hyk.
  split.
  - cbn. rewrite insert_length. apply HL.
  - done.
  - intros j x Hj Hn. cbn in Hj. change (ids add_leaf) with (active_slots np) in Hn. rewrite Hact in Hn.
    assert (j <> i) by (intros ->; apply Hn; apply elem_of_app; right; by left). rewrite list_lookup_insert_ne in Hj by congruence.
    eapply (lk_free _ _ _ _ _ _ HL); [exact Hj|]. intros Hin. apply Hn. rewrite <- (take_drop pos (ids L)), elem_of_app in Hin.
    apply elem_of_app. destruct Hin; [by left|right; by right].
  - intros j x Hj. cbn in Hj. apply list_lookup_insert_Some in Hj as [(_ & <- & _)|[_ Hj]]; [done|]. by eapply (lk_sf _ _ _ _ _ _ HL).
  - intros j k e e' Hjk He He'. rewrite add_es in He, He'.
    assert (Hlt : length (take pos (es L)) = pos) by (rewrite take_length; lia).
    assert (Hcase : forall j e, (take pos (es L) ++ y :: drop pos (es L)) !! j = Some e ->
      (j < pos /\ es L !! j = Some e) \/ (j = pos /\ e = y) \/ (pos < j /\ es L !! (j - 1) = Some e)).
    { intros j' e'' H. destruct (decide (j' < pos)) as [Hlp|].
      - rewrite lookup_app_l in H by lia. rewrite lookup_take in H by done. auto.
      - rewrite lookup_app_r in H by lia. rewrite Hlt in H. destruct (decide (j' = pos)) as [->|].
        + rewrite Nat.sub_diag in H. injection H as <-. auto.
        + right. right. replace (j' - pos) with (Datatypes.S (j' - pos - 1)) in H by lia. rewrite <- lookup_tail in H. cbn [tail] in H. rewrite lookup_drop in H.
          split; [lia|]. by replace (pos + (j' - pos - 1)) with (j' - 1) in H by lia. }
    destruct (Hcase _ _ He) as [[J1 J2]|[[J1 ->]|[J1 J2]]], (Hcase _ _ He') as [[J3 J4]|[[J3 ->]|[J3 J4]]]; try lia.
    + eapply (lk_sort _ _ _ _ _ _ HL); [|exact J2|exact J4]. lia.
    + rewrite Hyk. by eapply Hp3.
    + eapply (lk_sort _ _ _ _ _ _ HL); [|exact J2|exact J4]. lia.
    + rewrite Hyk. specialize (Hp4 _ _ J4 ltac:(lia)). lia.
    + eapply (lk_sort _ _ _ _ _ _ HL); [|exact J2|exact J4]. lia.
  - intros e He. apply add_elem in He as [->|He]; [|by apply HL]. rewrite Hyk. lia.
  - intros e He. apply add_elem in He as [->|He]; [done|]. eapply ent_ok_mono; [done| |exact HV|done|by apply HL]. intros x n Hx; eauto.
  - rewrite add_es. eapply (NoDup_Permutation_proper _ (map ecls (y :: es L))).
    + apply Permutation_map. rewrite <- (take_drop pos (es L)) at 3. symmetry. apply Permutation_middle.
    + cbn. constructor; [|apply HL]. intros Hin. apply elem_of_list_fmap in Hin as (e & E & He). apply (Hp2 e He). rewrite <- E. by apply rest_ecls.
  - cbn [add_leaf lb_pv]. intros Hpv. pose proof (add_pos Hpv). destruct (lk_first _ _ _ _ _ _ HL Hpv) as [F1 F2].
    change (ids add_leaf) with (active_slots np). rewrite Hact. split.
    + rewrite lookup_app_l by (rewrite take_length; apply lookup_lt_Some in F1; lia). by rewrite lookup_take by lia.
    + rewrite add_ent_ne; [done|]. intros <-. apply Hni. by eapply elem_of_list_lookup_2.
  - cbn [add_leaf lb_nx]. intros qn H1 H2 H3 e He. apply add_elem in He as [->|He]; [rewrite Hyk; lia|]. by eapply (lk_deg _ _ _ _ _ _ HL).
  - exact Hbud.
Qed.
End Add.

(** ** an entry replaced in place *)
Section Rep.
Context (K : bytes -> N -> Prop) (B B' : N) (S S' : gmap N snode) (V V' : gmap N N) (g : ghost) (L : lbody) (HL : leaf_ok K B S V g L).
Context (i : nat) (x y : slot) (bg bud : N) (Hin : i ∈ ids L) (Hx : lb_sl L !! i = Some x).
Context (HS' : prefwd S S') (HV : forall h w, V !! h = Some w -> V' !! h = Some w) (HB : (B <= B')%N) (Hbud : (bud <= B')%N).
Context (Hdeg : forall qn', lb_nx L <> 0%N -> S' !! lb_nx L = Some qn' -> lo qn' = hi qn' -> exists qn, S !! lb_nx L = Some qn /\ lo qn = hi qn).
Context (Hcls : ecls y = ecls x) (Hey : ent_ok K S' V' g y) (Hsf : s_kx y <> KSUF_KEYLENX -> s_sf y = None).
Definition rep_leaf : lbody := mk_lbody (lb_perm L) (<[i := y]> (lb_sl L)) bg bud (lb_nx L) (lb_pv L).
Lemma rep_lookup j e : es rep_leaf !! j = Some e -> exists e0, es L !! j = Some e0 /\ ((ids L !! j = Some i /\ e0 = x /\ e = y) \/ (ids L !! j <> Some i /\ e0 = e)).
Proof.
  unfold es. change (ids rep_leaf) with (ids L). rewrite !list_lookup_fmap. destruct (ids L !! j) as [k|] eqn:E; [|done]. cbn. intros [= <-].
  exists (ent L k). split; [done|]. unfold ent, rep_leaf. cbn. destruct (decide (k = i)) as [->|].
  - left. split; [done|]. rewrite !nth_lookup, list_lookup_insert, Hx by (by eapply lookup_lt_Some). done.
  - right. split; [congruence|]. rewrite !nth_lookup, list_lookup_insert_ne by congruence. done.
Qed.
Lemma rep_cls : map ecls (es rep_leaf) = map ecls (es L).
Proof.
  apply list_eq. intros j. rewrite !list_lookup_fmap. destruct (es rep_leaf !! j) as [e|] eqn:E.
  - destruct (rep_lookup _ _ E) as (e0 & E0 & [(_ & -> & ->)|(_ & ->)]); rewrite E0; cbn; congruence.
  - apply lookup_ge_None in E. rewrite es_ids in E. change (ids rep_leaf) with (ids L) in E. rewrite (lookup_ge_None_2 (es L)); [done|]. by rewrite es_ids.
Qed.
Lemma rep_x : x ∈ es L.
Proof. apply (es_elem _ _ _ _ _ _ HL). exists i. split; [done|]. split; [done|]. eapply ids_lt; [apply HL|done]. Qed.
Lemma rep_elem e : e ∈ es rep_leaf <-> e = y \/ (e ∈ es L /\ ecls e <> ecls x).
Proof.
  assert (Hidx : exists j, ids L !! j = Some i) by (by apply elem_of_list_lookup). destruct Hidx as [j Hj].
  assert (Hyj : es rep_leaf !! j = Some y).
  { unfold es. change (ids rep_leaf) with (ids L). rewrite list_lookup_fmap, Hj. cbn. unfold ent, rep_leaf. cbn.
    by rewrite nth_lookup, list_lookup_insert by (by eapply lookup_lt_Some). }
  assert (Hxj : es L !! j = Some x).
  { unfold es. rewrite list_lookup_fmap, Hj. cbn. unfold ent. by rewrite nth_lookup, Hx. }
  split.
  - intros He. apply elem_of_list_lookup in He as [k He]. destruct (rep_lookup _ _ He) as (e0 & E0 & [(_ & -> & ->)|(Hk & ->)]); [by left|right].
    split; [by eapply elem_of_list_lookup_2|]. intros E. apply Hk.
    pose proof (NoDup_lookup (map ecls (es L)) k j (ecls x) (lk_nd _ _ _ _ _ _ HL)) as HH. rewrite !list_lookup_fmap, E0, Hxj in HH.
    cbn in HH. rewrite E in HH. by rewrite (HH eq_refl eq_refl).
  - intros [->|[He Hc]]; [by eapply elem_of_list_lookup_2|]. apply elem_of_list_lookup in He as [k He].
    destruct (es rep_leaf !! k) as [e'|] eqn:E.
    + destruct (rep_lookup _ _ E) as (e0 & E0 & [(_ & E1 & E2)|(_ & E1)]); [congruence|]. assert (e' = e) as <- by congruence. by eapply elem_of_list_lookup_2.
    + apply lookup_ge_None in E. apply lookup_lt_Some in He. rewrite es_ids in *. change (ids rep_leaf) with (ids L) in E. lia.
Qed.
Lemma rep_yik : s_ik y = s_ik x. Proof. by injection Hcls. Qed.
Lemma rep_ok : leaf_ok K B' S' V' g rep_leaf.
Proof.
  pose proof rep_yik as Hyk. pose proof rep_x as Hxin.
  assert (Hto : forall e, e ∈ es rep_leaf -> exists e0, e0 ∈ es L /\ s_ik e = s_ik e0).
  { intros e He. apply rep_elem in He as [->|[He _]]; eauto. }
  split.
  - cbn. rewrite insert_length. apply HL.
  - apply HL.
  - intros j z Hj Hn. cbn in Hj. change (ids rep_leaf) with (ids L) in Hn. rewrite list_lookup_insert_ne in Hj by congruence. by eapply (lk_free _ _ _ _ _ _ HL).
  - intros j z Hj. cbn in Hj. apply list_lookup_insert_Some in Hj as [(_ & <- & _)|[_ Hj]]; [done|]. by eapply (lk_sf _ _ _ _ _ _ HL).
  - intros j k e e' Hjk He He'. destruct (rep_lookup _ _ He) as (e0 & E0 & C0). destruct (rep_lookup _ _ He') as (e1 & E1 & C1).
    pose proof (lk_sort _ _ _ _ _ _ HL j k e0 e1 Hjk E0 E1).
    assert (s_ik e0 = s_ik e) by (destruct C0 as [(_ & -> & ->)|(_ & ->)]; congruence).
    assert (s_ik e1 = s_ik e') by (destruct C1 as [(_ & -> & ->)|(_ & ->)]; congruence). congruence.
  - intros e He. destruct (Hto e He) as (e0 & E0 & ->). by apply HL.
  - intros e He. apply rep_elem in He as [->|[He _]]; [done|]. eapply ent_ok_mono; [done|exact HS'|exact HV|done|by apply HL].
  - rewrite rep_cls. apply HL.
  - cbn [rep_leaf lb_pv]. intros Hpv. destruct (lk_first _ _ _ _ _ _ HL Hpv) as [F1 F2]. split; [done|].
    rewrite <- F2. unfold ent, rep_leaf. cbn. rewrite !nth_lookup. destruct (decide (i = 0)) as [->|].
    + rewrite list_lookup_insert, Hx by (by eapply lookup_lt_Some). cbn. done.
    + by rewrite list_lookup_insert_ne.
  - cbn [rep_leaf lb_nx]. intros qn H1 H2 H3 e He. destruct (Hto e He) as (e0 & E0 & ->). destruct (Hdeg qn H1 H2 H3) as (q0 & Q1 & Q2). by eapply (lk_deg _ _ _ _ _ _ HL).
  - exact Hbud.
Qed.
End Rep.

(** ** the invariant after a change of one leaf *)
Lemma inv_leaf_upd K B B' s s' p g md md' rt pa L L' : Inv K B s 0 0 -> sA s !! p = Some (LF g md rt pa L) ->
  sA s' = <[p := LF g md' rt pa L']> (sA s) -> sR s' = sR s -> (forall h w, sV s !! h = Some w -> sV s' !! h = Some w) -> (B <= B')%N ->
  lb_nx L' = lb_nx L -> lb_pv L' = lb_pv L -> leaf_ok K B' (skels (sA s)) (sV s') g L' -> Inv K B' s' 0 0.
Proof.
  intros HI Hp HA HR HV HB En Ep HL'.
  assert (HS : skels (sA s') = skels (sA s)).
  { rewrite HA. apply (skels_same _ _ _ _ Hp). unfold skel. cbn. by rewrite En, Ep. }
  split; [rewrite HS, HR; apply HI|]. intros q g' m' rt' pa' L2 Hq. rewrite HS. rewrite HA in Hq.
  destruct (decide (q = p)) as [->|].
  - rewrite lookup_insert in Hq. injection Hq as <- _ _ _ <-. done.
  - rewrite lookup_insert_ne in Hq by done. eapply leaf_ok_mono; [done| |exact HV|exact HB| |by eapply (iv_l _ _ _ _ _ HI)].
    + intros x n9 Hx. eauto.
    + intros. eauto.
Qed.
(** entries after a change of one leaf *)
Lemma entry_leaf_upd A p n g md rt pa L' l x : A !! p = Some n -> g_lid (a_gh n) = g_lid g ->
  entry (<[p := LF g md rt pa L']> A) l x <->
  (l = g_lid g /\ x ∈ es L') \/ (exists q g' m' rt' pa' L2, q <> p /\ A !! q = Some (LF g' m' rt' pa' L2) /\ g_lid g' = l /\ x ∈ es L2).
Proof.
  intros Hp Hl. split.
  - intros (q & g' & m' & rt' & pa' & L2 & Hq & Hlq & He). destruct (decide (q = p)) as [->|Hne].
    + rewrite lookup_insert in Hq. injection Hq as -> -> -> -> ->. left. done.
    + rewrite lookup_insert_ne in Hq by done. right. eauto 12.
  - intros [[-> He]|(q & g' & m' & rt' & pa' & L2 & Hne & Hq & Hlq & He)].
    + exists p, g, md, rt, pa, L'. by rewrite lookup_insert.
    + exists q, g', m', rt', pa', L2. by rewrite lookup_insert_ne.
Qed.

(** ** storing a key and a value in a free slot *)
Lemma wp_store_rest m s kb d v p g md rt pa L i x h fv (n : N) (Q : unit -> mem -> Prop) : is_bytes kb -> d * 8 <= length kb -> length kb <= 256 ->
  St m s -> sA s !! p = Some (LF g md rt pa L) -> lb_sl L !! i = Some x -> s_ik x = be_word (pad8 (drop (d * 8) kb)) -> s_ptr x = 0%N -> s_sf x = None ->
  (lb_bud L + N.of_nat (length (drop (d * 8) kb)) < U32_MAX)%N -> sfv s = h :: fv -> h <> 0%N -> sV s !! h = Some v ->
  (length (drop (d * 8) kb) <= 8 -> n = N.of_nat (length (drop (d * 8) kb))) ->
  (forall y bg bud m', rest_of y (drop (d * 8) kb) -> s_ptr y = h -> (s_kx y <> KSUF_KEYLENX -> s_sf y = None) -> (bud <= lb_bud L + N.of_nat (length (drop (d * 8) kb)))%N ->
     St m' (setfv fv (setA p (LF g md rt pa (mk_lbody (lb_perm L) (<[i := y]> (lb_sl L)) bg bud (lb_nx L) (lb_pv L))) s)) -> Q tt m') ->
  wp (set_val_ptr p i h ;;;
      (if key_has_suffix (kpos kb d) then set_keylenx p i KSUF_KEYLENX ;;; assign_ksuf p i (key_suffix (kpos kb d))
       else set_keylenx p i n)) m Q.
Proof.
  intros Hkb Hd Hlen HS Hp Hx Hxi Hx0 Hxs Hbud Hfv Hh Hv Hn HQ.
  set (r := drop (d * 8) kb) in *. assert (Hr : is_bytes r) by (by apply Forall_drop).
  assert (Hrl : length r <= 256) by (unfold r; rewrite drop_length; lia).
  assert (Hi : i < length (lb_sl L)) by (by eapply lookup_lt_Some).
  set (fv1 := if (s_kx x <? LAYER_KEYLENX)%N then fv else h :: fv).
  assert (Hsr : forall k o, srefs (mk_slot (s_ik x) k h o) = if (k <? LAYER_KEYLENX)%N then [h] else []).
  { intros k o. unfold srefs. cbn [s_ptr s_kx]. destruct (N.eqb_spec h 0); [done|]. done. }
  apply wp_bind. eapply (wp_set_val_ptr _ _ HS p g md rt pa _ Hp i x h fv1 _ Hx).
  { unfold sset_ptr. rewrite Hsr. unfold srefs at 1, fv1. rewrite Hfv, Hx0. change (0 =? 0)%N with true. cbn [negb andb app].
    destruct (N.ltb_spec (s_kx x) LAYER_KEYLENX); done. }
  intros m1 H1. unfold lslot in H1. set (x1 := sset_ptr h x) in *.
  set (L1 := lset_sl (<[i := x1]> (lb_sl L)) L) in *.
  assert (Hx1 : lb_sl L1 !! i = Some x1) by (cbn; by apply list_lookup_insert).
  assert (Hp1 : sA (setfv fv1 (setA p (LF g md rt pa L1) s)) !! p = Some (LF g md rt pa L1)) by apply setA_lookup.
  assert (Hkx : forall k, (k <? LAYER_KEYLENX)%N = true -> srefs (sset_kx k x1) ++ fv ≡ₚ srefs x1 ++ fv1).
  { intros k Hk. unfold x1, sset_kx, sset_ptr. cbn [s_ik s_kx s_ptr s_sf]. rewrite !Hsr, Hk. unfold fv1. destruct (s_kx x <? LAYER_KEYLENX)%N; done. }
  rewrite has_suffix_pos. fold r. destruct (Nat.ltb_spec 8 (length r)).
  - apply wp_bind. eapply (wp_set_keylenx _ _ H1 p g md rt pa _ Hp1 i x1 KSUF_KEYLENX fv _ Hx1); [by apply Hkx|].
    intros m2 H2. unfold lslot in H2. cbn [lset_sl lb_sl L1] in H2.
    set (x2 := sset_kx KSUF_KEYLENX x1) in *. unfold L1 in H2. cbn [lset_sl lb_sl] in H2.
    rewrite list_insert_insert in H2. unfold lset_sl in H2. cbn [lb_perm lb_sl lb_bg lb_bud lb_nx lb_pv] in H2.
    change (setfv fv (setA ?a ?b (setfv ?c ?d))) with (setA a b (setfv fv d)) in H2.
    change (setA p ?a (setfv fv (setA p ?b s))) with (setfv fv (setA p a (setA p b s))) in H2.
    rewrite setA_setA in H2.
    eapply (wp_assign_ksuf _ _ H2 p g md rt pa _ (setA_lookup _ _ _) i x2).
    + cbn. by apply list_lookup_insert.
    + rewrite suffix_pos, drop_length. fold r. lia.
    + cbn [lb_bud]. rewrite suffix_pos. fold r. rewrite drop_length. lia.
    + done.
    + intros b m3 H3. cbn [lb_perm lb_sl lb_bg lb_bud lb_nx lb_pv] in H3. rewrite list_insert_insert in H3.
      eapply (HQ _ _ _ m3); [..|].
      5: { change (setfv ?f (setA ?a ?b (setfv fv ?d))) with (setA a b (setfv fv d)) in H3. 
           change (setA p ?a (setfv fv (setA p ?b s))) with (setfv fv (setA p a (setA p b s))) in H3. rewrite setA_setA in H3. exact H3. }
      * unfold rest_of. cbn [s_ik s_kx s_sf]. split; [done|]. split; [done|]. destruct (Nat.leb_spec (length r) 8); [lia|].
        split; [done|]. rewrite suffix_pos. done.
      * done.
      * done.
      * rewrite suffix_pos, drop_length. fold r. lia.
  - eapply (wp_set_keylenx _ _ H1 p g md rt pa _ Hp1 i x1 n fv _ Hx1).
    { apply Hkx. rewrite Hn by done. apply N.ltb_lt. unfold LAYER_KEYLENX. lia. }
    intros m2 H2. unfold lslot in H2. unfold L1 in H2. cbn [lset_sl lb_sl] in H2.
    rewrite list_insert_insert in H2. unfold lset_sl in H2. cbn [lb_perm lb_sl lb_bg lb_bud lb_nx lb_pv] in H2.
    change (setfv fv (setA ?a ?b (setfv ?c ?d))) with (setA a b (setfv fv d)) in H2.
    change (setA p ?a (setfv fv (setA p ?b s))) with (setfv fv (setA p a (setA p b s))) in H2.
    rewrite setA_setA in H2. eapply (HQ _ _ _ m2); [..|exact H2].
    + unfold rest_of. cbn. split; [done|]. split; [done|]. destruct (Nat.leb_spec (length r) 8); [by apply Hn|lia].
    + done.
    + done.
    + lia.
Qed.

(** ** what an insertion achieves *)
Record ins_post (fx : bool) (K : bytes -> N -> Prop) (B : N) (kb : bytes) (v : N) (s s' : ast) (old : option N) : Prop := {
  ip_inv : Inv K B s' 0 0;
  ip_free : free_but [] (sA s');
  ip_fv : sfv s' = [];
  ip_fn : sfn s' = [];
  ip_cnt : sC s' = match old with None => (sC s + 1)%N | Some _ => sC s end;
  ip_old : forall ov, old = Some ov -> K kb ov;
  ip_ne : exists e, entry (sA s') MAIN e;
  ip_exact : split_fine fx K -> NoDead (sA s) -> NoDead (sA s') /\
    (forall k w, is_bytes k -> maps s' k w <-> (k = kb /\ w = v) \/ (k <> kb /\ maps s k w)) /\
    (forall w, maps s kb w <-> old = Some w) }.

Lemma path_entry A kb l d : path A kb l d -> l <> MAIN -> exists e, entry A MAIN e.
Proof. induction 1 as [|l d e n H IH H1 H2 H3 H4 H5]; [done|]. intros _. destruct (decide (l = MAIN)) as [->|Hn]; [eauto|by apply IH]. Qed.

Section Leaf.
Context (fx : bool) (K : bytes -> N -> Prop) (B B' : N) (s s' : ast) (HI : Inv K B s 0 0) (Hfree : free_but [] (sA s)).
Context (kb : bytes) (v : N) (d : nat) (Hkb : is_bytes kb).
Local Notation r := (drop (d * 8) kb).
Context (p : N) (g : ghost) (rt : bool) (pa : N) (L L' : lbody) (y : slot) (h : N).
Context (Hpath : path (sA s) kb (g_lid g) d) (Hp : sA s !! p = Some (LF g MFree rt pa L)) (Hik : (g_lo g <= be_word (pad8 r) < g_hi g)%N).
Context (HA : sA s' = <[p := LF g MFree rt pa L']> (sA s)) (HR : sR s' = sR s) (HV : sV s' = <[h := v]> (sV s)) (Hh : sV s !! h = None)
  (Hfv : sfv s' = []) (Hfn : sfn s' = []).
Context (En : lb_nx L' = lb_nx L) (Ep : lb_pv L' = lb_pv L) (HB : (B <= B')%N).
Context (Hy : rest_of y r) (Hyp : s_ptr y = h).
Context (HL' : leaf_ok K B' (skels (sA s)) (sV s') g L').

Lemma lf_V x w : sV s !! x = Some w -> sV s' !! x = Some w.
Proof. intros H. rewrite HV, lookup_insert_ne; [done|]. congruence. Qed.
Lemma lf_inv : Inv K B' s' 0 0.
Proof. eapply (inv_leaf_upd K B B' s s'); [done|exact Hp|exact HA|done|apply lf_V|done|done|done|done]. Qed.
Lemma lf_free : free_but [] (sA s').
Proof.
  intros x n Hx _. rewrite HA in Hx. destruct (decide (x = p)) as [->|].
  - rewrite lookup_insert in Hx. by injection Hx as <-.
  - rewrite lookup_insert_ne in Hx by done. eapply Hfree; [exact Hx|]. by intros ?%elem_of_nil.
Qed.
Lemma lf_node x n : sA s !! x = Some n -> exists n', sA s' !! x = Some n' /\ g_lid (a_gh n') = g_lid (a_gh n).
Proof.
  intros Hx. rewrite HA. destruct (decide (x = p)) as [->|].
  - rewrite lookup_insert. eexists. split; [done|]. by assert (n = LF g MFree rt pa L) as -> by congruence.
  - rewrite lookup_insert_ne by done. eauto.
Qed.
(** in the absence of dead entries no other leaf of the layer has this slice *)
Lemma lf_other q g' m' rt' pa' L2 x : NoDead (sA s) -> q <> p -> sA s !! q = Some (LF g' m' rt' pa' L2) -> g_lid g' = g_lid g -> x ∈ es L2 -> s_ik x <> be_word (pad8 r).
Proof.
  intros HN Hne Hq Hl Hx E. apply Hne. eapply (holds_uniq K B s HI (g_lid g) (be_word (pad8 r))).
  - exists g', m', rt', pa', L2. split; [done|]. split; [done|]. rewrite <- E.
    pose proof (HN _ _ _ _ _ _ _ Hq Hx). pose proof (lk_span _ _ _ _ _ _ (iv_l _ _ _ _ _ HI _ _ _ _ _ _ Hq) x Hx). lia.
  - exists g, MFree, rt, pa, L. done.
Qed.
Lemma lf_dead : NoDead (sA s) -> (forall x, x ∈ es L' -> x = y \/ x ∈ es L) -> NoDead (sA s').
Proof.
  intros HN Hes q g' m' rt' pa' L2 x Hq Hx. rewrite HA in Hq. destruct (decide (q = p)) as [->|].
  - rewrite lookup_insert in Hq. injection Hq as <- <- <- <- <-. destruct (Hes x Hx) as [->|H]; [|by eapply (HN _ _ _ _ _ _ _ Hp)].
    destruct Hy as (_ & -> & _). lia.
  - rewrite lookup_insert_ne in Hq by done. by eapply HN.
Qed.

Lemma lf_ne : y ∈ es L' -> exists e, entry (sA s') MAIN e.
Proof.
  intros Hin. rewrite HA. destruct (decide (g_lid g = MAIN)) as [E|E].
  - exists y. exists p, g, MFree, rt, pa, L'. by rewrite lookup_insert.
  - destruct (path_entry _ _ _ _ Hpath E) as (e & q & g' & m' & rt' & pa' & L2 & Hq & Hl & He). exists e, q, g', m', rt', pa', L2.
    rewrite lookup_insert_ne; [done|]. intros ->. rewrite Hp in Hq. injection Hq as <- <- <- <- <-. done.
Qed.

(** a new key *)
Lemma post_new pos : searched L r (NotFound pos) -> (forall x, x ∈ es L' <-> x = y \/ x ∈ es L) -> sC s' = (sC s + 1)%N -> ins_post fx K B' kb v s s' None.
Proof.
  intros (_ & Hno & _) Hes HC. split; [apply lf_inv|apply lf_free|done|done|done|done|apply lf_ne, Hes; by left|]. intros _ HN.
  assert (Hnohit : forall x, entry (sA s) (g_lid g) x -> ~ hit r x).
  { intros x (q & g' & m' & rt' & pa' & L2 & Hq & Hl & Hx) Hh'. destruct (decide (q = p)) as [->|Hne].
    - rewrite Hp in Hq. injection Hq as <- <- <- <- <-. apply (Hno x Hx). by apply hit_rcls.
    - eapply lf_other; [done|exact Hne|exact Hq|done|exact Hx|apply Hh']. }
  assert (HN' : NoDead (sA s')) by (apply lf_dead; [done|]; intros; by apply Hes).
  split; [done|]. split.
  - intros k w Hk. eapply (upd_maps K B B' s s' HI lf_inv HN' kb v (g_lid g) d Hkb Hpath lf_node lf_V y Hy); [..|done].
    + rewrite Hyp, HV. apply lookup_insert.
    + intros x Hx Hh'. exfalso. by eapply Hnohit.
    + intros l x. rewrite HA, (entry_leaf_upd _ _ _ _ _ _ _ _ _ _ Hp eq_refl). split.
      * intros [[-> Hx]|(q & g' & m' & rt' & pa' & L2 & Hne & Hq & Hl & Hx)].
        -- apply Hes in Hx as [->|Hx]; [by left|]. right. assert (entry (sA s) (g_lid g) x) by (exists p, g, MFree, rt, pa, L; done).
           split; [done|]. intros [_ Hh']. by eapply Hnohit.
        -- right. assert (entry (sA s) l x) by (exists q, g', m', rt', pa', L2; done). split; [done|]. intros [-> Hh']. by eapply Hnohit.
      * intros [[-> ->]|[(q & g' & m' & rt' & pa' & L2 & Hq & Hl & Hx) Hn]].
        -- left. split; [done|]. apply Hes. by left.
        -- destruct (decide (q = p)) as [->|Hne]; [left|right; eauto 12].
           rewrite Hp in Hq. injection Hq as <- <- <- <- <-. split; [done|]. apply Hes. by right.
  - intros w. split; [|done]. intros Hm. exfalso. by eapply (upd_old_none K B s HI HN kb (g_lid g) d).
Qed.
(** a new value for a key *)
Lemma post_found x ov : x ∈ es L -> rest_of x r -> (forall z, z ∈ es L' <-> z = y \/ (z ∈ es L /\ ecls z <> ecls x)) -> sV s !! s_ptr x = Some ov ->
  sC s' = sC s -> ins_post fx K B' kb v s s' (Some ov).
Proof.
  intros Hx Hr Hes Hov HC.
  assert (Hex : entry (sA s) (g_lid g) x) by (exists p, g, MFree, rt, pa, L; done).
  split; [apply lf_inv|apply lf_free|done|done|done| |apply lf_ne, Hes; by left|].
  { intros ov' [= <-]. destruct (value_entry K B s HI kb (g_lid g) d x Hkb Hpath Hex Hr) as (v' & V1 & V2). congruence. }
  intros _ HN. assert (HN' : NoDead (sA s')).
  { apply lf_dead; [done|]. intros z Hz. apply Hes in Hz as [|[? _]]; auto. }
  assert (Hux : forall z, entry (sA s) (g_lid g) z -> hit r z -> z = x).
  { intros z Hz Hh'. eapply (entry_uniq K B s HI); [done|done|done|]. rewrite (hit_rcls _ _ Hh'). symmetry. by apply rest_ecls. }
  split; [done|]. split.
  - intros k w Hk. eapply (upd_maps K B B' s s' HI lf_inv HN' kb v (g_lid g) d Hkb Hpath lf_node lf_V y Hy); [..|done].
    + rewrite Hyp, HV. apply lookup_insert.
    + intros z Hz Hh'. rewrite (Hux z Hz Hh'). by eapply rest_lt.
    + intros l z. rewrite HA, (entry_leaf_upd _ _ _ _ _ _ _ _ _ _ Hp eq_refl). split.
      * intros [[-> Hz]|(q & g' & m' & rt' & pa' & L2 & Hne & Hq & Hl & Hz)].
        -- apply Hes in Hz as [->|[Hz Hc]]; [by left|]. right. assert (entry (sA s) (g_lid g) z) by (exists p, g, MFree, rt, pa, L; done).
           split; [done|]. intros [_ Hh']. apply Hc. by rewrite (Hux z).
        -- right. assert (entry (sA s) l z) by (exists q, g', m', rt', pa', L2; done). split; [done|]. intros [-> Hh'].
           eapply lf_other; [done|exact Hne|exact Hq|done|exact Hz|apply Hh'].
      * intros [[-> ->]|[(q & g' & m' & rt' & pa' & L2 & Hq & Hl & Hz) Hn]].
        -- left. split; [done|]. apply Hes. by left.
        -- destruct (decide (q = p)) as [->|Hne]; [left|right; eauto 12].
           rewrite Hp in Hq. injection Hq as <- <- <- <- <-. split; [done|]. apply Hes. right. split; [done|]. intros Hc. apply Hn. split; [done|].
           assert (z = x) as ->. { eapply (entry_uniq K B s HI (g_lid g)); [done|exists p, g, MFree, rt, pa, L; done|done|done]. }
           split; [apply Hr|by left].
  - intros w. rewrite (upd_old_found K B s HI HN kb (g_lid g) d Hpath x w Hex Hr), Hov. split; congruence.
Qed.
End Leaf.
