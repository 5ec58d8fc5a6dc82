(** Replacing an entry by a new layer that holds it and a second key. *)
From Verif Require Import Base Perm PermFacts PermList SpecPerm PermLaws Key SpecKey KeyFacts Suffix SpecSuffix SuffixFacts Prog Version Mem Tree TreeState TreePrim TreeInv TreeRead TreeSplit TreeSkel TreeInode TreeProp TreeLeaf TreeContent TreeInsert TreeLayer.

Section Built.
Context (fx : bool) (K : bytes -> N -> Prop) (B B' : N) (s s' : ast) (HI : Inv K B s 0 0) (Hfree : free_but [] (sA s)).
Context (kb : bytes) (v : N) (d : nat) (Hkb : is_bytes kb) (Hkl : length kb <= 256) (HK : K kb v).
Local Notation r := (drop (d * 8) kb).
Context (p : N) (g : ghost) (rt : bool) (pa : N) (L : lbody) (i : nat) (e1 : slot) (r1 : bytes) (vold : N).
Context (Hpath : path (sA s) kb (g_lid g) d) (Hp : sA s !! p = Some (LF g MFree rt pa L)) (Hin : i ∈ ids L) (Hx : lb_sl L !! i = Some e1)
  (Hr1 : rest_of e1 r1) (Hik : s_ik e1 = be_word (pad8 r)) (Hne : r1 <> r) (Hl : 8 < length r) (Hl1 : 8 < length r1) (Hvo : sV s !! s_ptr e1 = Some vold).
Local Notation a := (drop 8 r1).
Local Notation A0 := (<[p := LF g MIns rt pa L]> (sA s)).
Context (ts : list N) (fin : N) (ef : bool) (bg bud : N) (ye yn : slot) (A' : gmap N anode).
Local Notation j := (length ts).
Context (HT : TI A0 (sR s) kb (d + 1) A' ts [fin]) (Hfin : A' !! fin = Some (LF (tgh kb (d + 1) j fin) MFree true 0%N (finl ef bg bud ye yn))).
Context (Hpost : tl_post a kb (d + 1) j).
Context (Hye : rest_of ye (drop (j * 8) a)) (Hyn : rest_of yn (drop ((d + 1 + j) * 8) kb))
  (Hfe : s_kx ye <> KSUF_KEYLENX -> s_sf ye = None) (Hfn0 : s_kx yn <> KSUF_KEYLENX -> s_sf yn = None) (Hbud : (bud <= 512)%N)
  (Hpe : s_ptr ye <> 0%N) (Hpn : s_ptr yn <> 0%N) (Hef : (if ef then s_ik ye <= s_ik yn else s_ik yn <= s_ik ye)%N).
Context (bg' : N) (HB : (B <= B')%N) (HB' : (512 <= B')%N).
Local Notation all := (ts ++ [fin]).
Local Notation eL := (mk_slot (s_ik e1) LAYER_KEYLENX (hd0 all) None).
Local Notation L' := (rep_leaf L i eL bg' (lb_bud L)).
Context (HA : sA s' = <[p := LF g MFree rt pa L']> A') (HR : sR s' = sR s)
  (HVe : sV s' !! s_ptr ye = Some vold) (HVn : sV s' !! s_ptr yn = Some v) (HV : forall h w, sV s !! h = Some w -> sV s' !! h = Some w)
  (Hfv : sfv s' = []) (Hfn : sfn s' = []) (HC : sC s' = (sC s + 1)%N).

Lemma bl_new x : x ∈ all -> sA s !! x = None /\ x <> 0%N /\ x <> p.
Proof.
  intros H. destruct (ti_new _ _ _ _ _ _ _ HT x H) as [H1 H2]. apply lookup_insert_None in H1 as [H1 H3]. split; [done|]. split; [done|]. congruence.
Qed.
Lemma bl_old x : x ∉ all -> x <> p -> sA s' !! x = sA s !! x.
Proof.
  intros H1 H2. rewrite HA, lookup_insert_ne by congruence. rewrite (ti_old _ _ _ _ _ _ _ HT x H1), lookup_insert_ne by congruence. done.
Qed.
Definition bl_body (k : nat) : lbody :=
  if decide (k = j) then finl ef bg bud ye yn else tw_leaf (tik kb (d + 1) k) LAYER_KEYLENX (nth (k + 1) all 0%N).
Lemma bl_at k t : all !! k = Some t -> sA s' !! t = Some (LF (tgh kb (d + 1) k t) MFree true 0%N (bl_body k)).
Proof.
  intros H. destruct (bl_new t) as (_ & _ & Htp); [by eapply elem_of_list_lookup_2|]. rewrite HA, lookup_insert_ne by congruence.
  unfold bl_body. apply lookup_app_Some in H as [H|[H1 H]].
  - pose proof (lookup_lt_Some _ _ _ H) as Hk. destruct (decide (k = j)); [lia|]. rewrite (ti_tw _ _ _ _ _ _ _ HT k t H). rewrite nth_lookup.
    destruct (all !! (k + 1)) as [t'|] eqn:E; [done|]. apply lookup_ge_None in E. rewrite app_length in E. cbn in E. lia.
  - assert (k = j) as -> by (apply lookup_lt_Some in H; cbn in H; lia). rewrite Nat.sub_diag in H. injection H as <-.
    rewrite decide_True by done. done.
Qed.
Lemma bl_p : sA s' !! p = Some (LF g MFree rt pa L'). Proof. rewrite HA. apply lookup_insert. Qed.
Lemma bl_cases x n : sA s' !! x = Some n -> (x = p /\ n = LF g MFree rt pa L') \/ (x <> p /\ x ∉ all /\ sA s !! x = Some n) \/
  (exists k, all !! k = Some x /\ n = LF (tgh kb (d + 1) k x) MFree true 0%N (bl_body k)).
Proof.
  intros H. destruct (decide (x = p)) as [->|Hxp]; [left; split; [done|]; rewrite bl_p in H; congruence|right].
  destruct (decide (x ∈ all)) as [Hi|Hi]; [right|left; rewrite bl_old in H by done; done].
  apply elem_of_list_lookup in Hi as [k Hk]. exists k. split; [done|]. rewrite (bl_at _ _ Hk) in H. congruence.
Qed.
Lemma bl_pA : A' !! p = Some (LF g MIns rt pa L).
Proof. rewrite (ti_old _ _ _ _ _ _ _ HT); [apply lookup_insert|]. intros H. by destruct (bl_new p H) as (_ & _ & ?). Qed.
Lemma bl_skels : skels (sA s') = skels A'.
Proof. rewrite HA. apply (skels_same _ _ _ _ bl_pA). done. Qed.
Lemma bl_sk x : x ∉ all -> skels (sA s') !! x = skels (sA s) !! x.
Proof.
  intros H. destruct (decide (x = p)) as [->|Hxp].
  - rewrite (skels_lookup _ _ _ bl_p), (skels_lookup _ _ _ Hp). done.
  - unfold skels. by rewrite !lookup_fmap, bl_old.
Qed.
Lemma bl_prefwd : prefwd (skels (sA s)) (skels (sA s')).
Proof.
  intros x n Hn. exists n. split; [|done]. rewrite bl_sk; [done|]. intros Hi. destruct (bl_new x Hi) as (H & _).
  unfold skels in Hn. by rewrite lookup_fmap, H in Hn.
Qed.
Lemma bl_deg x qn' : skels (sA s') !! x = Some qn' -> lo qn' = hi qn' -> exists qn, skels (sA s) !! x = Some qn /\ lo qn = hi qn.
Proof.
  intros H E. destruct (decide (x ∈ all)) as [Hi|Hi]; [|rewrite bl_sk in H by done; eauto].
  exfalso. apply elem_of_list_lookup in Hi as [k Hk]. rewrite (skels_lookup _ _ _ (bl_at _ _ Hk)) in H. injection H as <-. cbn in E. done.
Qed.

Lemma bl_gpre : g_pre g = take (d * 8) kb.
Proof.
  destruct (path_pre _ _ _ HI _ _ _ Hkb Hpath) as (n & N1 & N2 & N3 & _).
  rewrite <- N3. by apply (layer_pre K B s HI _ _ _ _ Hp N1).
Qed.
Lemma bl_Dj : (d + 1 + j) * 8 < length kb. Proof. destruct Hpost as [(_ & _ & H) _]. rewrite drop_length in H. lia. Qed.
Lemma bl_ik_top (b : bytes) : is_bytes b -> (be_word (pad8 b) < TOP)%N. Proof. intros H. eapply N.lt_le_trans; [by apply be_word_lt, pad8_bytes|]. rewrite pad8_length. done. Qed.
Lemma bl_drop k : drop ((d + 1 + k) * 8) kb = drop (k * 8) (drop ((d + 1) * 8) kb).
Proof. rewrite drop_drop. f_equal. lia. Qed.
Lemma bl_slice : take 8 r1 = take 8 r.
Proof.
  rewrite <- (pad8_long r), <- (pad8_long r1) by lia. destruct Hr1 as (H1 & H2 & _). apply slice_eq; [done|by apply Forall_drop|congruence].
Qed.
(** the bytes of the old key *)
Lemma bl_oldkey : take ((d + 1 + j) * 8) kb ++ drop (j * 8) a = g_pre g ++ r1.
Proof.
  destruct Hpost as [(E & _ & _) _]. rewrite bl_gpre.
  assert (E1 : take ((d + 1 + j) * 8) kb = take ((d + 1) * 8) kb ++ take (j * 8) (drop ((d + 1) * 8) kb)).
  { rewrite take_take_drop. f_equal. lia. }
  rewrite E1, <- E, <- (assoc_L app), take_drop, take_step, <- (assoc_L app). f_equal.
  rewrite <- bl_slice. apply take_drop.
Qed.
Lemma bl_newkey k : take ((d + 1 + k) * 8) kb ++ drop ((d + 1 + k) * 8) kb = kb.
Proof. apply take_drop. Qed.
Lemma bl_K1 : K (g_pre g ++ r1) vold /\ length (g_pre g ++ r1) <= 256.
Proof.
  assert (He : e1 ∈ es L) by (eapply rep_x; [apply (iv_l _ _ _ _ _ HI _ _ _ _ _ _ Hp)|done|done]).
  destruct (lk_ent _ _ _ _ _ _ (iv_l _ _ _ _ _ HI _ _ _ _ _ _ Hp) e1 He) as (_ & [(r2 & v2 & R1 & R2 & R3 & R4)|(R1 & _)]).
  - assert (r2 = r1) as -> by (by eapply rest_fun). split; [|done]. congruence.
  - pose proof (rest_lt _ _ Hr1). lia.
Qed.
Lemma bl_ecls : ecls ye <> ecls yn.
Proof.
  rewrite (rest_ecls _ _ Hye), (rest_ecls _ _ Hyn). rewrite bl_drop. unfold rcls. intros E. injection E as E1 E2.
  destruct Hye as (B1 & _). destruct Hyn as (B2 & _). rewrite bl_drop in B2.
  apply slice_eq in E1; [|done|done]. destruct Hpost as [(Hc & Hc1 & Hc2) Hn].
  set (x := drop (j * 8) a) in *. set (y := drop (j * 8) (drop ((d + 1) * 8) kb)) in *.
  destruct (Nat.leb_spec (length x) 8), (Nat.leb_spec (length y) 8); [|lia|lia|by apply Hn].
  assert (Exy : x = y).
  { apply Nat2N.inj in E2. unfold pad8 in E1. rewrite !take_ge in E1 by lia. by apply app_inj_1 in E1 as [-> _]. }
  apply Hne. rewrite <- (take_drop 8 r1), <- (take_drop 8 r), bl_slice. f_equal.
  rewrite <- (take_drop (j * 8) a), Hc. fold x. rewrite Exy. unfold y. rewrite take_drop. by rewrite drop_step.
Qed.
Lemma bl_ent_tw k t : all !! k = Some t -> k < j -> ent_ok K (skels (sA s')) (sV s') (tgh kb (d + 1) k t) (mk_slot (tik kb (d + 1) k) LAYER_KEYLENX (nth (k + 1) all 0%N) None).
Proof.
  intros Hk Hkj. assert (Hk1 : k + 1 < length all) by (rewrite app_length; cbn; lia). apply lookup_lt_is_Some_2 in Hk1 as [t' Ht'].
  rewrite (nth_lookup_Some _ _ _ _ Ht'). pose proof bl_Dj as HD.
  split; [cbn; by apply bl_new; eapply elem_of_list_lookup_2|]. right. split; [done|].
  exists (skel (LF (tgh kb (d + 1) (k + 1) t') MFree true 0%N (bl_body (k + 1)))), (take 8 (drop ((d + 1 + k) * 8) kb)), (drop ((d + 1 + (k + 1)) * 8) kb), v.
  assert (Hlen : 8 < length (drop ((d + 1 + k) * 8) kb)) by (rewrite drop_length; lia).
  split; [by apply skels_lookup, bl_at|]. split; [by apply Forall_take, Forall_drop|]. split; [rewrite take_length; lia|].
  split; [cbn; unfold tik; rewrite pad8_long by lia; done|].
  split; [cbn; rewrite <- take_step; f_equal; lia|]. split; [cbn; rewrite take_length; lia|].
  split.
  { intros E. apply (f_equal length) in E. rewrite drop_length in E. cbn in E. lia. }
  cbn. replace (drop ((d + 1 + (k + 1)) * 8) kb) with (drop 8 (drop ((d + 1 + k) * 8) kb)) by (rewrite drop_drop; f_equal; lia).
  by rewrite !take_drop.
Qed.
Lemma bl_ent_e : ent_ok K (skels (sA s')) (sV s') (tgh kb (d + 1) j fin) ye.
Proof.
  destruct bl_K1 as [H1 H2]. split; [done|]. left. exists (drop (j * 8) a), vold. cbn [tgh lgh g_pre]. rewrite bl_oldkey. done.
Qed.
Lemma bl_ent_n : ent_ok K (skels (sA s')) (sV s') (tgh kb (d + 1) j fin) yn.
Proof. split; [done|]. left. exists (drop ((d + 1 + j) * 8) kb), v. cbn [tgh lgh g_pre]. rewrite bl_newkey. done. Qed.
Lemma bl_ok_new k t : all !! k = Some t -> leaf_ok K B' (skels (sA s')) (sV s') (tgh kb (d + 1) k t) (bl_body k).
Proof.
  intros Hk. unfold bl_body. destruct (decide (k = j)) as [->|Hkj].
  - assert (t = fin) as ->. { rewrite lookup_app_r, Nat.sub_diag in Hk by lia. by injection Hk. }
    assert (Te : (s_ik ye < TOP)%N) by (destruct Hye as (E1 & -> & _); by apply bl_ik_top).
    assert (Tn : (s_ik yn < TOP)%N) by (destruct Hyn as (E1 & -> & _); by apply bl_ik_top).
    pose proof bl_ecls as Hc. pose proof bl_ent_e. pose proof bl_ent_n. unfold finl. destruct ef; apply two_ok; try done; try lia.
  - assert (k < j). { apply lookup_lt_Some in Hk. rewrite app_length in Hk. cbn in Hk. lia. }
    apply (one_ok _ _ _ _ _ _ (mk_slot (tik kb (d + 1) k) LAYER_KEYLENX (nth (k + 1) all 0%N) None)); [|done|done|by apply bl_ent_tw].
    cbn. unfold tik. apply bl_ik_top. by apply Forall_drop.
Qed.
Lemma bl_hd : exists t, all !! 0 = Some t /\ hd0 all = t.
Proof. destruct ts as [|t ts0]; cbn; eauto. Qed.
Lemma bl_kx1 : s_kx e1 = KSUF_KEYLENX.
Proof. destruct Hr1 as (_ & _ & H). destruct (Nat.leb_spec (length r1) 8); [lia|apply H]. Qed.
Lemma bl_cls : ecls eL = ecls e1. Proof. unfold ecls. rewrite bl_kx1. done. Qed.
Lemma bl_HL : leaf_ok K B (skels (sA s)) (sV s) g L. Proof. by eapply HI. Qed.
Lemma bl_bud : (lb_bud L <= B')%N. Proof. etrans; [apply bl_HL|exact HB]. Qed.
Lemma bl_rep e : e ∈ es L' <-> e = eL \/ (e ∈ es L /\ ecls e <> ecls e1).
Proof. exact (rep_elem K B B' (skels (sA s)) (sV s) (sV s') g L bl_HL i e1 eL bg' (lb_bud L) Hin Hx HV HB bl_bud bl_cls (fun _ => eq_refl) e). Qed.
Lemma bl_ok_p : leaf_ok K B' (skels (sA s')) (sV s') g L'.
Proof.
  destruct bl_hd as (t & Ht & Et). pose proof bl_Dj as HD.
  eapply (rep_ok K B B' (skels (sA s)) (skels (sA s')) (sV s) (sV s') g L bl_HL i e1 eL); [done|done|apply bl_prefwd|done|done| | |apply bl_cls| |done].
  - etrans; [apply bl_HL|done].
  - intros qn' _ H1 H2. by eapply bl_deg.
  - split; [cbn; rewrite Et; by apply bl_new; eapply elem_of_list_lookup_2|]. right. split; [done|].
    exists (skel (LF (tgh kb (d + 1) 0 t) MFree true 0%N (bl_body 0))), (take 8 r), (drop 8 r), v. cbn [s_ptr s_ik]. rewrite Et.
    split; [by apply skels_lookup, bl_at|]. split; [by apply Forall_take, Forall_drop|]. split; [rewrite take_length; lia|].
    split; [rewrite Hik, pad8_long by lia; done|]. rewrite bl_gpre.
    split; [cbn; rewrite <- take_step; f_equal; lia|]. split; [cbn; rewrite take_length; lia|].
    split; [|by rewrite !take_drop].
    intros E. apply (f_equal length) in E. rewrite drop_length in E. cbn in E. lia.
Qed.
Lemma bl_inv : Inv K B' s' 0 0.
Proof.
  split.
  - rewrite bl_skels, HR. apply HT.
  - intros x g' md rt' pa' L2 Hx2. destruct (bl_cases _ _ Hx2) as [[-> E]|[(H1 & H2 & H3)|(k & H1 & E)]].
    + injection E as -> -> -> -> ->. apply bl_ok_p.
    + eapply (leaf_ok_mono K K B B'); [done|apply bl_prefwd|exact HV|done| |by eapply HI]. intros qn' _ Q1 Q2. by eapply bl_deg.
    + injection E as -> -> -> -> ->. by apply bl_ok_new.
Qed.
Lemma bl_free : free_but [] (sA s').
Proof.
  intros x n Hn _. destruct (bl_cases _ _ Hn) as [[-> ->]|[(H1 & H2 & H3)|(k & H1 & ->)]]; [done| |done].
  eapply Hfree; [exact H3|]. by intros ?%elem_of_nil.
Qed.
Lemma bl_dead : NoDead (sA s) -> NoDead (sA s').
Proof.
  intros HN x g' md rt' pa' L2 e Hx2 He. destruct (bl_cases _ _ Hx2) as [[-> E]|[(H1 & H2 & H3)|(k & H1 & E)]].
  - injection E as -> -> -> -> ->. apply bl_rep in He as [->|[He _]]; [|by eapply (HN _ _ _ _ _ _ _ Hp)].
    cbn. eapply (HN _ _ _ _ _ _ _ Hp). by eapply rep_x; [apply bl_HL|..].
  - by eapply HN.
  - injection E as -> -> -> -> ->. cbn [tgh lgh g_hi]. by apply (lk_span _ _ _ _ _ _ (bl_ok_new _ _ H1)).
Qed.
Lemma bl_node x n : sA s !! x = Some n -> exists n', sA s' !! x = Some n' /\ g_lid (a_gh n') = g_lid (a_gh n).
Proof.
  intros Hn. destruct (decide (x = p)) as [->|Hxp].
  - rewrite bl_p. eexists. split; [done|]. by assert (n = LF g MFree rt pa L) as -> by congruence.
  - rewrite bl_old; [eauto| |done]. intros Hi. destruct (bl_new _ Hi) as [H _]. congruence.
Qed.
Lemma bl_lid x n : sA s !! x = Some n -> is_Some (sA s !! g_lid (a_gh n)).
Proof. intros Hn. destruct (node_layer K B s HI _ _ Hn) as (n' & H & _). by eexists. Qed.
Lemma bl_entry l x : NoDead (sA s) -> is_Some (sA s !! l) -> entry (sA s') l x <-> (l = g_lid g /\ x = eL) \/ (entry (sA s) l x /\ ~ (l = g_lid g /\ x = e1)).
Proof.
  intros HN Hl0. pose proof bl_rep as Hrep.
  assert (He1 : e1 ∈ es L) by (by eapply rep_x; [apply bl_HL|..]).
  split.
  - intros (q & g' & md & rt' & pa' & L2 & Hq & Hlq & He). destruct (bl_cases _ _ Hq) as [[-> E]|[(H1 & H2 & H3)|(k & H1 & E)]].
    + injection E as -> -> -> -> ->. apply Hrep in He as [->|[He Hc]]; [by left|]. right. split; [exists p, g, MFree, rt, pa, L; done|].
      intros [_ ->]. done.
    + right. split; [exists q, g', md, rt', pa', L2; done|]. intros [-> ->]. apply H1.
      eapply (holds_uniq K B s HI (g_lid g) (s_ik e1)).
      * exists g', md, rt', pa', L2. split; [done|]. split; [done|]. pose proof (HN _ _ _ _ _ _ _ H3 He).
        pose proof (lk_span _ _ _ _ _ _ (iv_l _ _ _ _ _ HI _ _ _ _ _ _ H3) _ He). lia.
      * exists g, MFree, rt, pa, L. split; [done|]. split; [done|]. pose proof (HN _ _ _ _ _ _ _ Hp He1).
        pose proof (lk_span _ _ _ _ _ _ bl_HL _ He1). lia.
    + exfalso. injection E as -> -> -> -> ->. cbn in Hlq. subst l. destruct (bl_new q) as [H _]; [by eapply elem_of_list_lookup_2|].
      rewrite H in Hl0. by destruct Hl0.
  - intros [[-> ->]|[(q & g' & md & rt' & pa' & L2 & Hq & Hlq & He) Hn]].
    + exists p, g, MFree, rt, pa, L'. split; [apply bl_p|]. split; [done|]. apply Hrep. by left.
    + destruct (decide (q = p)) as [->|Hqp].
      * rewrite Hp in Hq. injection Hq as <- <- <- <- <-. exists p, g, MFree, rt, pa, L'. split; [apply bl_p|]. split; [done|]. apply Hrep. right.
        split; [done|]. intros Hc. apply Hn. split; [done|]. 
        eapply (entry_uniq K B s HI (g_lid g)); [done|exists p, g, MFree, rt, pa, L; done..|done].
      * exists q, g', md, rt', pa', L2. split; [|done]. rewrite bl_old; [done| |done]. intros Hi. destruct (bl_new _ Hi) as [H _]. congruence.
Qed.
(** the entries of the new layers *)
Lemma bl_entry_new k t x : all !! k = Some t -> entry (sA s') t x <-> x ∈ es (bl_body k).
Proof.
  intros Hk. destruct (bl_new t) as (Ht & _); [by eapply elem_of_list_lookup_2|]. split.
  - intros (q & g' & md & rt' & pa' & L2 & Hq & Hlq & He). destruct (bl_cases _ _ Hq) as [[-> E]|[(H1 & H2 & H3)|(k2 & H1 & E)]].
    + exfalso. injection E as -> -> -> -> ->. destruct (bl_lid _ _ Hp) as [n Hn]. cbn in Hn. rewrite Hlq in Hn. congruence.
    + exfalso. destruct (bl_lid _ _ H3) as [n Hn]. cbn in Hn. rewrite Hlq in Hn. congruence.
    + injection E as -> -> -> -> ->. cbn in Hlq. subst q. assert (k2 = k) as -> by (eapply NoDup_lookup; [apply HT|done|done]). done.
  - intros He. exists t, (tgh kb (d + 1) k t), MFree, true, 0%N, (bl_body k). split; [by apply bl_at|done].
Qed.
Lemma bl_chain k h : is_bytes k -> reaches (sA s') k (hd0 all) (d + 1) h <->
  (drop ((d + 1) * 8) k = drop 8 r /\ h = s_ptr yn) \/ (drop ((d + 1) * 8) k = a /\ h = s_ptr ye).
Proof.
  intros Hk. destruct bl_hd as (t0 & Ht0 & Et0). destruct Hpost as [(Hc & Hc1 & Hc2) _].
  assert (Hnth : forall i', i' <= j -> exists t, all !! i' = Some t /\ nth i' all 0%N = t).
  { intros i' Hi'. destruct (lookup_lt_is_Some_2 all i') as [t Ht]; [rewrite app_length; cbn; lia|]. exists t. split; [done|]. by apply nth_lookup_Some. }
  pose proof (chain_reaches (sA s') (drop ((d + 1) * 8) kb) a (Forall_drop _ _ _ Hkb) j (fun i' => nth i' all 0%N) yn ye) as H.
  assert (Hgoal : reaches (sA s') k (nth 0 all 0%N) (d + 1 + 0) h <->
    (drop ((d + 1 + 0) * 8) k = drop (0 * 8) a /\ h = s_ptr ye) \/ (drop ((d + 1 + 0) * 8) k = drop (0 * 8) (drop ((d + 1) * 8) kb) /\ h = s_ptr yn)).
  { eapply H with (m := j) (i := 0); [..|done|done].
    - intros i' Hi'. destruct (Hnth i' ltac:(lia)) as (t & T1 & T2). destruct (Hnth (i' + 1) ltac:(lia)) as (t' & T1' & T2'). rewrite T2. split.
      + intros x. rewrite (bl_entry_new _ _ x T1). unfold bl_body. destruct (decide (i' = j)); [lia|]. rewrite tw_es, elem_of_list_singleton.
        unfold tik. by rewrite bl_drop.
      + rewrite T2'. eexists. split; [by apply bl_at|done].
    - intros x. destruct (Hnth j ltac:(lia)) as (t & T1 & T2). rewrite T2, (bl_entry_new _ _ x T1). unfold bl_body. rewrite decide_True by done.
      unfold finl. destruct ef; rewrite two_es, elem_of_cons, elem_of_list_singleton; tauto.
    - by rewrite <- bl_drop.
    - done.
    - done.
    - done.
    - done. }
  rewrite Nat.add_0_r in Hgoal. cbn [Nat.mul] in Hgoal. rewrite !drop_0 in Hgoal. rewrite Et0. rewrite (nth_lookup_Some _ _ 0%N _ Ht0) in Hgoal.
  rewrite Hgoal, (drop_step kb d). tauto.
Qed.
Lemma bl_ne : exists e, entry (sA s') MAIN e.
Proof.
  destruct (decide (g_lid g = MAIN)) as [E|E].
  - exists eL. exists p. rewrite bl_p. eexists _, _, _, _, _. split; [done|]. split; [done|]. apply bl_rep. by left.
  - destruct (path_entry _ _ _ _ Hpath E) as (e & q & g' & m' & rt' & pa' & L2 & Hq & Hl' & He). exists e, q, g', m', rt', pa', L2.
    split; [|done]. rewrite bl_old; [done| |].
    + intros Hi'. destruct (bl_new _ Hi') as [H _]. congruence.
    + intros ->. rewrite Hp in Hq. injection Hq as <- <- <- <- <-. done.
Qed.
Lemma post_conv : ins_post fx K B' kb v s s' None.
Proof.
  split; [apply bl_inv|apply bl_free|done|done|done|done|apply bl_ne|]. intros _ HN. split; [by apply bl_dead|].
  destruct bl_hd as (t0 & Ht0 & Et0).
  assert (He1 : entry (sA s) (g_lid g) e1) by (exists p, g, MFree, rt, pa, L; split; [done|]; split; [done|]; by eapply rep_x; [apply bl_HL|..]).
  assert (Hch : forall k h, is_bytes k -> reaches (sA s') k (g_lid (a_gh (LF (tgh kb (d + 1) 0 t0) MFree true 0%N (bl_body 0)))) (d + 1) h <->
    (drop ((d + 1) * 8) k = drop 8 r /\ h = s_ptr yn) \/ (drop ((d + 1) * 8) k = a /\ h = s_ptr ye)).
  { intros k' h Hk'. cbn. rewrite <- Et0. by apply bl_chain. }
  split.
  - intros k w Hk. eapply (conv_maps K B s s' HI kb v (g_lid g) d Hkb Hpath e1 r1 He1 Hr1 Hne Hl Hl1 Hik bl_node HV eL (LF (tgh kb (d + 1) 0 t0) MFree true 0%N (bl_body 0)));
      [done|done|cbn; rewrite Et0; by apply bl_at|intros; by apply bl_entry|exact HVn|exact HVe|done|exact Hch|done|done].
  - intros w. split; [|done]. intros Hm. exfalso.
    eapply (cv_before K B s s' HI kb (g_lid g) d Hpath e1 r1 He1 Hr1 Hne Hl Hl1 Hik bl_node HV eL (LF (tgh kb (d + 1) 0 t0) MFree true 0%N (bl_body 0)));
      [done|done|intros; by apply bl_entry|exact vold|exact Hch|done|done].
Qed.
End Built.
