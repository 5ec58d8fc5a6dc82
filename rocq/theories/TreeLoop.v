(** The insertion loop. *)
From Verif Require Import Base Perm PermFacts PermList SpecPerm PermLaws Key SpecKey KeyFacts Suffix SpecSuffix SuffixFacts Prog Version Mem Tree TreeState TreePrim TreeInv TreeRead TreeSplit TreeSkel TreeInode TreeProp TreeLeaf TreeContent TreeInsert TreeLayer TreeConv.

(** generic.rs:2187-2316 create_layer_concurrent_generic *)
Lemma wp_create_layer F m s kb v d p g md rt pa L i e1 r1 vold (Q : N -> mem -> Prop) :
  33 <= F -> is_bytes kb -> length kb <= 256 -> St m s -> SInv (skels (sA s)) (sR s) 0 0 -> sA s !! p = Some (LF g md rt pa L) ->
  lb_sl L !! i = Some e1 -> rest_of e1 r1 -> 8 < length (drop (d * 8) kb) -> 8 < length r1 -> length r1 <= 256 ->
  s_ptr e1 <> 0%N -> sV s !! s_ptr e1 = Some vold ->
  (forall ts fin ef bg bud ye yn A' V' m', TI (sA s) (sR s) kb (d + 1) A' ts [fin] ->
     A' !! fin = Some (LF (tgh kb (d + 1) (length ts) fin) MFree true 0%N (finl ef bg bud ye yn)) -> tl_post (drop 8 r1) kb (d + 1) (length ts) ->
     rest_of ye (drop (length ts * 8) (drop 8 r1)) -> rest_of yn (drop ((d + 1 + length ts) * 8) kb) ->
     (s_kx ye <> KSUF_KEYLENX -> s_sf ye = None) -> (s_kx yn <> KSUF_KEYLENX -> s_sf yn = None) -> (bud <= 512)%N ->
     s_ptr ye <> 0%N -> s_ptr yn <> 0%N -> (if (ef : bool) then s_ik ye <= s_ik yn else s_ik yn <= s_ik ye)%N ->
     V' !! s_ptr ye = Some vold -> V' !! s_ptr yn = Some v -> (forall h w, sV s !! h = Some w -> V' !! h = Some w) ->
     St m' (setV V' (withA A' s)) -> Q (hd0 (ts ++ [fin])) m') ->
  wp (create_layer F p i (kpos kb d) v) m Q.
Proof.
  intros HF Hkb Hkl HS HI Hp Hx Hr1 Hl Hl1 Hr256 Hp0 Hvo HQ.
  assert (Hkx : s_kx e1 = KSUF_KEYLENX /\ s_sf e1 = Some (drop 8 r1)).
  { destruct Hr1 as (_ & _ & H). destruct (Nat.leb_spec (length r1) 8); [lia|done]. }
  destruct Hkx as [Hkx Hsf]. set (a := drop 8 r1) in *.
  assert (Ha : is_bytes a) by (apply Forall_drop, Hr1). assert (Hal : length a <= 256) by (unfold a; rewrite drop_length; lia).
  unfold create_layer. apply wp_bind. eapply (wp_ksuf _ _ HS p g md rt pa L Hp i e1); [done|]. rewrite Hkx, N.eqb_refl, Hsf.
  change (default [] (Some a)) with a. unfold key_from_suffix. rewrite key_new_ok by done.
  apply wp_bind. unfold try_clone_output. apply wp_bind. eapply (wp_keylenx _ _ HS p g md rt pa L Hp i e1); [done|]. rewrite Hkx.
  change (LAYER_KEYLENX <=? KSUF_KEYLENX)%N with false. cbv iota.
  apply wp_bind. eapply (wp_val_ptr _ _ HS p g md rt pa L Hp i e1); [done|]. rewrite (proj2 (N.eqb_neq _ _) Hp0).
  apply wp_bind. eapply wp_from_raw; [exact HS|exact Hvo|]. apply wp_ret. cbv zeta. rewrite has_suffix_pos, (proj2 (Nat.ltb_lt _ _) Hl), shift_pos.
  apply wp_bind.
  assert (HT0 : TI (sA s) (sR s) kb (d + 1) (sA s) [] []).
  { split; try done; cbn. apply NoDup_nil. done. by intros x ?%elem_of_nil. }
  pose proof (wp_twig_loop (sA s) (sR s) a kb (d + 1) Ha Hkb Hal Hkl F m s []) as HW.
  cbn [hd0 last0 last default length] in HW. replace (kpos kb (d + 1)) with (kpos kb (d + 1 + 0)) by (f_equal; lia). apply HW; clear HW; [done|done| |lia|].
  { split; [done|]. cbn. rewrite drop_length in Hl |- *. unfold a. rewrite drop_length. lia. }
  intros m1 s1 ts H1 E1 HT Hpost. set (j := length ts) in *.
  apply wp_bind. apply (wp_new_layer_leaf _ _ (tgh kb (d + 1) j) _ H1). intros q m2 Hq0 Hq H2.
  apply wp_bind. pose proof Hpost as [(Hc & Hc1 & Hc2) _]. rewrite drop_length in Hc2.
  eapply (wp_assign_final a kb j (d + 1 + j)); [done|done|done|done|lia|lia|exact H2|apply lookup_insert|].
  intros ef bg bud ye yn m3 V' R1 R2 R3 R4 R5 R6 R7 R8 R9 R10 R11 H3. rewrite setA_setA in H3.
  set (Lf := finl ef bg bud ye yn) in *.
  assert (En : lb_nx Lf = 0%N /\ lb_pv Lf = 0%N) by (unfold Lf, finl; destruct ef; done).
  destruct (ti_link _ _ a kb (d + 1) Hal Hkl (sA s1) ts q Lf HT (proj1 Hpost) Hq0 Hq (proj1 En) (proj2 En)) as [HT' Hq'].
  destruct (ti_fresh _ _ _ _ _ _ _ q HT) as [_ Hni]; [intros x ?%elem_of_nil; done|done|]. rewrite app_nil_r in Hni.
  assert (EA : forall A, withA A s1 = withA A s) by (intros A; rewrite E1; done).
  assert (EV : sV s1 = sV s) by (rewrite E1; done).
  assert (Hfin : forall m4, St m4 (setV V' (withA (link_last kb (d + 1) ts q (<[q := LF (tgh kb (d + 1) j q) MFree true 0%N Lf]> (sA s1))) s1)) -> Q (hd0 (ts ++ [q])) m4).
  { intros m4 H4. rewrite EA in H4. rewrite <- EV in HQ. eapply (HQ ts q ef bg bud ye yn); try done. }
  destruct ts as [|t0 ts0] eqn:Ets.
  - cbn [hd0]. rewrite N.eqb_refl. apply wp_ret. apply (Hfin m3). exact H3.
  - cbn [hd0]. destruct (ti_new _ _ _ _ _ _ _ HT t0) as [_ Ht0]; [by left|]. rewrite (proj2 (N.eqb_neq _ _) Ht0).
    eapply (wp_linked (sA s) (sR s) a kb (d + 1) Hal Hkl _ _ (setV V' s1) (t0 :: ts0)); [exact H3|done|done|done|]. intros m4 H4. apply wp_ret. by apply Hfin.
Qed.

(** the setters of the abstract state, in the order [setC], [setV], [setfv], [withA] *)
Section Norm.
Context (s : ast) (A : gmap N anode) (p : N) (n n' : anode) (f f' : list N) (V V' : gmap N N) (c c' : N).
Lemma no1 : withA A (setfv f s) = setfv f (withA A s). Proof. done. Qed.
Lemma no2 : withA A (setV V s) = setV V (withA A s). Proof. done. Qed.
Lemma no3 : withA A (setC c s) = setC c (withA A s). Proof. done. Qed.
Lemma no4 : setfv f (setV V s) = setV V (setfv f s). Proof. done. Qed.
Lemma no5 : setfv f (setC c s) = setC c (setfv f s). Proof. done. Qed.
Lemma no6 : setV V (setC c s) = setC c (setV V s). Proof. done. Qed.
Lemma no7 : setfv f (setfv f' s) = setfv f s. Proof. done. Qed.
Lemma no8 : setV V (setV V' s) = setV V s. Proof. done. Qed.
Lemma no9 : setC c (setC c' s) = setC c s. Proof. done. Qed.
Lemma no10 : setA p n (setfv f s) = setfv f (setA p n s). Proof. done. Qed.
Lemma no11 : setA p n (setV V s) = setV V (setA p n s). Proof. done. Qed.
Lemma no12 : setA p n (setC c s) = setC c (setA p n s). Proof. done. Qed.
Lemma no13 : setA p n (withA A s) = withA (<[p := n]> A) s. Proof. done. Qed.
Lemma no14 : sC (setfv f s) = sC s. Proof. done. Qed.
Lemma no15 : sC (setV V s) = sC s. Proof. done. Qed.
Lemma no16 : sC (setA p n s) = sC s. Proof. done. Qed.
Lemma no17 : sC (withA A s) = sC s. Proof. done. Qed.
Lemma no18 : sV (setfv f s) = sV s. Proof. done. Qed.
Lemma no19 : sV (setA p n s) = sV s. Proof. done. Qed.
Lemma no20 : sV (withA A s) = sV s. Proof. done. Qed.
Lemma no21 : sfv (setA p n s) = sfv s. Proof. done. Qed.
Lemma no22 : sV (setV V s) = V. Proof. done. Qed.
Lemma no23 : withA A (setA p n s) = withA A s. Proof. done. Qed.
Lemma no24 : withA A (withA (<[p := n]> A) s) = withA A s. Proof. done. Qed.
Lemma no25 : <[p := n]> (<[p := n']> A) = <[p := n]> A. Proof. apply insert_insert. Qed.
Lemma no26 : sfv (setfv f s) = f. Proof. done. Qed.
Lemma no27 : sfv (setV V s) = sfv s. Proof. done. Qed.
End Norm.
Ltac norm H := repeat (progress rewrite ?no1, ?no2, ?no3, ?no10, ?no11, ?no12, ?no4, ?no5, ?no6, ?no7, ?no8, ?no9, ?no13, ?no23, ?no14, ?no15, ?no16, ?no17, ?no18, ?no19, ?no20, ?no22, ?no21, ?no26, ?no27, ?setA_setA in H).

(** ** the four cases of an insertion, in the leaf locked by it *)
Section Branch.
Context (fx : bool) (K : bytes -> N -> Prop) (B : N) (F : nat) (HF : 300 <= F).
Context (kb : bytes) (v : N) (Hkb : is_bytes kb) (Hkl : length kb <= 256) (HK : K kb v) (HB : (6144 <= B)%N) (HBu : (B + N.of_nat (length kb) < U32_MAX)%N).
Context (s : ast) (HI : Inv K B s 0 0) (Hfree : free_but [] (sA s)) (Hfv : sfv s = []) (Hfn : sfn s = []).
Context (d : nat) (Hd : d * 8 <= length kb).
Local Notation r := (drop (d * 8) kb).
Context (p : N) (g : ghost) (rt : bool) (pa : N) (L : lbody).
Context (Hpath : path (sA s) kb (g_lid g) d) (Hp : sA s !! p = Some (LF g MFree rt pa L)) (Hik : (g_lo g <= be_word (pad8 r) < g_hi g)%N).
Local Notation sm := (setA p (LF g MIns rt pa L) s).
Context (lv : N) (Hlv : vbits lv MIns rt true) (m : mem) (HS : St m sm).
Local Notation B' := (B + N.of_nat (length kb))%N.

Lemma br_HL : leaf_ok K B (skels (sA s)) (sV s) g L. Proof. by eapply HI. Qed.
Lemma br_gpre : g_pre g = take (d * 8) kb.
Proof.
  destruct (path_pre _ _ _ HI _ _ _ Hkb Hpath) as (n & N1 & N2 & N3 & _). rewrite <- N3. by apply (layer_pre K B s HI _ _ _ _ Hp N1).
Qed.
Lemma br_key : g_pre g ++ r = kb. Proof. rewrite br_gpre. apply take_drop. Qed.
Lemma br_slot i : i ∈ ids L -> is_Some (lb_sl L !! i).
Proof. intros Hi. apply lookup_lt_is_Some. rewrite (lk_len _ _ _ _ _ _ br_HL). eapply ids_lt; [apply br_HL|done]. Qed.
Lemma br_V h w : sV s !! h = None -> forall x y, sV s !! x = Some y -> <[h := w]> (sV s) !! x = Some y.
Proof. intros H x y Hx. rewrite lookup_insert_ne; [done|]. congruence. Qed.

(** generic.rs: an existing key gets a new value *)
Lemma br_found i (rest : P ins_res) (Q : ins_res -> mem -> Prop) : searched L r (Found i) ->
  (forall ov m' s', St m' s' -> ins_post fx K B' kb v s s' (Some ov) -> Q (IOk (Some ov)) m') ->
  wp (old <- val_ptr p i ;;
      if (old =? 0)%N then rest
      else
        ov <- output_from_raw old ;;
        h <- output_to_raw v ;;
        lv <- mark_insert p lv ;;
        set_val_ptr p i h ;;;
        unlock p lv ;;;
        retire (GVal old) ;;;
        Ret (IOk (Some ov))) m Q.
Proof.
  intros (Hi & e & He & Hr) HQ. pose proof br_HL as HL.
  assert (Hes : e ∈ es L) by (by eapply rep_x).
  destruct (lk_ent _ _ _ _ _ _ HL e Hes) as (Hp0 & [(r2 & ov & R1 & R2 & R3 & R4)|(R1 & _)]); [|pose proof (rest_lt _ _ Hr); lia].
  assert (r2 = r) as -> by (by eapply rest_fun). rewrite br_key in R4.
  apply wp_bind. eapply (wp_val_ptr _ _ HS p); [apply lookup_insert|exact He|]. rewrite (proj2 (N.eqb_neq _ _) Hp0).
  apply wp_bind. eapply wp_from_raw; [exact HS|exact R3|].
  apply wp_bind. apply (wp_to_raw _ _ HS). intros h m1 Hh Hhn H1. cbn [setA sV sfv] in Hhn. 
  apply wp_bind. eapply wp_mark_insert; [exact Hlv|].
  pose proof (rest_lt _ _ Hr) as Hlt. apply N.ltb_lt in Hlt.
  apply wp_bind. eapply (wp_set_val_ptr _ _ H1 p _ _ _ _ _ ltac:(apply lookup_insert) i e h [s_ptr e] _ He).
  { unfold srefs, sset_ptr. cbn [s_ptr s_kx setV setfv setA sfv sV]. rewrite Hlt, Hfv, (proj2 (N.eqb_neq _ _) Hh), (proj2 (N.eqb_neq _ _) Hp0). cbn. apply perm_swap. }
  intros m2 H2. apply wp_bind. eapply (wp_unlock _ _ H2 p); [apply lookup_insert|exact Hlv|]. intros m3 H3. cbn [unlocked_rt] in H3.
  apply wp_bind. eapply (wp_retire_val _ _ H3 _ []); [done|]. intros m4 H4. apply wp_ret.
  set (y := sset_ptr h e) in *. norm H4. eapply HQ; [exact H4|].
  assert (Hy : rest_of y r) by exact Hr.
  assert (Hec : ecls y = ecls e) by done.
  assert (HV' : forall x w, sV s !! x = Some w -> <[h := v]> (sV s) !! x = Some w) by (by apply br_V).
  assert (Hbd : (lb_bud L <= B')%N) by (pose proof (lk_bud _ _ _ _ _ _ HL); lia).
  eapply (post_found fx K B B' s _ HI Hfree kb v d Hkb p g rt pa L (rep_leaf L i y (lb_bg L) (lb_bud L)) y h Hpath Hp Hik); try done; [lia| |].
  - eapply (rep_ok K B B' (skels (sA s)) (skels (sA s)) (sV s) (<[h := v]> (sV s)) g L HL i e y); try done; [by intros x n Hx; exists n|lia|eauto| |].
    + split; [done|]. left. exists r, v. split; [done|]. rewrite br_key. split; [done|]. split; [apply lookup_insert|done].
    + cbn. by eapply (lk_sf _ _ _ _ _ _ HL).
  - intros z. eapply (rep_elem K B B' (skels (sA s)) (sV s) (<[h := v]> (sV s)) g L HL i e y); try done; [lia|].
    cbn. by eapply (lk_sf _ _ _ _ _ _ HL).
Qed.
(** a new key goes to a free slot *)
Lemma br_new pos (rest : P ins_res) (Q : ins_res -> mem -> Prop) : searched L r (NotFound pos) -> perm_size (lb_perm L) < 24 ->
  (forall m' s', St m' s' -> ins_post fx K B' kb v s s' None -> Q (IOk None) m') ->
  wp (reuse <- (if Nat.eqb (perm_back (lb_perm L)) 0 then can_reuse_slot0 p (k_ikey (kpos kb d)) else Ret true) ;;
      if reuse : bool then
        lv <- assign_slot p lv (perm_back (lb_perm L)) (kpos kb d) v ;;
        let '(np, al) := perm_insert_from_back (lb_perm L) pos in
        (if Nat.eqb al (perm_back (lb_perm L)) then Ret tt else Fail Panic) ;;;
        set_permutation p np ;;;
        unlock p lv ;;;
        inc_count ;;;
        Ret (IOk None)
      else rest) m Q.
Proof.
  intros Hsr Hsz HQ. pose proof br_HL as HL. pose proof (lk_perm _ _ _ _ _ _ HL) as Hwf.
  assert (Hlen : perm_size (lb_perm L) = length (ids L)).
  { unfold ids, active_slots. rewrite map_length, seq_length. done. }
  assert (Hpos : pos <= perm_size (lb_perm L)).
  { destruct Hsr as (H1 & _). rewrite es_ids in H1. lia. }
  destruct (perm_insert_facts (lb_perm L) pos Hwf Hsz Hpos) as (np & E & Hnw & Hact & Hni & Hi24). rewrite E.
  set (i := perm_back (lb_perm L)) in *. rewrite Nat.eqb_refl.
  destruct (lookup_lt_is_Some_2 (lb_sl L) i) as [x Hx]; [rewrite (lk_len _ _ _ _ _ _ HL); lia|].
  destruct (lk_free _ _ _ _ _ _ HL i x Hx Hni) as [Hx0 Hxs].
  apply wp_bind.
  assert (Hreuse : wp (if Nat.eqb i 0 then can_reuse_slot0 p (k_ikey (kpos kb d)) else Ret true) m (fun b m' => b = true /\ m' = m)).
  { destruct (Nat.eqb_spec i 0) as [Ei|]; [|by apply wp_ret]. unfold can_reuse_slot0. apply wp_bind.
    eapply (wp_prev _ _ HS p); [apply lookup_insert|]. destruct (N.eqb_spec (lb_pv L) 0); [by apply wp_ret|].
    exfalso. destruct (lk_first _ _ _ _ _ _ HL) as [F1 _]; [done|]. apply Hni. rewrite Ei. by eapply elem_of_list_lookup_2. }
  apply (wp_mono _ _ _ _ Hreuse). intros b m' [-> ->]. unfold assign_slot. 
  apply wp_bind, wp_bind. apply (wp_to_raw _ _ HS). intros h m1 Hh Hhn H1. cbn [setA sV sfv] in Hhn.
  apply wp_bind. eapply wp_mark_insert; [exact Hlv|].
  apply wp_bind. eapply (wp_set_ikey _ _ H1 p); [apply lookup_insert|exact Hx|]. intros m2 H2. rewrite ikey_pos in H2 by done.
  rewrite wp_assoc. apply wp_bind.
  assert (Hx1 : lb_sl (lslot L i (sset_ik (be_word (pad8 r)) x)) !! i = Some (sset_ik (be_word (pad8 r)) x)).
  { cbn. apply list_lookup_insert. by eapply lookup_lt_Some. }
  assert (Hrl : (lb_bud L + N.of_nat (length r) <= B')%N).
  { pose proof (lk_bud _ _ _ _ _ _ HL). rewrite drop_length. lia. }
  eapply (wp_store_rest _ _ kb d v p g MIns rt pa _ i _ h []); [done|done|done|exact H2|apply lookup_insert|exact Hx1|done|done|done|change (lb_bud (lslot L i ?y)) with (lb_bud L); eapply N.le_lt_trans; [exact Hrl|exact HBu]|cbn; by rewrite Hfv|done|apply lookup_insert| |].
  { intros _. by rewrite current_len_pos. }
  intros y bg bud m3 Y1 Y2 Y3 Y4 H3. apply wp_ret. apply wp_bind, wp_ret.
  apply wp_bind. eapply (wp_set_permutation _ _ H3 p); [apply lookup_insert|]. intros m4 H4.
  apply wp_bind. eapply (wp_unlock _ _ H4 p); [apply lookup_insert|exact Hlv|]. intros m5 H5. cbn [unlocked_rt] in H5.
  apply wp_bind. apply (wp_inc_count _ _ H5). intros m6 H6. apply wp_ret.
  norm H6. unfold lslot, lset_perm, lset_sl in H6. cbn [lb_perm lb_sl lb_bg lb_bud lb_nx lb_pv] in H6, Y4. rewrite list_insert_insert in H6.
  eapply HQ; [exact H6|].
  assert (HlBB : (B <= B')%N) by (apply N.le_add_r).
  assert (Hbd : (bud <= B')%N) by (etrans; [exact Y4|exact Hrl]).
  assert (HV' : forall x w, sV s !! x = Some w -> <[h := v]> (sV s) !! x = Some w) by (by apply br_V).
  refine (post_new fx K B B' s _ HI Hfree kb v d Hkb p g rt pa L (add_leaf L y np bg bud i) y h Hpath Hp Hik _ _ _ Hhn _ _ eq_refl eq_refl HlBB Y1 Y2 _ pos Hsr _ _).
  - reflexivity.
  - reflexivity.
  - reflexivity.
  - reflexivity.
  - exact Hfn.
  - refine (add_ok K B B' (skels (sA s)) (sV s) (<[h := v]> (sV s)) g L HL pos y r np bg bud i HV' HlBB Hbd Hnw Hact Hni Hi24 Hsr Y1 _ Y3 Hik _).
    + split; [by rewrite Y2|]. left. exists r, v. split; [exact Y1|]. rewrite br_key. split; [exact Hkl|]. split; [rewrite Y2; apply lookup_insert|exact HK].
    + apply ik_top. exact Hkb.
  - intros z. exact (add_elem K B (skels (sA s)) (sV s) g L HL pos y r np bg bud i Hact Hni Hi24 Hik z).
  - reflexivity.
Qed.
(** a second key with the same slice: both go to a new layer *)
Lemma br_conflict i (Q : ins_res -> mem -> Prop) : searched L r (Conflict i) ->
  (forall m' s', St m' s' -> ins_post fx K B' kb v s s' None -> Q (IOk None) m') ->
  wp (lv <- mark_insert p lv ;;
      layer <- create_layer F p i (kpos kb d) v ;;
      old <- take_val_ptr p i ;;
      (if (old =? 0)%N then Ret tt else retire (GVal old)) ;;;
      clear_ksuf p i ;;;
      set_keylenx p i LAYER_KEYLENX ;;;
      set_val_ptr p i layer ;;;
      unlock p lv ;;;
      inc_count ;;;
      Ret (IOk None)) m Q.
Proof.
  intros (Hi & e & r1 & He & Heik & Hr & Hne & Hl & Hl1) HQ. pose proof br_HL as HL.
  assert (Hes : e ∈ es L) by (by eapply rep_x).
  destruct (lk_ent _ _ _ _ _ _ HL e Hes) as (Hp0 & [(r2 & ov & R1 & R2 & R3 & R4)|(R1 & _)]); [|pose proof (rest_lt _ _ Hr); lia].
  assert (r2 = r1) as -> by (by eapply rest_fun). rewrite app_length in R2.
  apply wp_bind. eapply wp_mark_insert; [exact Hlv|]. apply wp_bind.
  assert (Hsk : skels (sA sm) = skels (sA s)) by (by apply (skels_same _ _ _ _ Hp)).
  eapply (wp_create_layer F m sm kb v d p g MIns rt pa L i e r1 ov); [lia|done|done|exact HS|rewrite Hsk; apply HI|apply lookup_insert|done|done|done|done|lia|done|exact R3|].
  intros ts fin ef bg bud ye yn A' V' m1 T1 T2 T3 T4 T5 T6 T7 T8 T9 T10 T11 T12 T13 T14 H1.
  assert (HpA : A' !! p = Some (LF g MIns rt pa L)).
  { rewrite (ti_old _ _ _ _ _ _ _ T1); [apply lookup_insert|]. intros Hin. destruct (ti_new _ _ _ _ _ _ _ T1 p Hin) as [E _]. by rewrite setA_lookup in E. }
  assert (Hlt : (s_kx e <? LAYER_KEYLENX)%N = true) by (apply N.ltb_lt; by eapply rest_lt).
  apply wp_bind. eapply (wp_take_val_ptr _ _ H1 p _ _ _ _ _ HpA i e [s_ptr e] _ He).
  { unfold srefs. rewrite Hlt, (proj2 (N.eqb_neq _ _) Hp0). cbn. by rewrite Hfv. }
  intros m2 H2. rewrite (proj2 (N.eqb_neq _ _) Hp0).
  apply wp_bind. eapply (wp_retire_val _ _ H2 _ []); [done|]. intros m3 H3.
  assert (Hsl : forall y, <[i := y]> (lb_sl L) !! i = Some y).
  { intros y. apply list_lookup_insert. by eapply lookup_lt_Some. }
  norm H3. unfold lslot, lset_sl in H3.
  apply wp_bind. eapply (wp_clear_ksuf _ _ H3 p); [apply lookup_insert|exact (Hsl _)| |].
  { reflexivity. }
  intros b m4 H4. norm H4. cbn [lb_perm lb_sl lb_bg lb_bud lb_nx lb_pv] in H4. rewrite ?no25, ?list_insert_insert in H4.
  apply wp_bind. eapply (wp_set_keylenx _ _ H4 p); [apply lookup_insert|exact (Hsl _)| |].
  { reflexivity. }
  intros m5 H5. unfold lslot, lset_sl in H5. norm H5. cbn [lb_perm lb_sl lb_bg lb_bud lb_nx lb_pv] in H5. rewrite ?no25, ?list_insert_insert in H5.
  apply wp_bind. eapply (wp_set_val_ptr _ _ H5 p); [apply lookup_insert|exact (Hsl _)| |].
  { unfold srefs, sset_ptr, sset_kx. cbn [s_ptr s_kx]. change (LAYER_KEYLENX <? LAYER_KEYLENX)%N with false. rewrite !andb_false_r. reflexivity. }
  intros m6 H6. unfold lslot, lset_sl in H6. norm H6. cbn [lb_perm lb_sl lb_bg lb_bud lb_nx lb_pv] in H6. rewrite ?no25, ?list_insert_insert in H6.
  apply wp_bind. eapply (wp_unlock _ _ H6 p); [apply lookup_insert|exact Hlv|]. intros m7 H7. cbn [unlocked_rt] in H7.
  apply wp_bind. apply (wp_inc_count _ _ H7). intros m8 H8. apply wp_ret.
  norm H8. rewrite ?no25 in H8. match type of H8 with St _ ?x => set (sF := x) in H8 end. apply (HQ _ _ H8).
  assert (HlBB : (B <= B')%N) by (apply N.le_add_r).
  assert (H512 : (512 <= B')%N) by (clear -HB; lia).
  refine (post_conv fx K B B' s sF HI Hfree kb v d Hkb Hkl HK p g rt pa L i e r1 ov Hpath Hp Hi He Hr Heik Hne Hl Hl1 R3 ts fin ef bg bud ye yn A' T1 T2 T3 T4 T5 T6 T7 T8 T9 T10 T11 b HlBB H512 _ _ T12 T13 T14 _ _ _).
  - reflexivity.
  - reflexivity.
  - reflexivity.
  - exact Hfn.
  - reflexivity.
Qed.
End Branch.

Lemma post_trans fx K B B' kb v s s1 s' old : Inv K B s 0 0 -> is_bytes kb -> csame (sA s) (sA s1) -> envsame s s1 -> (split_fine fx K -> NoDead (sA s) -> NoDead (sA s1)) ->
  ins_post fx K B' kb v s1 s' old -> ins_post fx K B' kb v s s' old.
Proof.
  intros HI Hkb HC (E1 & E2 & E3 & E4) HN [P1 P2 P3 P4 P5 P6 Pn P7]. split; try done.
  - by rewrite P5, E1.
  - intros Hs Hd. destruct (P7 Hs (HN Hs Hd)) as (Q1 & Q2 & Q3). split; [done|]. split.
    + intros k w Hk. rewrite (Q2 k w Hk). by rewrite (csame_maps K B s s1 k w HI HC E2).
    + intros w. by rewrite <- (csame_maps K B s s1 kb w HI HC E2).
Qed.
Lemma lock_csame A p g rt pa L : A !! p = Some (LF g MFree rt pa L) -> csame A (<[p := LF g MIns rt pa L]> A).
Proof.
  intros Hp. split.
  - intros x n Hx. destruct (decide (x = p)) as [->|].
    + rewrite lookup_insert. eexists. split; [done|]. by assert (n = LF g MFree rt pa L) as -> by congruence.
    + rewrite lookup_insert_ne by congruence. eauto.
  - intros l e. rewrite (entry_leaf_upd _ _ _ _ _ _ _ _ _ _ Hp eq_refl). split.
    + intros [[-> He]|(q & g' & m' & rt' & pa' & L2 & Hne & Hq & Hl & Hx)]; [exists p, g, MFree, rt, pa, L; done|]. exists q, g', m', rt', pa', L2; done.
    + intros (q & g' & m' & rt' & pa' & L2 & Hq & Hl & Hx). destruct (decide (q = p)) as [->|]; [left|right; eauto 12].
      rewrite Hp in Hq. injection Hq as <- <- <- <- <-. done.
Qed.
Lemma lock_dead A p g rt pa L : A !! p = Some (LF g MFree rt pa L) -> NoDead A -> NoDead (<[p := LF g MIns rt pa L]> A).
Proof.
  intros Hp HN q g' m' rt' pa' L2 e Hq He. destruct (decide (q = p)) as [->|].
  - rewrite lookup_insert in Hq. injection Hq as <- <- <- <- <-. by eapply HN.
  - rewrite lookup_insert_ne in Hq by congruence. by eapply HN.
Qed.
(** what the insertion needs *)
Definition fuel_ok (A : gmap N anode) (l ik : N) (d n : nat) : Prop := (roomy A l ik /\ 2 * (33 - d) <= n) \/ 2 * (33 - d) + 1 <= n.
Section Loop.
Context (fx : bool) (K : bytes -> N -> Prop) (F : nat) (HF : 300 <= F).
Context (kb : bytes) (v : N) (Hkb : is_bytes kb) (Hkl : length kb <= 256) (HK : K kb v).
Context (B : N) (HB : (6144 <= B)%N) (HBu : (B + N.of_nat (length kb) < U32_MAX)%N).
Lemma wp_insert_loop n : forall d r rn m s (Q : ins_res -> mem -> Prop), St m s -> Inv K B s 0 0 -> free_but [] (sA s) -> sfv s = [] -> sfn s = [] ->
  d * 8 <= length kb -> sA s !! r = Some rn -> path (sA s) kb (g_lid (a_gh rn)) d -> fuel_ok (sA s) (g_lid (a_gh rn)) (be_word (pad8 (drop (d * 8) kb))) d n ->
  (forall old m' s', St m' s' -> ins_post fx K (B + N.of_nat (length kb)) kb v s s' old -> Q (IOk old) m') ->
  wp (insert_loop fx F n (kpos kb d) v r) m Q.
Proof.
  induction n as [|n IH]; intros d r rn m s Q HS HI Hfree Hfv Hfn Hd Hr Hpath Hn HQ.
  { exfalso. destruct Hn as [[_ Hn]|Hn]; lia. }
  cbn [insert_loop]. set (ik := be_word (pad8 (drop (d * 8) kb))) in *.
  assert (Eik : k_ikey (kpos kb d) = ik) by (by apply ikey_pos). rewrite !Eik.
  assert (Htop : (ik < TOP)%N) by (by apply ik_top).
  eapply (wp_descend K B _ _ HS HI Hfree F _ ik r rn); [exact Hr|reflexivity|done|lia|].
  clear r Hr. set (l := g_lid (a_gh rn)) in *. clearbody l. clear rn. intros r q rn Hr Hlr Hlands.
  apply wp_bind. eapply (wp_advance_by_bound K B _ _ HS HI Hfree F ik l); [done|lia|exact Hlands|]. clear q Hlands.
  intros p (g & md & rt & pa & L & Hp & Hl & Hik). cbv iota beta.
  assert (md = MFree) as -> by (eapply (Hfree _ _ Hp); by intros ?%elem_of_nil).
  subst l. pose proof (iv_l _ _ _ _ _ HI _ _ _ _ _ _ Hp) as HL.
  apply wp_bind. eapply (wp_lock _ _ HS p); [exact Hp|lia|done|]. intros lv m1 Hlv H1. cbn [is_leafb] in Hlv.
  set (sm := setA p (LF g MIns rt pa L) s) in *.
  assert (Hpm : sA sm !! p = Some (LF g MIns rt pa L)) by apply lookup_insert.
  apply wp_bind. eapply (wp_next_raw _ _ H1 p); [exact Hpm|].
  pose proof (next_leaf K B _ _ HS HI _ _ _ _ _ _ Hp) as Hnx.
  assert (Hmk : is_marked (lb_nx L) = false /\ unmark_ptr (lb_nx L) = lb_nx L).
  { destruct Hnx as [[-> _]|(_ & He & _)]; [done|]. by destruct (even_unmarked _ He). }
  destruct Hmk as [-> ->]. cbv zeta iota. apply wp_bind.
  assert (Hmv : wp (if (lb_nx L =? 0)%N then Ret false else nb <- ikey_bound (lb_nx L) ;; Ret (nb <=? ik)%N) m1 (fun b m' => b = false /\ m' = m1)).
  { destruct Hnx as [[-> Hi]|(Hz & He & g' & md' & rt' & pa' & L' & Hq & Q1 & Q2 & Q3 & (x & Hx & Hxi) & _)]; [by apply wp_ret|].
    destruct (N.eqb_spec (lb_nx L) 0); [done|].
    assert (Hne : lb_nx L <> p).
    { intros E. rewrite E, Hp in Hq. injection Hq as <- <- <- <- <-. lia. }
    apply wp_bind. eapply (wp_ikey _ _ H1 (lb_nx L)); [|exact Hx|].
    - cbn [sm setA sA]. rewrite lookup_insert_ne by congruence. exact Hq.
    - apply wp_ret. rewrite Hxi. destruct (N.leb_spec (g_hi g) ik); [lia|done]. }
  apply (wp_mono _ _ _ _ Hmv). intros b m' [-> ->]. cbv iota.
  apply wp_bind. eapply (wp_permutation _ _ H1 p); [exact Hpm|].
  apply wp_bind. eapply (wp_search_for_insert K B _ _ H1 kb Hkb d Hd p g MIns rt pa L _ _ Hpm HL). intros sr Hsr.
  assert (Hpath' : path (sA s) kb (g_lid g) d) by (rewrite Hl; exact Hpath).
  destruct sr as [i|pos|i|i].
  - eapply (br_found fx K B F HF kb v Hkb Hkl HK HB HBu s HI Hfree Hfv Hfn d Hd p g rt pa L Hpath' Hp Hik lv Hlv m1 H1 i); [exact Hsr|].
    intros ov m2 s2 S2 P2. by eapply HQ.
  - unfold WIDTH. destruct (Nat.leb_spec 24 (perm_size (lb_perm L))) as [Hfull|Hroom].
    + assert (Hsz : perm_size (lb_perm L) = 24).
      { pose proof (lk_perm _ _ _ _ _ _ HL) as Hwf. pose proof (wf_size _ _ Hwf) as H. change (perm_size (lb_perm L) <= 24) in H. lia. }
      apply wp_bind. 
      eapply (wp_handle_leaf_split fx K B F m1 sm p lv ik g rt pa L); [lia|exact H1| | |exact Hpm|exact Hlv|done|done|done|].
      { eapply (inv_leaf_upd K B B s sm p g MFree MIns rt pa L L); done. }
      { intros x nx Hx Hni. cbn [sm setA sA] in Hx. rewrite lookup_insert_ne in Hx; [|intros ->; apply Hni; by left]. eapply (Hfree _ _ Hx). by intros ?%elem_of_nil. }
      intros m2 s2 S2 I2 F2 C2 E2 R2 D2. cbv iota.
      assert (CC : csame (sA s) (sA s2)) by (eapply csame_trans; [by eapply lock_csame|exact C2]).
      pose proof E2 as (E2a & E2b & E2c & E2d). cbn [sm setA sC sV sfv sfn] in E2a, E2b, E2c, E2d.
      destruct (cs_node _ _ CC _ _ Hr) as (rn2 & Hr2 & Hl2 & _).
      eapply (IH d r rn2 m2 s2); [done|done|done|congruence|congruence|done|exact Hr2| | |].
      * rewrite Hl2. by eapply csame_path.
      * left. rewrite Hl2, <- Hl. split; [done|]. destruct Hn as [[Hrm _]|Hn]; [|lia].
        exfalso. pose proof (Hrm _ _ _ _ _ _ Hp Hl Hik). lia.
      * intros old m3 s3 S3 P3. eapply HQ; [exact S3|].
        eapply post_trans; [exact HI|done|exact CC| | |exact P3]; [done|].
        intros Hs Hd'. apply D2; [done|]. by eapply lock_dead.
    + eapply (br_new fx K B F HF kb v Hkb Hkl HK HB HBu s HI Hfree Hfv Hfn d Hd p g rt pa L Hpath' Hp Hik lv Hlv m1 H1 pos) in Hroom; [|exact Hsr|].
      2: { intros m2 s2 S2 P2. eapply HQ; [exact S2|exact P2]. }
      rewrite Eik in Hroom. exact Hroom.
  - eapply (br_conflict fx K B F HF kb v Hkb Hkl HK HB HBu s HI Hfree Hfv Hfn d Hd p g rt pa L Hpath' Hp Hik lv Hlv m1 H1 i); [exact Hsr|].
    intros m2 s2 S2 P2. by eapply HQ.
  - destruct Hsr as (Hi & e & He & Hkx & Heik & Hlen).
    assert (Hes : e ∈ es L) by (by eapply rep_x).
    destruct (lk_ent _ _ _ _ _ _ HL e Hes) as (Hp0 & [(r2 & ov & R1 & _)|(_ & sn & w & t & v' & R1 & _)]); [pose proof (rest_lt _ _ R1); lia|].
    apply skels_some in R1 as (n' & Hn' & _).
    apply wp_bind. eapply (wp_val_ptr _ _ H1 p); [exact Hpm|exact He|].
    apply wp_bind. eapply (wp_unlock _ _ H1 p); [exact Hpm|exact Hlv|]. intros m2 H2. cbn [unlocked_rt] in H2. unfold sm in H2. rewrite setA_setA in H2.
    rewrite setA_same in H2 by done.
    rewrite shift_pos. rewrite drop_length in Hlen.
    eapply (IH (d + 1) (s_ptr e) n' m2 s); try done; [lia| |].
    + eapply (p_down _ _ (g_lid g) d e n'); try done; [exists p, g, MFree, rt, pa, L; done|]. rewrite drop_length. lia.
    + right. destruct Hn as [[_ Hn]|Hn]; lia.
Qed.
End Loop.
