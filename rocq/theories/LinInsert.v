(** Inserts on one leaf under interference: the two stores at which they take effect, and
    the whole call. *)
From Verif Require Import Base Perm PermFacts PermList PermLaws SpecPerm Key SpecKey KeyFacts Prog Version VersionFacts Mem Tree
  SpecTree TreeState TreeRead TreeTop SpecLin Lin LinRead LinWrite.

Section K.
Context (K : list bytes) (HK : Forall (fun k => length k <= 8 /\ is_bytes k) K)
  (HK24 : length (remove_dups K) <= 24).
Local Notation Inv := (Inv K).
Local Notation cwp := (cwp K).
Local Notation reads := (reads K).
Local Notation own := (own K).
Local Notation own_owe := (own_owe K).
Local Notation places := (status -> Prop).
Local Notation anyΦ := (fun _ _ _ _ => True).

Lemma cwp_replace i kb v ov s h w l (O : places) (Q : unit -> world -> places -> Prop) :
  O (Pending (Insert kb v)) -> own i w l -> kb ∈ K -> s ∈ active_slots (l_perm l) -> has_key l s kb ->
  h <> 0%N -> vals (wm w) !! h = Some v -> wmu w !! kb = Some ov ->
  (forall w' l' (O' : places), own i w' l' -> l_ver l' = l_ver l -> O' (Done (AIns (Some ov))) -> Q tt w' O') ->
  cwp i (set_val_ptr 2 s h) w O Q.
Proof.
  intros Hp Ho Hk Hs Hh Hnz Hv Hov HQ. apply cwp_step. intros w1 l1 HR1 HI1.
  destruct (own_rely _ _ _ _ _ _ HR1 Ho HI1) as (-> & Ho1 & Hm). destruct Ho1 as (_ & Hw1 & Hn1).
  pose proof (lookup_weaken _ _ _ _ Hv (rl_vals _ _ _ HR1)) as Hv1. rewrite <- Hm in Hov.
  assert (s < 24) as Hs24 by (eapply ids_lt; [apply HI1|done]).
  destruct (K_in K HK kb Hk) as [Hk8 Hkb].
  set (l2 := with_val (<[s := h]> (l_val l)) l).
  set (w2 := mk_w (set_leaf l2 (wm w1)) (<[kb := v]> (wmu w1)) (wow w1) (wowe w1)).
  assert (Hvl : length (l_val l) = 24) by apply HI1.
  assert (HI2 : Inv w2 l2).
  { pose proof HI1 as [A1 A2 A3 A4 A5 A6 A7 A8 A9 A10 A11 A12 A13 A14 A15]. split; try done.
    - unfold lf. cbn. by rewrite lookup_insert.
    - cbn. rewrite insert_length. done.
    - intros s' Hs'. cbn. destruct (decide (s' = s)) as [->|Hne].
      + exists kb, h, v. split; [done|]. split; [done|]. split; [apply list_lookup_insert; lia|]. split; [done|].
        split; [done|]. apply lookup_insert.
      + destruct (A9 s' Hs') as (k & h' & v' & B1 & B2 & B3 & B4 & B5 & B6). exists k, h', v'.
        rewrite list_lookup_insert_ne by done. do 5 (split; [done|]). rewrite lookup_insert_ne; [done|].
        intros <-. apply Hne. by eapply A11.
    - intros k v' Hk'. cbn in Hk'. destruct (decide (k = kb)) as [->|Hne]; [split; [done|]; by exists s|].
      rewrite lookup_insert_ne in Hk' by done. by apply (A10 k v').
    - cbn. rewrite map_size_insert_Some; [done|by eexists].
    - cbn. rewrite map_size_insert_Some; [done|by eexists]. }
  exists tt, w2, l2. split.
  { pose proof (iv_lf _ _ _ HI1) as Hl. unfold lf in Hl. rewrite Hl. unfold list_set.
    destruct (lookup_lt_is_Some_2 (l_val l) s ltac:(lia)) as [x ->]. done. }
  split; [done|]. split.
  { eapply guar_intro; [done|apply HI2|done|done| |done]. cbn. intros j Hj. rewrite Hw1. split; congruence. }
  assert (Hd : after O (wmu w1) (wmu w2) (Done (AIns (Some ov)))).
  { right. exists (Insert kb v), (AIns (Some ov)). split; [done|]. split; [|done]. cbn. by rewrite Hov. }
  split; [by eexists|]. apply (HQ w2 l2); [done|done|done].
Qed.

Lemma room w l kb : Inv w l -> kb ∈ K -> wmu w !! kb = None -> size (wmu w) < 24.
Proof.
  intros HI Hk Hn. assert ({[kb]} ∪ dom (wmu w) ⊆@{gset bytes} list_to_set (remove_dups K)) as Hsub.
  { intros k. rewrite elem_of_union, elem_of_singleton, elem_of_dom, elem_of_list_to_set, elem_of_remove_dups.
    intros [->|[v Hv]]; [done|]. by apply (iv_map _ _ _ HI k v). }
  apply subseteq_size in Hsub. rewrite size_union, size_singleton, size_dom in Hsub.
  - rewrite size_list_to_set in Hsub by apply NoDup_remove_dups. lia.
  - intros k. rewrite elem_of_singleton, elem_of_dom. intros -> [v Hv]. congruence.
Qed.

Lemma cwp_add i kb v pos s h w l pw (O : places) (Q : unit -> world -> places -> Prop) :
  O (Pending (Insert kb v)) -> own i w l -> kb ∈ K -> has_key l s kb -> l_val l !! s = Some h ->
  h <> 0%N -> vals (wm w) !! h = Some v -> found l kb (NotFound pos) -> wmu w !! kb = None ->
  s = perm_back (l_perm l) -> perm_insert_from_back (l_perm l) pos = (pw, s) ->
  (forall w' l' (O' : places), own_owe i w' l' -> l_ver l' = l_ver l -> O' (Done (AIns None)) -> Q tt w' O') ->
  cwp i (set_permutation 2 pw) w O Q.
Proof.
  intros Hp Ho Hk Hh Hval Hnz Hv (Hpos & Hnone & Hord) Hov Hback Hins HQ. apply cwp_step. intros w1 l1 HR1 HI1.
  destruct (own_rely _ _ _ _ _ _ HR1 Ho HI1) as (-> & Ho1 & Hm). destruct Ho1 as (_ & Hw1 & Hn1).
  pose proof (lookup_weaken _ _ _ _ Hv (rl_vals _ _ _ HR1)) as Hv1. rewrite <- Hm in Hov.
  destruct (K_in K HK kb Hk) as [Hk8 Hkb].
  pose proof (room w1 l kb HI1 Hk Hov) as Hroom. pose proof (iv_size _ _ _ HI1) as Hsz.
  rewrite ids_len in Hpos.
  pose proof (insert_law_holds P24 P24_ok (l_perm l) pos (proj2 (perm_word_wf P24 _) (iv_perm _ _ _ HI1))
    ltac:(change (pW P24) with 24; change (p_size P24 (l_perm l)) with (perm_size (l_perm l)); lia) Hpos) as HL.
  change (p_insert_from_back P24) with perm_insert_from_back in HL. rewrite Hins in HL. destruct HL as (Hpw & Ha & _).
  apply perm_word_wf in Hpw. rewrite <- !ids_active in Ha by (done || apply HI1).
  assert (Hsz' : perm_size pw = S (perm_size (l_perm l))).
  { rewrite <- !ids_len, Ha, app_length. cbn [length]. rewrite take_length, drop_length, ids_len. lia. }
  assert (Hpl : length (take pos (active_slots (l_perm l))) = pos) by (rewrite take_length, ids_len; lia).
  assert (Hin : forall s', s' ∈ active_slots pw <-> s' = s \/ s' ∈ active_slots (l_perm l)).
  { intros s'. rewrite Ha. rewrite <- (take_drop pos (active_slots (l_perm l))) at 3. rewrite !elem_of_app, elem_of_cons. tauto. }
  assert (Hlk : forall j s', active_slots pw !! j = Some s' ->
     (j < pos /\ active_slots (l_perm l) !! j = Some s') \/ (j = pos /\ s' = s) \/ (pos < j /\ active_slots (l_perm l) !! (j - 1) = Some s')).
  { intros j s' Hj. rewrite Ha in Hj. apply lookup_app_Some in Hj as [Hj|[Hge Hj]].
    - left. apply lookup_take_Some in Hj as [??]. done.
    - rewrite Hpl in *. destruct (j - pos) as [|d] eqn:Ed; [cbn in Hj; right; left; split; [lia|congruence]|].
      right; right. split; [lia|]. change (drop pos (active_slots (l_perm l)) !! d = Some s') in Hj. rewrite lookup_drop in Hj. by replace (j - 1) with (pos + d) by lia. }
  set (l2 := with_perm pw l).
  set (w2 := mk_w (set_leaf l2 (wm w1)) (<[kb := v]> (wmu w1)) (wow w1) ({[i]} ∪ wowe w1)).
  assert (HI2 : Inv w2 l2).
  { pose proof HI1 as [A1 A2 A3 A4 A5 A6 A7 A8 A9 A10 A11 A12 A13 A14 A15]. split; try done.
    - unfold lf. cbn. by rewrite lookup_insert.
    - cbn. intros s' [->|Hs']%Hin.
      + exists kb, h, v. do 5 (split; [done|]). apply lookup_insert.
      + destruct (A9 s' Hs') as (k & h' & v' & B1 & B2 & B3 & B4 & B5 & B6). exists k, h', v'.
        do 5 (split; [done|]). rewrite lookup_insert_ne; [done|]. intros <-. congruence.
    - intros k v' Hk'. cbn in Hk'. destruct (decide (k = kb)) as [->|Hne].
      + split; [done|]. exists s. split; [|done]. apply Hin. by left.
      + rewrite lookup_insert_ne in Hk' by done. destruct (A10 k v' Hk') as (B0 & s' & B1 & B2). split; [done|].
        exists s'. split; [|done]. apply Hin. by right.
    - cbn. intros s1 s2 k [->|B1]%Hin [->|B2]%Hin B3 B4; try done.
      + change (has_key l s k) in B3. change (has_key l s2 k) in B4. destruct (Hnone s2 B2). destruct B3 as [D1 D2], B4 as [D3 D4], Hh as [D5 D6]. split; congruence.
      + change (has_key l s1 k) in B3. change (has_key l s k) in B4. destruct (Hnone s1 B1). destruct B3 as [D1 D2], B4 as [D3 D4], Hh as [D5 D6]. split; congruence.
      + by apply (A11 s1 s2 k).
    - cbn. intros a b s1 s2 x1 x2 Hab B1 B2 X1 X2. destruct Hh as [E _].
      apply Hlk in B1. apply Hlk in B2.
      destruct B1 as [[? B1]|[[? ->]|[? B1]]], B2 as [[? B2]|[[? ->]|[? B2]]]; try lia.
      + by apply (A12 a b s1 s2).
      + assert (x2 = kik kb) as -> by congruence. by apply (Hord a s1).
      + apply (A12 a (b - 1) s1 s2); [lia|done..].
      + assert (x1 = kik kb) as -> by congruence. apply (Hord (b - 1) s2); [done|done|lia].
      + apply (A12 (a - 1) (b - 1) s1 s2); [lia|done..].
    - cbn. rewrite map_size_insert_None by done. rewrite size_union by (by apply disjoint_singleton_l). rewrite size_singleton. lia.
    - cbn. rewrite map_size_insert_None by done. lia. }
  exists tt, w2, l2. split.
  { pose proof (iv_lf _ _ _ HI1) as Hl. unfold lf in Hl. by rewrite Hl. }
  split; [done|]. split.
  { eapply guar_intro; [done|apply HI2| |done| |].
    - intros s' Hs'. split; [|done]. cbn. apply Hin. by right.
    - cbn. intros j Hj. rewrite Hw1. split; congruence.
    - cbn. intros j Hj. rewrite elem_of_union, elem_of_singleton. split; [by right|]. by intros [->|?]. }
  assert (Hd : after O (wmu w1) (wmu w2) (Done (AIns None))).
  { right. exists (Insert kb v), (AIns None). split; [done|]. split; [|done]. cbn. by rewrite Hov. }
  split; [by eexists|]. apply (HQ w2 l2); [|done|done]. split; [done|]. split; [done|]. cbn. apply elem_of_union. left. by apply elem_of_singleton.
Qed.

Lemma cwp_mark_insert i w l (O : places) (Q : N -> world -> places -> Prop) : own i w l ->
  Q (l_ver l) w O -> cwp i (mark_insert 2 (l_ver l)) w O Q.
Proof.
  intros (HI & Ho & _) HQ. unfold mark_insert, guard_mark_insert. pose proof (iv_ver _ _ _ HI) as Hv. rewrite Ho in Hv.
  by rewrite (vbits_inserting _ _ _ Hv).
Qed.
Lemma list_set_at (l : list N) s v : s < length l -> list_set l s v = Some (<[s := v]> l).
Proof. intros H. unfold list_set. by destruct (lookup_lt_is_Some_2 l s H) as [x ->]. Qed.

(** writing key and value into the free slot *)
Lemma cwp_assign i kb v s w l (O : places) (Q : N -> world -> places -> Prop) :
  (exists st, O st) -> own i w l -> length kb <= 8 -> s < 24 -> s ∉ active_slots (l_perm l) ->
  (forall w' l' h (O' : places), own i w' l' -> l_ver l' = l_ver l -> l_perm l' = l_perm l -> wmu w' = wmu w ->
     has_key l' s kb -> l_val l' !! s = Some h -> h <> 0%N -> vals (wm w') !! h = Some v ->
     (forall s', s' <> s -> l_ikey l' !! s' = l_ikey l !! s' /\ l_klx l' !! s' = l_klx l !! s') ->
     (forall st, O st -> O' st) -> Q (l_ver l) w' O') ->
  cwp i (assign_slot 2 (l_ver l) s (kpos kb 0) v) w O Q.
Proof.
  intros Hs Ho H8 Hs24 Hna HQ. unfold assign_slot. apply cwp_bind. eapply (cwp_new_val K); [done|done|].
  intros w1 h O1 Ho1 Hm1 Hnz Hv HO1. assert (exists st, O1 st) as Hs1 by (by eapply mono_ex).
  apply cwp_bind. apply cwp_mark_insert; [done|]. destruct (iv_len _ _ _ (proj1 Ho1)) as (L1 & L2 & L3).
  set (l2 := with_ikey (<[s := kik kb]> (l_ikey l)) l).
  apply cwp_bind. eapply (cwp_fill K i w1 l l2 s); [done|done|done| |done|done|done|done|done| | |].
  { change (k_ikey (kpos kb 0)) with (kik kb). rewrite list_set_at by lia. done. }
  { cbn. rewrite insert_length. done. }
  { intros s' Hne. cbn. by rewrite list_lookup_insert_ne. }
  intros w2 O2 Ho2 Hm2 Hv2 HO2. assert (exists st, O2 st) as Hs2 by (by eapply mono_ex).
  set (l3 := with_val (<[s := h]> (l_val l2)) l2).
  apply cwp_bind. eapply (cwp_fill K i w2 l2 l3 s); [done|done|done| |done|done|done|done|done| | |].
  { rewrite list_set_at by (cbn; lia). done. }
  { cbn. rewrite !insert_length. done. }
  { intros s' Hne. cbn. by rewrite !list_lookup_insert_ne. }
  intros w3 O3 Ho3 Hm3 Hv3 HO3. assert (exists st, O3 st) as Hs3 by (by eapply mono_ex).
  rewrite has_suffix_pos, current_len_pos. cbn [Nat.mul]. change (drop 0 kb) with kb.
  destruct (Nat.ltb_spec 8 (length kb)); [lia|].
  set (l4 := with_klx (<[s := N.of_nat (length kb)]> (l_klx l3)) l3).
  apply cwp_bind. eapply (cwp_fill K i w3 l3 l4 s); [done|done|done| |done|done|done|done|done| | |].
  { rewrite list_set_at by (cbn; lia). done. }
  { cbn. rewrite !insert_length. done. }
  { intros s' Hne. cbn. by rewrite !list_lookup_insert_ne. }
  intros w4 O4 Ho4 Hm4 Hv4 HO4. apply cwp_ret.
  apply (HQ w4 l4 h O4); try done.
  - congruence.
  - split; cbn; apply list_lookup_insert; lia.
  - cbn. apply list_lookup_insert; lia.
  - eapply lookup_weaken; [|done]. eapply lookup_weaken; [|done]. by eapply lookup_weaken.
  - intros s' Hne. cbn. by rewrite !list_lookup_insert_ne.
  - auto.
Qed.

Lemma insert_snd v pos : snd (perm_insert_from_back v pos) = perm_back v.
Proof. reflexivity. Qed.
Lemma back_free v : p_wf P24 v -> perm_size v < 24 -> perm_back v < 24 /\ perm_back v ∉ active_slots v.
Proof.
  intros Hwf Hsz. pose proof (accessor_law_holds P24 P24_ok v 0 (proj2 (perm_word_wf P24 v) Hwf)) as [Hl _].
  { change (pW P24) with 24. change (p_size P24 v) with (perm_size v). lia. }
  change (p_back P24 v) with (perm_back v) in Hl.
  assert (perm_back v ∈ SpecPerm.free P24 v) as Hf by (by apply last_Some_elem_of).
  apply perm_word_wf in Hwf as Hw. destruct Hw as (_ & _ & Hnd & Hin).
  rewrite <- (take_drop (p_size P24 v) (slots_of P24 v)) in Hnd, Hin. split.
  - apply Hin. rewrite elem_of_app. by right.
  - rewrite ids_active by done. apply NoDup_app in Hnd as (_ & Hd & _). intros Ha. by apply (Hd _ Ha).
Qed.

(** the result of the call is the one of the map operation, and the thread is done *)
Definition finished_ins (i : nat) (r : ins_res) (w : world) (O : places) : Prop :=
  wow w <> Some i /\ i ∉ wowe w /\
  match r with IOk old => O (Done (AIns old)) | IErr => False end.

Lemma cwp_insert_loop i kb v F n w (O : places) : kb ∈ K ->
  O (Pending (Insert kb v)) -> wow w <> Some i -> i ∉ wowe w ->
  cwp i (insert_loop false F n (kpos kb 0) v 2) w O (finished_ins i).
Proof.
  intros Hk Hp Hw Hi. destruct (K_in K HK kb Hk) as [Hk8 Hkb].
  destruct n as [|n]; [reflexivity|]. cbn [insert_loop].
  apply cwp_bind. apply (reads_maybe_parent K i F w O); [by eexists|]. intros r w1 l1 O1 HR1 HI1 HO1 ->.
  apply cwp_bind. apply (reads_reach K i F F 2 (k_ikey (kpos kb 0)) w1 O1); [eexists; by apply HO1|]. intros r w2 l2 O2 HR2 HI2 HO2 ->.
  apply cwp_bind. apply (reads_by_bound K i F (k_ikey (kpos kb 0)) w2 O2); [eexists; by apply HO2, HO1|].
  intros r w3 l3 O3 HR3 HI3 HO3 ->. cbv iota beta.
  assert (Rely i w w3) as HR by (eapply rely_trans; [done|]; by eapply rely_trans).
  apply cwp_bind. apply cwp_lock; [eexists; by apply HO3, HO2, HO1|by rewrite <- (rl_own _ _ _ HR)|by rewrite <- (rl_owe _ _ _ HR)|].
  intros w4 l O4 Ho4 HO4. assert (O4 (Pending (Insert kb v))) as Hp4 by auto.
  apply cwp_bind. apply (reads_next K i w4 O4); [by eexists|]. intros r w5 l5 O5 HR5 HI5 HO5 ->.
  destruct (own_rely _ _ _ _ _ _ HR5 Ho4 HI5) as (-> & Ho5 & Hm5). cbn [is_marked N.testbit].
  change (unmark_ptr 0 =? 0)%N with true. cbn iota. cbn [bind].
  apply cwp_bind.
  apply (reads_leaf K i (fun l => Some (l_perm l)) w5 O5 (fun r _ l' _ => r = l_perm l')); [eexists; by apply HO5| |].
  { intros w' l' _ _. by exists (l_perm l'). }
  intros r w6 l6 O6 HR6 HI6 HO6 ->. destruct (own_rely _ _ _ _ _ _ HR6 Ho5 HI6) as (-> & Ho6 & Hm6).
  apply cwp_bind. apply (reads_search K HK i kb w6 l O6 Hk8 Hkb); [eexists; by apply HO6, HO5|done|].
  intros r w7 l7 O7 HR7 HI7 HO7 Hf. destruct (own_rely _ _ _ _ _ _ HR7 Ho6 HI7) as (-> & Ho7 & Hm7).
  assert (O7 (Pending (Insert kb v))) as Hp7 by auto.
  destruct r as [s|pos|s|s]; cbn beta iota in Hf; try done.
  - destruct Hf as [Hs Hh].
    assert (act w7 s kb) as Hact by (exists l; split; [apply HI7|done]).
    destruct (act_val K HK w7 l s kb HI7 Hk Hact) as (h & ov & Hh1 & Hh2 & Hh3 & Hh4).
    apply cwp_bind. apply (reads_leaf K i (fun l => l_val l !! s) w7 O7 (fun r _ l' _ => r = h)); [by eexists| |].
    { intros w' l' HR' HI'. destruct (own_rely _ _ _ _ _ _ HR' Ho7 HI') as (-> & _). by exists h. }
    intros r w8 l8 O8 HR8 HI8 HO8 ->. destruct (own_rely _ _ _ _ _ _ HR8 Ho7 HI8) as (-> & Ho8 & Hm8).
    apply N.eqb_neq in Hh2. rewrite Hh2.
    pose proof (lookup_weaken _ _ _ _ Hh3 (rl_vals _ _ _ HR8)) as Hh5.
    apply cwp_bind.
    apply (reads_load K i _ w8 O8 (fun r _ _ _ => r = ov)); [eexists; by apply HO8| |].
    { intros w' l' HR' HI'. exists ov. split; [|done]. by rewrite (lookup_weaken _ _ _ _ Hh5 (rl_vals _ _ _ HR')). }
    intros r w9 l9 O9 HR9 HI9 HO9 ->. destruct (own_rely _ _ _ _ _ _ HR9 Ho8 HI9) as (-> & Ho9 & Hm9).
    apply cwp_bind. eapply (cwp_new_val K); [eexists; by apply HO9, HO8|done|].
    intros w10 h' O10 Ho10 Hm10 Hnz' Hv' HO10. apply cwp_bind. apply cwp_mark_insert; [done|].
    apply cwp_bind. eapply (cwp_replace i kb v ov s h' w10 l); [auto|done..| |].
    { by rewrite Hm10, Hm9, Hm8. }
    intros w11 l11 O11 Ho11 <- Hd. apply cwp_bind. eapply cwp_unlock; [by eexists|done|].
    intros w12 l12 O12 HI12 Hw12 Hi12 HO12. apply cwp_bind. apply cwp_retire; [eexists; by apply HO12|done|done|].
    intros w13 l13 O13 HI13 Hw13 Hi13 HO13. apply cwp_ret. split; [done|]. split; [done|]. by auto.
  - assert (wmu w7 !! kb = None) as Hnone.
    { destruct (wmu w7 !! kb) as [v'|] eqn:E; [|done]. destruct (iv_map _ _ _ HI7 kb v' E) as (_ & s & Hs & Hh).
      destruct Hf as (_ & Hf & _). by destruct (Hf s Hs). }
    pose proof (room w7 l kb HI7 Hk Hnone) as Hroom. rewrite <- (iv_size _ _ _ HI7) in Hroom.
    cbv zeta. destruct (Nat.leb_spec WIDTH (perm_size (l_perm l))) as [Hle|_]; [unfold WIDTH in Hle; lia|].
    destruct (back_free (l_perm l) (iv_perm _ _ _ HI7) Hroom) as [Hb24 Hbf].
    apply cwp_bind.
    assert (Hre : reads i (if Nat.eqb (perm_back (l_perm l)) 0 then can_reuse_slot0 2 (k_ikey (kpos kb 0)) else Ret true) w7 O7
              (fun r _ _ _ => r = true)).
    { destruct (Nat.eqb (perm_back (l_perm l)) 0); [|by eapply reads_ret].
      unfold can_reuse_slot0. eapply reads_bind; [apply reads_prev; by eexists|]. intros r w' l' O' HR' HI' HO' ->.
      cbn. by eapply reads_ret. }
    apply Hre. intros r w8 l8 O8 HR8 HI8 HO8 ->. destruct (own_rely _ _ _ _ _ _ HR8 Ho7 HI8) as (-> & Ho8 & Hm8).
    apply cwp_bind. eapply (cwp_assign i kb v); [eexists; by apply HO8|done..|].
    intros w9 l9 h O9 Ho9 Hver9 Hp9 Hm9 Hh9 Hv9 Hnz9 Hvv9 Hsame HO9.
    destruct (perm_insert_from_back (l_perm l) pos) as [np al] eqn:Eins.
    assert (al = perm_back (l_perm l)) as -> by (pose proof (insert_snd (l_perm l) pos) as E; by rewrite Eins in E).
    rewrite Nat.eqb_refl. cbn [bind]. rewrite <- Hver9. apply cwp_bind.
    eapply (cwp_add i kb v pos (perm_back (l_perm l)) h w9 l9 np); [auto|done..| | |by rewrite Hp9|by rewrite Hp9|].
    { destruct Hf as (F1 & F2 & F3). unfold found. rewrite Hp9. split; [done|].
      assert (Hne : forall s, s ∈ active_slots (l_perm l) -> s <> perm_back (l_perm l)) by (intros s Hs ->; exact (Hbf Hs)).
      split.
      - intros s Hs [E1 E2]. destruct (Hsame s (Hne s Hs)) as [S1 S2]. apply (F2 s Hs). split; congruence.
      - intros j s x Hj. destruct (Hsame s) as [-> _]; [apply Hne; by eapply elem_of_list_lookup_2|]. by apply F3. }
    { by rewrite Hm9, Hm8. }
    intros w10 l10 O10 Ho10 <- Hd. apply cwp_bind. eapply cwp_unlock_owe; [by eexists|done|].
    intros w11 l11 O11 HI11 Hw11 Hi11 HO11. apply cwp_bind. apply (cwp_inc K HK); [eexists; by apply HO11|done|done|].
    intros w12 l12 O12 HI12 Hw12 Hi12 HO12. apply cwp_ret. split; [done|]. split; [done|]. by auto.
Qed.
End K.
