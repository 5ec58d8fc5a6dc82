(** Concurrent executions on the whole tree: [insert], given what a leaf split does. *)
From Verif Require Import Base Perm PermFacts PermList PermLaws SpecPerm Key SpecKey KeyFacts Prog Version VersionFacts Mem Tree
  SpecTree TreeState TreeRead TreeTop SpecLin SpecConc ConcVar Suffix SpecSuffix SuffixFacts Conc ConcStep ConcRules ConcRead ConcPar ConcMem ConcOwn ConcBag ConcLeaf.
From Verif Require LinRead LinWrite LinInsert.

(** inside [insert]: with no lock, and with one leaf locked *)
Definition idle : ls := L ∅ ∅ ∅ ∅ ∅ ∅ ∅ ∅.
Definition held (p : N) (l : leaf) (hs : gset N) : ls := L (<[p := NLeaf l]> ∅) hs ∅ ∅ ∅ ∅ ({[p]} ∪ ∅) ∅.
Lemma mono_vis w w' p k : Mono w w' -> vis w p k -> vis w' p k.
Proof. apply vis_mono. Qed.

Lemma at_held_back i hs tp zs pe w p n : At i (L (delete p (<[p := n]> ∅)) hs ∅ ∅ ∅ pe tp zs) w -> At i (L ∅ hs ∅ ∅ ∅ ∅ ∅ ∅) w.
Proof.
  intros A. rewrite delete_insert in A by apply lookup_empty. eapply at_weaken; [exact A|apply map_empty_subseteq|apply empty_subseteq|apply empty_subseteq].
Qed.
Lemma cwp_unlock_leaf i hs w p l rt (Q : unit -> world -> Prop) : At i (held p l hs) w -> p ∈ wpub w -> leaf_good l -> spl l = false ->
  vbits (l_ver l) MIns rt true -> (forall w', At i (L ∅ hs ∅ ∅ ∅ ∅ ∅ ∅) w' -> Mono w w' -> Q tt w') -> cwp i (unlock p (l_ver l)) w Q.
Proof.
  intros A0 Hpub Hg Hsp Hv HQ. unfold held in A0.
  eapply (cwp_release i _ _ _ _ _ _ _ w p (NLeaf l) _ MIns rt); [exact A0|by rewrite lookup_insert|by apply not_elem_of_empty|done|done|done| | | |].
  - intros w1 M1 A1. split; [apply elem_of_union_l; by apply elem_of_singleton|]. split; [done|].
    pose proof (at_leaf_ok _ _ _ p l A1 (lookup_insert _ _ _)) as Hok. by apply (lo_frz _ _ _ Hok).
  - intros w1 M1 A1. by apply M1.
  - intros w1 M1 A1 Hr. cbn. destruct (iv_root _ (at_inv _ _ _ A1)) as (nr & R1 & _ & R3 & _).
    destruct (at_here _ _ _ p (NLeaf l) A1 (lookup_insert _ _ _)) as (_ & pv & pa & Hp). rewrite Hr, Hp in R1. injection R1 as <-.
    cbn in R3. by rewrite (vbits_rootf _ _ _ _ Hv) in R3.
  - intros w' A1 M1. apply HQ; [by eapply at_held_back|done].
Qed.

Lemma good_val l s h : leaf_good l -> s ∈ actv l -> leaf_good (with_val (<[s := h]> (l_val l)) l).
Proof.
  intros [A1 A2 A3 A4 A5] Hs. split; try done. intros s' Hlt Hn. cbn. rewrite list_lookup_insert_ne; [by apply A3|]. intros ->. done.
Qed.
Lemma cwp_ins_found i w p l rt s kb v (Q : ins_res -> world -> Prop) : At i (held p l ∅) w -> p ∈ wpub w -> leaf_good l -> spl l = false ->
  vbits (l_ver l) MIns rt true -> (kb, v) ∈ wcalled w -> s ∈ actv l -> has_key l s kb ->
  (forall w' ov, At i idle w' -> Mono w w' -> (kb, ov) ∈ wcalled w' -> Q (IOk (Some ov)) w') -> forall (R : P ins_res),
  cwp i (old <- val_ptr p s ;;
          if (old =? 0)%N then R
          else
            ov <- output_from_raw old ;;
            h <- output_to_raw v ;;
            lv <- mark_insert p (l_ver l) ;;
            set_val_ptr p s h ;;;
            unlock p lv ;;;
            retire (GVal old) ;;;
            Ret (IOk (Some ov))) w Q.
Proof.
  intros A0 Hpub Hg Hsp Hv Hcall Hs Hk HQ R.
  assert (Hp : nl (held p l ∅) !! p = Some (NLeaf l)) by apply lookup_insert.
  pose proof (at_leaf_ok _ _ _ _ _ A0 Hp) as Hok.
  destruct (slot_key w l s (at_inv _ _ _ A0)) as (k & v0 & h & Hh & Hval & Hnz & Htag & Hsx & Hkb & Hkc).
  { by apply (lo_tag _ _ _ Hok (lo_frz _ _ _ Hok Hsp)). }
  assert (k = kb) as ->.
  { destruct Hh as [E1 E2], Hk as [E3 E4]. rewrite E1 in E3. injection E3 as E3. rewrite E2 in E4. injection E4 as E4.
    by apply (iv_same _ (at_inv _ _ _ A0) k v0 kb v). }
  apply cwp_bind. eapply (cwp_rleaf _ _ _ _ _ _ h); [exact A0|done|intros; exact Hval|]. intros w1 A1 R1.
  pose proof (proj2 (N.eqb_neq _ _) Hnz) as ->.
  pose proof (at_leaf_ok _ _ _ _ _ A1 Hp) as Hok1. pose proof (lo_val _ _ _ Hok1 s h (lptrs_val _ _ _ Hval) Hnz) as Hpl.
  pose proof (mo_tag _ _ (rl_mono _ _ _ R1) _ _ Htag) as Htag1.
  apply cwp_bind. eapply (cwp_rd i _ _ w1 (fun x _ => x = v0)); [exact A1| |].
  { unfold output_from_raw. apply reads_load. intros w' R' I'. pose proof (at_rely _ _ _ _ R' I' A1) as A'.
    pose proof (lo_val _ _ _ (at_leaf_ok _ _ _ _ _ A' Hp) s h (lptrs_val _ _ _ Hval) Hnz) as Hpl'.
    pose proof (mo_tag _ _ (rl_mono _ _ _ R') _ _ Htag1) as Htag'.
    destruct (val_there w' h I') as [x Hx]; [by eexists|by eexists|]. rewrite Hx. exists x. split; [done|].
    destruct (iv_tag _ I' h x Hx) as [k' Hk']. congruence. }
  intros x w2 A2 R2 ->. assert (Mono w w2) as M2 by (eapply mono_trans; [apply R1|apply R2]).
  apply cwp_bind. eapply (cwp_new_val i); [exact A2|by apply M2|]. intros h' w3 A3 M3 Ht3 Hnz' Hnh _.
  apply cwp_bind. unfold mark_insert, guard_mark_insert. rewrite (vbits_inserting _ _ _ Hv). apply cwp_ret.
  assert (Hs24 : s < 24) by (by apply (actv_lt l s (lg_perm _ Hg))).
  destruct (lo_len _ _ _ Hok) as (L1 & L2 & L3).
  apply cwp_bind. set (l2 := with_val (<[s := h']> (l_val l)) l).
  eapply (cwp_swap i _ _ _ _ _ _ _ _ w3 p l s h' h); [exact A3|apply lookup_insert|done| | | |].
  { right. split; [apply elem_of_union_l; by apply elem_of_singleton|by eexists]. }
  { intros m pv pa E. rewrite E. cbn [rep with_prev with_parent l_val]. rewrite LinInsert.list_set_at by lia. done. }
  { intros w4 M4 A4 Hfr _. exists kb, v, h'. split; [exact Hk|]. split; [cbn; rewrite list_lookup_insert; [done|lia]|]. split; [done|]. split; [by apply M4|].
    intros H8. pose proof (at_leaf_ok _ _ _ p l A4 (lookup_insert _ _ _)) as Hok4.
    destruct (lo_tag _ _ _ Hok4 Hfr s Hs) as (k4 & v4 & h4 & D1 & D2 & D3 & D4 & D5).
    assert (h4 = h) as -> by congruence. assert (Mono w w4) as Mw4 by (eapply mono_trans; [exact M2|by eapply mono_trans]).
    pose proof (mo_tag _ _ Mw4 _ _ Htag) as Ht4. rewrite Ht4 in D4. injection D4 as <- <-. by apply D5. }
  intros w4 A4 M4. rewrite insert_insert in A4. fold l2 in A4.
  assert (hmove h' h ({[h']} ∪ ∅) = {[h]}) as E.
  { unfold hmove. rewrite decide_False by done. apply set_eq. intros y. rewrite elem_of_union, elem_of_difference, elem_of_union, !elem_of_singleton.
    split; [|tauto]. intros [[[?|Hy] ?]|?]; [done|by apply not_elem_of_empty in Hy|done]. }
  rewrite E in A4. assert (Mono w w4) as M04 by (eapply mono_trans; [exact M2|by eapply mono_trans]).
  apply cwp_bind. change (l_ver l) with (l_ver l2). eapply (cwp_unlock_leaf i {[h]} w4 p l2 rt); [exact A4|by apply M04|by apply good_val|done|done|].
  intros w5 A5 M5. apply cwp_bind. eapply (cwp_retire i _ _ _ _ _ _ _ _ w5 (GVal h)); [exact A5|by apply elem_of_singleton| |].
  { cbn. eexists. apply (mo_tag _ _ M5), (mo_tag _ _ M04), Htag. }
  intros w6 A6 M6. apply cwp_ret.
  rewrite difference_diag_L in A6. assert (Mono w4 w6) as M46 by (by eapply mono_trans).
  apply HQ; [exact A6|by eapply mono_trans|]. apply M46. eapply mo_called; [|apply (iv_called _ (at_inv _ _ _ A1) h), Htag1].
  eapply mono_trans; [apply R2|by eapply mono_trans].
Qed.

(** publishing the new slot *)
Lemma cwp_ins_finish i w p l rt pos kb v s perm' np w0 (Q : ins_res -> world -> Prop) : At i (held p l ∅) w0 -> leaf_good l -> spl l = false ->
  vbits (l_ver l) MIns rt true -> p ∈ wpub w -> found l kb (NotFound pos) -> s < 24 -> s ∉ actv l ->
  active_slots perm' = actv l -> perm_insert_from_back perm' pos = (np, s) -> p_wf P24 np ->
  active_slots np = take pos (actv l) ++ s :: drop pos (actv l) -> forall h b,
  At i (held p (filled l s kb h b) ∅) w -> h <> 0%N -> wtag w !! h = Some (kb, v) -> (8 < length kb -> sfx w (filled l s kb h b) s = Some (drop 8 kb)) ->
  (forall w', At i idle w' -> Mono w w' -> Q (IOk None) w') ->
  cwp i (let '(np, al) := perm_insert_from_back perm' pos in
         (if Nat.eqb al s then Ret tt else Fail Panic) ;;; set_permutation p np ;;; unlock p (l_ver l) ;;; inc_count ;;; Ret (IOk None)) w Q.
Proof.
  intros A0 Hg Hsp Hv Hpub Hf Hs24 Hs Ha Hpi Hwf Hnp h b A1 Hnz Htag Hsx HQ.
  destruct (lo_len _ _ _ (at_leaf_ok _ _ _ p l A0 (lookup_insert _ _ _))) as (L1 & L2 & L3).
  rewrite Hpi, Nat.eqb_refl. apply cwp_bind, cwp_ret, cwp_bind.
  set (l1 := filled l s kb h b) in *. set (l2 := with_perm np l1).
  assert (Hin : forall s', s' ∈ actv l2 <-> s' = s \/ s' ∈ actv l).
  { intros s'. unfold actv at 1. cbn [l_perm l2 with_perm]. rewrite Hnp. rewrite <- (take_drop pos (actv l)) at 3. rewrite !elem_of_app, elem_of_cons. tauto. }
  assert (Hks : has_key l2 s kb) by (split; cbn; rewrite list_lookup_insert; try done; lia).
  eapply (cwp_wleaf_r i _ _ _ _ _ _ _ _ w p l1 l2); [exact A1|apply lookup_insert|by apply not_elem_of_empty|right; exact (vbits_lockedf _ _ _ _ Hv)|done| | |].
  { intros pv pa. done. }
  { intros w1 R1 Hsb1 A1' Hok. pose proof Hok as [B1 B2 B3 B4 B5 B6 B7 B8 B9 B10 B11]. split; try done.
    - intros _. by apply (wf_not_frozen _ Hwf).
    - intros _ s' [->|Hs2]%Hin.
      + exists kb, v, h. split; [done|]. split; [cbn; rewrite list_lookup_insert; [done|lia]|]. split; [done|]. split; [by apply (rl_mono _ _ _ R1)|].
        intros H8. rewrite <- (Hsx H8). symmetry. unfold sfx. cbn [l2 with_perm l_ksuf]. by rewrite (Hsb1 p l1 (lookup_insert _ _ _)).
      + eapply (slot_ok_eq w1); [..|apply (B11 (B10 Hsp) s' Hs2)]; done.
    - intros Hs'. split; [done|]. intros s' Hs2. split; [|done]. apply Hin. by right. }
  intros w1 A2 M1 _. rewrite insert_insert in A2. apply cwp_bind.
  change (l_ver l) with (l_ver l2).
  assert (leaf_good l2) as Hg2.
  { apply (leaf_good_add l l2 kb pos s); try done. intros s' Hne. cbn. by rewrite !list_lookup_insert_ne. }
  eapply (cwp_unlock_leaf i ∅ w1 p l2 rt); [exact A2|by apply M1|done|done|done|].
  intros w2 A3 M2. apply cwp_bind. eapply cwp_inc; [exact A3|]. intros w3 A4 M3. apply cwp_ret, HQ; [exact A4|].
  eapply mono_trans; [exact M1|by eapply mono_trans].
Qed.

Definition ins_post (i : nat) (kb : bytes) (r : ins_res) (w : world) : Prop := At i idle w /\
  match r with IOk (Some ov) => (kb, ov) ∈ wcalled w | IOk None => True | IErr => False end.
(** what a leaf split does *)
Definition splits (i F : nat) : Prop := forall w p l rt ik, At i (held p l ∅) w -> vis w p 0 -> leaf_good l -> spl l = false ->
  vbits (l_ver l) MIns rt true -> 23 <= perm_size (l_perm l) ->
  cwp i (handle_leaf_split false F p (l_ver l) ik) w (fun b w' => b = true /\ At i idle w' /\ Mono w w').

Lemma back_free v : p_wf P24 v -> perm_size v < 24 -> perm_back v < 24 /\ perm_back v ∉ active_slots v.
Proof. apply (LinInsert.back_free []). cbn. lia. Qed.
Section Ins.
Context (i : nat) (kb : bytes) (v : N) (F : nat) (Hb : is_bytes kb) (HS : splits i F).
Lemma cwp_insert_loop n r w : At i idle w -> (kb, v) ∈ wcalled w -> (exists k, vis w r k) ->
  cwp i (insert_loop_v F n (kpos kb 0) v r) w (ins_post i kb).
Proof.
  revert r w. induction n as [|n IH]; intros r w A0 Hcall [k Hvis]; [by left|]. cbn [insert_loop_v].
  assert (HIH : forall r w', At i idle w' -> Mono w w' -> (exists k, vis w' r k) -> cwp i (insert_loop_v F n (kpos kb 0) v r) w' (ins_post i kb)).
  { intros r' w' A' M' Hr. apply IH; [done|by apply M'|done]. }
  clear IH. apply cwp_bind. eapply (cwp_rd i); [exact A0|by eapply reads_maybe_parent|]. intros r1 w1 A1 R1 [k1 V1].
  apply cwp_bind. eapply (cwp_rd i); [exact A1|by eapply reads_reach|]. intros p0 w2 A2 R2 V2.
  apply cwp_bind. eapply (cwp_rd i); [exact A2|by apply reads_by_bound|]. intros [p exc] w3 A3 R3 V3. cbn [fst] in V3.
  assert (M03 : Mono w w3) by (eapply mono_trans; [apply R1|eapply mono_trans; [apply R2|apply R3]]).
  assert (V13 : vis w3 r1 k1) by (eapply vis_mono; [|exact V1]; eapply mono_trans; [apply R2|apply R3]).
  destruct exc.
  { apply cwp_bind. eapply (cwp_rd i); [exact A3|apply (reads_root i w3 (fun r w' => exists k, vis w' r k)); by eauto|].
    intros r4 w4 A4 R4 V4. apply HIH; [done| |done]. eapply mono_trans; [exact M03|apply R4]. }
  assert (Hnas : p ∉ wnas w3).
  { intros Hq. destruct (iv_nas _ (at_inv _ _ _ A3) p Hq) as (j & x & _ & Hx & _). destruct V3 as [_ V]. unfold lev in V. by rewrite Hx in V. }
  apply cwp_bind. eapply cwp_lock; [exact A3|apply V3|done|apply V3|].
  intros w4 nd rt A4 M4 Hlev Hh Hlk _ Hv. destruct nd as [l|x]; [|done]. cbn [add_kids nver nleaf locked_node] in *.
  change (At i (held p l ∅) w4) in A4. rename Hlk into Hg.
  assert (M04 : Mono w w4) by (by eapply mono_trans).
  pose proof (vis_mono _ _ _ _ M4 V3) as V4. pose proof (vis_mono _ _ _ _ M4 V13) as V14.
  assert (Hsp : spl l = false) by (unfold spl; by rewrite (vbits_splitting _ _ _ _ Hv)).
  assert (Hp : nl (held p l ∅) !! p = Some (NLeaf l)) by apply lookup_insert.
  apply cwp_bind. eapply (cwp_rleaf i _ _ _ _ _ (l_next l)); [exact A4|done|done|]. intros w5 A5 R5. rewrite (lg_next _ Hg).
  assert (Hretry : forall w', At i (held p l ∅) w' -> Mono w4 w' ->
    cwp i (unlock p (l_ver l) ;;; insert_loop_v F n (kpos kb 0) v r1) w' (ins_post i kb)).
  { intros w' A' M'. apply cwp_bind. eapply (cwp_unlock_leaf i ∅ w' p l rt); [exact A'|apply M', V4|done|done|done|].
    intros w'' A'' M''. apply HIH; [done|eapply mono_trans; [exact M04|by eapply mono_trans]|]. exists k1. eapply vis_mono; [exact M''|]. by eapply vis_mono. }
  apply cwp_bind. eapply (cwp_rd i _ _ w5 (fun _ _ => True)); [exact A5| |].
  { destruct (unmark_ptr (l_next l) =? 0)%N eqn:En; [by apply reads_ret; [apply A5|]|].
    eapply reads_bind.
    - apply (reads_ikey i _ 0); [|lia]. apply N.eqb_neq in En. pose proof (lo_next _ _ _ (at_leaf_ok _ _ _ _ _ A5 Hp)) as Hn. by destruct (ptr_vis _ _ _ Hn En).
    - intros nb w' R' I' _. by apply reads_ret. }
  intros moved w6 A6 R6 _. destruct moved.
  { apply Hretry; [done|]. eapply mono_trans; [apply R5|apply R6]. }
  apply cwp_bind. eapply (cwp_rleaf i _ _ _ _ _ (l_perm l)); [exact A6|done|done|]. intros w7 A7 R7.
  apply cwp_bind. eapply (cwp_search i _ w7 p l kb v); [exact A7|done|done|done| |done|].
  { apply (rl_mono _ _ _ R7), (rl_mono _ _ _ R6), (rl_mono _ _ _ R5), M04, Hcall. } intros sr w8 A8 R8 Hf.
  assert (M48 : Mono w4 w8) by (eapply mono_trans; [apply R5|eapply mono_trans; [apply R6|eapply mono_trans; [apply R7|apply R8]]]).
  assert (M08 : Mono w w8) by (by eapply mono_trans). pose proof (vis_mono _ _ _ _ M48 V4) as V8. pose proof (vis_mono _ _ _ _ M48 V14) as V18.
  destruct sr as [s|pos|s|s]; [| |by destruct Hf..].
  { destruct Hf as [Hs Hk]. eapply (cwp_ins_found i w8 p l rt s kb v); [exact A8|apply V8|done|done|done|by apply M08|done|done|].
    intros w' ov A' M' Hov. by split. }
  assert (Hsplit : 23 <= perm_size (l_perm l) -> forall w', At i (held p l ∅) w' -> Mono w8 w' ->
    cwp i (ok <- handle_leaf_split false F p (l_ver l) (k_ikey (kpos kb 0)) ;;
            if ok : bool then insert_loop_v F n (kpos kb 0) v r1 else Ret IErr) w' (ins_post i kb)).
  { intros Hsz w' A' M'. apply cwp_bind. eapply cwp_mono; [eapply HS; [exact A'|by eapply vis_mono|done|done|exact Hv|done]|].
    intros b w'' (-> & A'' & M''). apply HIH; [done|eapply mono_trans; [exact M08|by eapply mono_trans]|].
    exists k1. eapply vis_mono; [exact M''|]. by eapply vis_mono. }
  cbv zeta. destruct (Nat.leb_spec WIDTH (perm_size (l_perm l))) as [Hw|Hw]; [apply Hsplit; [unfold WIDTH in Hw; lia|done|apply mono_refl]|].
  unfold WIDTH in Hw. pose proof (lg_perm _ Hg) as Hwf. destruct (back_free _ Hwf Hw) as [Hb24 Hbf].
  assert (Hpos : pos <= perm_size (l_perm l)) by (destruct Hf as (Hp' & _); unfold actv in Hp'; by rewrite ids_len in Hp').
  (* the slot [s] is taken *)
  assert (Htake : forall w' s perm', At i (held p l ∅) w' -> Mono w8 w' -> s < 24 -> s ∉ actv l -> active_slots perm' = actv l -> p_wf P24 perm' ->
    perm_size perm' = perm_size (l_perm l) -> perm_back perm' = s ->
    cwp i (lv <- assign_slot p (l_ver l) s (kpos kb 0) v ;;
           let '(np, al) := perm_insert_from_back perm' pos in
           (if Nat.eqb al s then Ret tt else Fail Panic) ;;; set_permutation p np ;;; unlock p lv ;;; inc_count ;;; Ret (IOk None)) w' (ins_post i kb)).
  { intros w' s perm' A' M' Hs24 Hs Ha Hwf' Hsz' Hback. destruct (perm_add perm' pos Hwf') as (pw & Hpi & Hpw & Hpa); [lia|lia|].
    rewrite Hback in Hpi, Hpa. rewrite Ha in Hpa. apply cwp_bind.
    eapply (cwp_assign i _ _ _ _ _ _ _ _ w' p l (l_ver l) kb v s); [exact A'|apply lookup_insert|by apply not_elem_of_empty|exact (vbits_lockedf _ _ _ _ Hv)|exact (vbits_inserting _ _ _ Hv)|done| |done|done|by apply Hg|].
    { apply M'. by apply M08. }
    intros w'' h b A'' M'' Hnz Ht Hsx. rewrite insert_insert in A''.
    eapply (cwp_ins_finish i w'' p l rt pos kb v s perm' pw w'); [exact A'|done|done|done| |done|done|done|done|done|done|done|exact A''|done|done|done|].
    - apply M'', M', V8.
    - intros w3' A3' M3'. by split. }
  destruct (Nat.eqb_spec (perm_back (l_perm l)) 0) as [Ez|Ez].
  2:{ apply cwp_bind, cwp_ret. apply Htake; try done. apply mono_refl. }
  apply cwp_bind. eapply (cwp_rd i _ _ w8 (fun _ _ => True)); [exact A8| |].
  { unfold can_reuse_slot0. eapply (reads_bind _ _ _ _ (fun _ _ => True)); [apply reads_leaf; [apply V8|]|].
    - intros w' l' R' I' H' _. exists (l_prev l'). split; [done|]. exact I.
    - intros pv w' R' I' _. destruct (pv =? 0)%N; [by apply reads_ret|]. eapply reads_bind.
      + apply (reads_ikey i _ 0); [|lia]. apply R', V8.
      + intros y w'' R'' I'' _. by apply reads_ret. }
  intros reuse w9 A9 R9 _. destruct reuse.
  { apply Htake; try done. apply R9. }
  destruct (find_alt (l_perm l) (seq 1 (WIDTH - perm_size (l_perm l) - 1))) as [[alt off]|] eqn:Ealt.
  - destruct (find_alt_some _ _ _ _ Ealt) as [Hoff ->]. apply elem_of_seq in Hoff. unfold WIDTH in Hoff.
    destruct (swap_facts (l_perm l) off Hwf Hw ltac:(lia)) as (S1 & S2 & S3 & S4 & S5).
    destruct (back_free _ S1 ltac:(lia)) as [Hb24' Hbf']. rewrite S4 in Hb24', Hbf'. unfold WIDTH in *.
    apply (Htake w9 (perm_back_at_offset (l_perm l) off) _ A9 (rl_mono _ _ _ R9)); try done. unfold actv. by rewrite <- S2.
  - apply Hsplit; [|done|apply R9]. destruct (decide (23 <= perm_size (l_perm l))) as [|Hlt]; [done|exfalso].
    pose proof (find_alt_none _ _ Ealt 1) as Hz. assert (1 ∈ seq 1 (WIDTH - perm_size (l_perm l) - 1)) as Hin by (apply elem_of_seq; unfold WIDTH; lia).
    specialize (Hz Hin). destruct (swap_facts (l_perm l) 1 Hwf Hw ltac:(lia)) as (_ & _ & _ & _ & S5). congruence.
Qed.
End Ins.
