(** Telling the ancestors about a split. *)
From Verif Require Import Base Perm Key Prog Version Mem Tree TreeState TreePrim TreeInv TreeRead TreeSplit TreeSkel TreeInode.

(** ** changes that keep the leaves *)
Definition nsim (n n' : anode) : Prop :=
  g_lid (a_gh n') = g_lid (a_gh n) /\ g_pre (a_gh n') = g_pre (a_gh n) /\
  match a_bd n with
  | BLeaf L => a_bd n' = BLeaf L /\ g_lo (a_gh n') = g_lo (a_gh n) /\ g_hi (a_gh n') = g_hi (a_gh n)
  | BInode J => exists J', a_bd n' = BInode J' /\ ib_ht J' = ib_ht J
  end.
Record lsame (A A' : gmap N anode) : Prop := {
  la_f : forall x n, A !! x = Some n -> exists n', A' !! x = Some n' /\ nsim n n';
  la_b : forall x n', A' !! x = Some n' -> is_leafb (a_bd n') = true -> exists n, A !! x = Some n /\ nsim n n' }.
Lemma nsim_refl n : nsim n n.
Proof. split; [done|]. split; [done|]. destruct (a_bd n); eauto. Qed.
Lemma nsim_trans a b c : nsim a b -> nsim b c -> nsim a c.
Proof.
  intros (A1 & A2 & A3) (B1 & B2 & B3). split; [congruence|]. split; [congruence|]. destruct (a_bd a) as [L|J].
  - destruct A3 as (A3 & A4 & A5). rewrite A3 in B3. destruct B3 as (B3 & B4 & B5). split; [done|]. split; congruence.
  - destruct A3 as (J' & A3 & A4). rewrite A3 in B3. destruct B3 as (J'' & B3 & B4). exists J''. split; congruence.
Qed.
Lemma lsame_refl A : lsame A A.
Proof. split; eauto using nsim_refl. Qed.
Lemma nsim_leaf n n' : nsim n n' -> is_leafb (a_bd n') = is_leafb (a_bd n).
Proof. intros (_ & _ & H). destruct (a_bd n); [by destruct H as (-> & _)|by destruct H as (J' & -> & _)]. Qed.
Lemma lsame_trans A B C : lsame A B -> lsame B C -> lsame A C.
Proof.
  intros [F1 G1] [F2 G2]. split.
  - intros x n Hx. destruct (F1 x n Hx) as (n' & H1 & H2). destruct (F2 x n' H1) as (n'' & H3 & H4). eauto using nsim_trans.
  - intros x n Hx Hl. destruct (G2 x n Hx Hl) as (n' & H1 & H2).
    destruct (G1 x n' H1) as (n'' & H3 & H4); [by rewrite <- (nsim_leaf _ _ H2)|]. eauto using nsim_trans.
Qed.
Lemma nsim_vsim n n' : nsim n n' -> vsim (skel n) (skel n').
Proof.
  intros (H1 & H2 & H3). unfold skel. split; cbn; try done.
  - unfold lvl. cbn. destruct (a_bd n); [by destruct H3 as (-> & _)|]. destruct H3 as (J' & -> & E). by rewrite E.
  - unfold lvl. cbn. destruct (a_bd n); [|done]. destruct H3 as (-> & E3 & E4). done.
Qed.
Lemma lvl_skel n : lvl (skel n) = 0 <-> is_leafb (a_bd n) = true.
Proof. unfold lvl, skel. cbn. by destruct (a_bd n). Qed.
Lemma lsame_leafsame A A' : lsame A A' -> leafsame (skels A) (skels A').
Proof.
  intros [F G]. split.
  - intros x a Hx. apply skels_some in Hx as (n & Hn & ->). destruct (F x n Hn) as (n' & H1 & H2).
    exists (skel n'). split; [by apply skels_lookup|by apply nsim_vsim].
  - intros x a Hx Hv. apply skels_some in Hx as (n & Hn & ->). apply lvl_skel in Hv. destruct (G x n Hn Hv) as (n' & H1 & H2).
    exists (skel n'). split; [by apply skels_lookup|by apply nsim_vsim].
Qed.
Lemma inv_lsame K B s s' pl pr pl' pr' : Inv K B s pl pr -> SInv (skels (sA s')) (sR s') pl' pr' -> lsame (sA s) (sA s') ->
  sV s' = sV s -> Inv K B s' pl' pr'.
Proof.
  intros [I1 I2] HS HL HV. split; [done|]. intros p g md rt pa L Hp.
  destruct (la_b _ _ HL p _ Hp eq_refl) as (n & Hn & Hs). destruct n as [g0 md0 rt0 pa0 [L0|J0]].
  - destruct Hs as (E1 & E2 & E3 & E4 & E5). cbn in *. injection E3 as ->. rewrite HV.
    eapply (same_leaf_ok _ _ _ _ _ I1 (lsame_leafsame _ _ HL)); [exact (skels_lookup _ _ _ Hn)|done|done|done|]. by eapply I2.
  - destruct Hs as (_ & _ & J' & E & _). done.
Qed.
Definition envsame (s s' : ast) : Prop := sC s' = sC s /\ sV s' = sV s /\ sfv s' = sfv s /\ sfn s' = sfn s.
Lemma envsame_trans a b c : envsame a b -> envsame b c -> envsame a c.
Proof. intros (A1 & A2 & A3 & A4) (B1 & B2 & B3 & B4). unfold envsame. split; [congruence|]. split; [congruence|]. split; congruence. Qed.

(** ** new internodes *)
Definition new_inode (h : nat) : ibody := mk_ibody 0 h (repeat 0%N 15) (repeat 0%N 16).
Lemma inode_new_rel g md rt bgs v h : vbits v md rt false -> node_rel bgs (NInode (inode_new v h)) (ND g md rt 0%N (new_inode h)).
Proof. intros Hv. split; [exact Hv|]. split; [done|]. by split. Qed.
Definition root_body (h : nat) (l r sk : N) : ibody :=
  mk_ibody 1 h (<[0 := sk]> (repeat 0%N 15)) (<[1 := r]> (<[0 := l]> (repeat 0%N 16))).
Lemma wp_fill_root {R} m s w g md rt pa h l r sk (k : P R) Q : St m (setA w (ND g md rt pa (new_inode h)) s) ->
  (forall m', St m' (setA w (ND g md rt pa (root_body h l r sk)) s) -> wp k m' Q) ->
  wp (set_child w 0 l ;;; set_inode_ikey w 0 sk ;;; set_child w 1 r ;;; set_nkeys w 1 ;;; k) m Q.
Proof.
  intros HS HQ.
  apply wp_bind. eapply wp_set_child; [exact HS|apply setA_lookup|lia|]. intros m1 H1. rewrite setA_setA in H1.
  apply wp_bind. eapply wp_set_inode_ikey; [exact H1|apply setA_lookup|lia|]. intros m2 H2. rewrite setA_setA in H2.
  apply wp_bind. eapply wp_set_child; [exact H2|apply setA_lookup|lia|]. intros m3 H3. rewrite setA_setA in H3.
  apply wp_bind. eapply wp_set_nkeys; [exact H3|apply setA_lookup|]. intros m4 H4. rewrite setA_setA in H4.
  apply HQ. exact H4.
Qed.
Lemma root_kids h l r sk : kids (root_body h l r sk) = [l; r]. Proof. done. Qed.
Ltac lk := repeat (rewrite setA_lookup || rewrite setA_lookup_ne by congruence).

Section NewRoot.
Context (K : bytes -> N -> Prop) (B : N) (s : ast) (l r : N) (gl gr : ghost) (rtl rtr : bool) (par : N) (bl br : body).
Context (HI : Inv K B s l r) (Hfree : free_but [l; r] (sA s)).
Context (Hl : sA s !! l = Some (mk_anode gl MSpl rtl 0%N bl)) (Hr : sA s !! r = Some (mk_anode gr MSpl rtr par br)) (Hr0 : r <> 0%N).
(** the state after a new root [w] was put above [l] and [r] *)
Definition nr_h : nat := lvl (skel (mk_anode gl MSpl rtl 0%N bl)).
Lemma nr_done w s' : sA s !! w = None -> w <> 0%N ->
  (forall x, sA s' !! x = if decide (x = l) then Some (mk_anode (mk_gh (g_lid gl) (g_pre gl) (g_lo gl) (g_hi gl) (g_hi gl)) MFree false w bl)
    else if decide (x = r) then Some (mk_anode gr MFree false w br)
    else if decide (x = w) then Some (ND (mk_gh (g_lid gl) (g_pre gl) 0 TOP TOP) MFree true 0%N (root_body nr_h l r (g_hi gl)))
    else sA s !! x) ->
  sR s' = (if decide (sR s = l) then w else sR s) -> sV s' = sV s ->
  Inv K B s' 0 0 /\ free_but [] (sA s') /\ lsame (sA s) (sA s').
Proof.
  intros Hw Hw0 HA HR HV.
  assert (Hls : lsame (sA s) (sA s')).
  { split.
    - intros x n Hx. rewrite HA. destruct (decide (x = l)) as [->|].
      { assert (n = mk_anode gl MSpl rtl 0%N bl) as -> by congruence. eexists. split; [done|]. split; [done|]. split; [done|]. cbn. destruct bl; eauto. }
      destruct (decide (x = r)) as [->|].
      { assert (n = mk_anode gr MSpl rtr par br) as -> by congruence. eexists. split; [done|]. split; [done|]. split; [done|]. cbn. destruct br; eauto. }
      rewrite decide_False by congruence. eauto using nsim_refl.
    - intros x n' Hx Hlf. rewrite HA in Hx. destruct (decide (x = l)) as [->|].
      { injection Hx as <-. eexists. split; [exact Hl|]. split; [done|]. split; [done|]. cbn. destruct bl; eauto. }
      destruct (decide (x = r)) as [->|].
      { injection Hx as <-. eexists. split; [exact Hr|]. split; [done|]. split; [done|]. cbn. destruct br; eauto. }
      destruct (decide (x = w)) as [->|]; [injection Hx as <-; done|]. eauto using nsim_refl. }
  split; [|split; [|done]].
  - eapply inv_lsame; [exact HI| |done|done]. rewrite HR.
    eapply (sinv_new_root (skels (sA s)) (skels (sA s')) (sR s) l r w (skel (mk_anode gl MSpl rtl 0%N bl)) (skel (mk_anode gr MSpl rtr par br)) (root_body nr_h l r (g_hi gl))); try done.
    + apply HI.
    + by apply skels_lookup.
    + by apply skels_lookup.
    + unfold skels. by rewrite lookup_fmap, Hw.
    + intros x. unfold skels. rewrite lookup_fmap, HA, lookup_fmap. destruct (decide (x = l)) as [->|]; [done|].
      destruct (decide (x = r)) as [->|]; [done|]. destruct (decide (x = w)); done.
  - intros x n Hx _. rewrite HA in Hx. destruct (decide (x = l)); [by injection Hx as <-|].
    destruct (decide (x = r)); [by injection Hx as <-|]. destruct (decide (x = w)); [by injection Hx as <-|].
    eapply Hfree; [exact Hx|]. rewrite elem_of_cons, elem_of_list_singleton. tauto.
Qed.
Lemma wp_new_root m lv rt0 is_leaf sk (Q : bool -> mem -> Prop) : St m s -> is_leafb bl = is_leaf -> vbits lv MSpl rt0 is_leaf -> sk = g_hi gl ->
  (forall m' s', St m' s' -> Inv K B s' 0 0 -> free_but [] (sA s') -> lsame (sA s) (sA s') -> envsame s s' -> Q true m') ->
  (sR s <> l -> wp (promote_layer_root l r sk is_leaf ;;; unlock_for_split r ;;; unlock l lv ;;; Ret true) m Q) /\
  (sR s = l -> wp (create_main_root l r sk is_leaf ;;; unlock_for_split r ;;; unlock l lv ;;; Ret true) m Q).
Proof.
  intros HS Hlf Hlv Hsk HQ.
  destruct (si_pend _ _ _ _ (iv_s _ _ _ _ _ HI)) as (Hne & nl & nr & E1 & E2 & E3 & E4 & E5 & E6); [by right|].
  rewrite (skels_lookup _ _ _ Hl) in E1. rewrite (skels_lookup _ _ _ Hr) in E2. injection E1 as <-. injection E2 as <-.
  assert (Hlr : is_leafb br = is_leaf).
  { rewrite <- Hlf. unfold lvl, skel in E4. cbn in E4. destruct br, bl; done. }
  assert (Hh : forall Q' : nat -> mem -> Prop, Q' nr_h m -> wp (if is_leaf then Ret 0 else h <- height l ;; Ret (h + 1)) m Q').
  { intros Q' HQ'. unfold nr_h, lvl, skel in HQ'. cbn in HQ'. destruct bl as [L|J]; cbn in Hlf; subst is_leaf.
    - by apply wp_ret.
    - apply wp_bind. eapply wp_height; [exact HS|exact Hl|]. apply wp_ret. by rewrite Nat.add_1_r. }
  assert (Hrt : rtr = false).
  { pose proof (si_rt _ _ _ _ (iv_s _ _ _ _ _ HI) r _ (skels_lookup _ _ _ Hr)) as H. rewrite decide_True in H by done. done. }
  set (gw := mk_gh (g_lid gl) (g_pre gl) 0 TOP TOP).
  split; intros HR.
  - unfold promote_layer_root. apply wp_bind. apply wp_bind. apply Hh.
    apply wp_bind. eapply (wp_alloc_node _ _ HS _ (ND gw MFree false 0%N (new_inode nr_h))).
    { intros bgs. apply inode_new_rel. apply vbits_new. } { done. } { done. }
    intros w m1 Hw0 Hwe HwA H1.
    assert (Hwl : w <> l) by congruence. assert (Hwr : w <> r) by congruence.
    change (setfn ?a (setA ?b ?c ?d)) with (setA b c (setfn a d)) in H1.
    eapply wp_fill_root; [exact H1|]. intros m2 H2.
    apply wp_bind. eapply wp_mark_root; [exact H2|apply setA_lookup|]. intros m3 H3. rewrite setA_setA in H3.
    apply wp_bind. eapply (wp_track _ _ H3 w (sfn s)); [done|]. intros m4 H4.
    change (setfn ?a (setA ?b ?c (setfn ?d ?e))) with (setA b c (setfn a e)) in H4. change (setfn (sfn s) s) with (mk_ast (sA s) (sR s) (sC s) (sV s) (sfv s) (sfn s)) in H4.
    replace (mk_ast (sA s) (sR s) (sC s) (sV s) (sfv s) (sfn s)) with s in H4 by (by destruct s).
    apply wp_bind. eapply (wp_set_parent _ _ l w _ is_leaf); [exact H4|lk; exact Hl|done|]. intros m5 H5.
    apply wp_bind. eapply (wp_set_parent _ _ r w _ is_leaf); [exact H5|lk; exact Hr|done|]. intros m6 H6.
    unfold with_pa in *. cbn [a_gh a_md a_rt a_pa a_bd] in *.
    apply wp_bind. eapply wp_mark_nonroot; [exact H6|lk; done|]. intros m7 H7.
    assert (Hfin : forall m8 s8, St m8 s8 -> s8 = setA l (mk_anode gl MSpl false w bl) (setA r (mk_anode gr MSpl false w br)
         (setA l (mk_anode gl MSpl rtl w bl) (setA w (ND gw MFree true 0%N (root_body nr_h l r (g_hi gl))) s))) \/
        s8 = setA r (mk_anode gr MSpl false w br) (setA l (mk_anode gl MSpl false w bl) (setA r (mk_anode gr MSpl false w br)
         (setA l (mk_anode gl MSpl rtl w bl) (setA w (ND gw MFree true 0%N (root_body nr_h l r (g_hi gl))) s)))) ->
      wp (unlock_for_split r ;;; unlock l lv ;;; Ret true) m8 Q).
    { intros m8 s8 H8 Hs8.
      assert (R8 : sA s8 !! r = Some (mk_anode gr MSpl false w br)) by (destruct Hs8 as [-> | ->]; lk; done).
      assert (L8 : sA s8 !! l = Some (mk_anode gl MSpl false w bl)) by (destruct Hs8 as [-> | ->]; lk; done).
      apply wp_bind. eapply wp_unlock_for_split; [exact H8|exact R8|done|]. intros m9 H9.
      apply wp_bind. eapply wp_unlock; [exact H9|lk; exact L8|by rewrite Hlf|]. intros m10 H10. apply wp_ret.
      cbn [unlocked_rt] in H10.
      pose proof (St_ghost _ _ H10 l _ _ _ _ _ (setA_lookup _ _ _) (mk_gh (g_lid gl) (g_pre gl) (g_lo gl) (g_hi gl) (g_hi gl))) as H11.
      rewrite setA_setA in H11.
      match type of H11 with St _ ?s' => destruct (nr_done w s') as (I1 & I2 & I3) end; [done|done| | | |].
      - intros x. destruct (decide (x = l)) as [->|]; [by lk|]. destruct (decide (x = r)) as [->|]; [by lk|].
        destruct (decide (x = w)) as [->|]; destruct Hs8 as [-> | ->]; by lk.
      - rewrite decide_False by done. destruct Hs8 as [-> | ->]; done.
      - destruct Hs8 as [-> | ->]; done.
      - eapply HQ; [exact H11|done|done|done|]. destruct Hs8 as [-> | ->]; done. }
    rewrite Hsk, Hrt in H7. destruct is_leaf.
    + eapply wp_mark_nonroot; [exact H7|lk; done|]. intros m8 H8. eapply Hfin; [exact H8|by right].
    + apply wp_ret. eapply Hfin; [exact H7|by left].
  - unfold create_main_root. apply wp_bind. apply wp_bind. apply Hh.
    apply wp_bind. eapply (wp_alloc_node _ _ HS _ (ND gw MFree true 0%N (new_inode nr_h))).
    { intros bgs. apply inode_new_rel. eapply vbits_root, vbits_new. } { done. } { done. }
    intros w m1 Hw0 Hwe HwA H1.
    assert (Hwl : w <> l) by congruence. assert (Hwr : w <> r) by congruence.
    change (setfn ?a (setA ?b ?c ?d)) with (setA b c (setfn a d)) in H1.
    eapply wp_fill_root; [exact H1|]. intros m2 H2.
    apply wp_bind. eapply (wp_track _ _ H2 w (sfn s)); [done|]. intros m4 H4.
    change (setfn ?a (setA ?b ?c (setfn ?d ?e))) with (setA b c (setfn a e)) in H4. change (setfn (sfn s) s) with (mk_ast (sA s) (sR s) (sC s) (sV s) (sfv s) (sfn s)) in H4.
    replace (mk_ast (sA s) (sR s) (sC s) (sV s) (sfv s) (sfn s)) with s in H4 by (by destruct s).
    apply wp_bind. pose proof (wp_cas_root _ _ H4 w) as HC. change (sR (setA ?a ?b ?c)) with (sR c) in HC. rewrite HR in HC. apply HC. clear HC.
    intros m4' H4'. change (setR ?a (setA ?b ?c ?d)) with (setA b c (setR a d)) in H4'.
    apply wp_bind. eapply (wp_set_parent _ _ l w _ is_leaf); [exact H4'|lk; exact Hl|done|]. intros m5 H5.
    apply wp_bind. eapply (wp_set_parent _ _ r w _ is_leaf); [exact H5|lk; exact Hr|done|]. intros m6 H6.
    unfold with_pa in *. cbn [a_gh a_md a_rt a_pa a_bd] in *.
    eapply wp_mark_nonroot; [exact H6|lk; done|]. intros m7 H7.
    apply wp_bind. eapply wp_unlock_for_split; [exact H7|lk; done|done|]. intros m9 H9.
    apply wp_bind. eapply wp_unlock; [exact H9|lk; done|by rewrite Hlf|]. intros m10 H10. apply wp_ret.
    cbn [unlocked_rt] in H10.
    pose proof (St_ghost _ _ H10 l _ _ _ _ _ (setA_lookup _ _ _) (mk_gh (g_lid gl) (g_pre gl) (g_lo gl) (g_hi gl) (g_hi gl))) as H11.
    rewrite setA_setA, Hsk in H11.
    match type of H11 with St _ ?s' => destruct (nr_done w s') as (I1 & I2 & I3) end; [done|done| | | |].
    + intros x. destruct (decide (x = l)) as [->|]; [by lk|]. destruct (decide (x = r)) as [->|]; [by lk|].
      destruct (decide (x = w)) as [->|]; by lk.
    + rewrite decide_True by done. done.
    + done.
    + eapply HQ; [exact H11|done|done|done|done].
Qed.
End NewRoot.

(** ** lists *)
Lemma take_mid (l l' : list N) ci x n : n <= length l -> ci <= n -> n + 1 <= length l' ->
  (forall t, t < n + 1 -> l' !! t = if decide (t < ci) then l !! t else if decide (t = ci) then Some x else l !! (t - 1)) ->
  take (n + 1) l' = take ci (take n l) ++ x :: drop ci (take n l).
Proof.
  intros H1 H2 H3 H. apply list_eq. intros i. rewrite lookup_mid by (rewrite take_length; lia).
  destruct (decide (i < n + 1)).
  - rewrite lookup_take, H by done. repeat case_decide; try lia; try done; rewrite lookup_take; done || lia.
  - rewrite (lookup_ge_None_2 (take (n + 1) l')) by (rewrite take_length; lia). repeat case_decide; try lia.
    rewrite lookup_ge_None_2; [done|]. rewrite take_length. lia.
Qed.
Lemma take_ext (l l' : list N) n : (forall t, t < n -> l !! t = l' !! t) -> take n l = take n l'.
Proof.
  intros H. apply list_eq. intros i. destruct (decide (i < n)).
  - by rewrite !lookup_take, H.
  - by rewrite !lookup_take_ge by lia.
Qed.
Lemma take_drop_ext (l l' : list N) o k n : o + k = n -> (forall t, t < k -> l !! t = l' !! (o + t)) -> take k l = drop o (take n l').
Proof.
  intros <- H. apply list_eq. intros i. rewrite lookup_drop. destruct (decide (i < k)).
  - by rewrite !lookup_take, H by lia.
  - by rewrite !lookup_take_ge by lia.
Qed.
(** a full node with one more entry *)
Definition fat (J : ibody) (ci : nat) (sk r : N) : ibody :=
  mk_ibody 16 (ib_ht J) (take ci (ib_ks J) ++ sk :: drop ci (ib_ks J)) (take (ci + 1) (ib_cs J) ++ r :: drop (ci + 1) (ib_cs J)).
Lemma fat_ks J ci sk r t : ci <= length (ib_ks J) -> ib_ks (fat J ci sk r) !! t = fk J ci sk t.
Proof. intros H. cbn. by rewrite lookup_mid. Qed.
Lemma fat_cs J ci sk r t : ci + 1 <= length (ib_cs J) -> ib_cs (fat J ci sk r) !! t = fc J ci r t.
Proof. intros H. cbn. by rewrite lookup_mid. Qed.

Section Halves.
Context (J JL JR : ibody) (ci : nat) (sk r pop : N) (H : halves J ci sk r JL JR pop).
Context (L1 : length (ib_ks J) = 15) (L2 : length (ib_cs J) = 16) (Hn : ib_nk J = 15) (Hci : ci <= 15).
Lemma fat_len : length (ib_ks (fat J ci sk r)) = 16 /\ length (ib_cs (fat J ci sk r)) = 17.
Proof. cbn. rewrite !app_length. cbn. rewrite !take_length, !drop_length. lia. Qed.
Lemma fat_kids : kids (fat J ci sk r) = take (ci + 1) (kids J) ++ r :: drop (ci + 1) (kids J).
Proof.
  unfold kids at 1. change (ib_nk (fat J ci sk r) + 1) with 17. rewrite take_ge by (destruct fat_len; lia).
  unfold kids. rewrite Hn. change (15 + 1) with 16. rewrite (take_ge (ib_cs J)) by lia. done.
Qed.
Lemma halves_kidsL : kids JL = take 9 (kids (fat J ci sk r)).
Proof.
  destruct H. unfold kids at 1. destruct hv_n as [-> _]. unfold kids. change (ib_nk (fat J ci sk r) + 1) with 17.
  rewrite take_take. change (9 `min` 17) with 9. apply take_ext. intros t Ht. rewrite fat_cs by lia. by apply hv_cl.
Qed.
Lemma halves_kidsR : kids JR = drop 9 (kids (fat J ci sk r)).
Proof.
  destruct H. unfold kids at 1. destruct hv_n as [_ ->]. unfold kids. change (ib_nk (fat J ci sk r) + 1) with 17.
  apply take_drop_ext; [done|]. intros t Ht. rewrite fat_cs by lia. by apply hv_cr.
Qed.
Lemma halves_ksL : take 8 (ib_ks JL) = take 8 (ib_ks (fat J ci sk r)).
Proof. destruct H. apply take_ext. intros t Ht. rewrite fat_ks by lia. by apply hv_kl. Qed.
Lemma halves_ksR : take 7 (ib_ks JR) = drop 9 (take 16 (ib_ks (fat J ci sk r))).
Proof. destruct H. apply take_drop_ext; [done|]. intros t Ht. rewrite fat_ks by lia. by apply hv_kr. Qed.
Lemma halves_in c : c ∈ kids JR -> c ∈ kids J \/ c = r.
Proof.
  rewrite halves_kidsR, fat_kids. intros HH. assert (HX : c ∈ take (ci + 1) (kids J) ++ r :: drop (ci + 1) (kids J)).
  { apply elem_of_list_lookup in HH as [i Hi]. rewrite lookup_drop in Hi. by eapply elem_of_list_lookup_2. }
  apply elem_of_app in HX as [HX|HX].
  - left. apply elem_of_take in HX as (i & Hi & _). by eapply elem_of_list_lookup_2.
  - apply elem_of_cons in HX as [->|HX]; [by right|]. left. apply elem_of_list_lookup in HX as [i Hi]. rewrite lookup_drop in Hi. by eapply elem_of_list_lookup_2.
Qed.
Lemma halves_r : NoDup (kids (fat J ci sk r)) -> r ∈ kids JR <-> Nat.ltb ci 8 = false.
Proof.
  intros HN. assert (Hr : kids (fat J ci sk r) !! (ci + 1) = Some r).
  { unfold kids. change (ib_nk (fat J ci sk r) + 1) with 17. rewrite lookup_take by lia. rewrite fat_cs by lia. unfold fc. dec. }
  rewrite halves_kidsR. rewrite Nat.ltb_ge. split.
  - intros HH. apply elem_of_list_lookup in HH as [i Hi]. rewrite lookup_drop in Hi. pose proof (NoDup_lookup _ _ _ _ HN Hi Hr). lia.
  - intros Hc. apply elem_of_list_lookup. exists (ci + 1 - 9). rewrite lookup_drop. rewrite <- Hr. f_equal. lia.
Qed.
End Halves.

(** ** the split of an internode, children included *)
Lemma with_pa_idem p n : with_pa p (with_pa p n) = with_pa p n. Proof. done. Qed.
Lemma wp_split_inode {R} m s lp ps gp gs mdp mds rtp rts pap pas J ci sk r (k : N -> bool -> P R) Q :
  lp <> ps -> ci <= 15 -> ib_nk J = 15 -> length (ib_ks J) = 15 -> length (ib_cs J) = 16 ->
  (forall c, c ∈ kids J \/ c = r -> c <> 0%N /\ c <> lp /\ c <> ps /\ exists n, sA s !! c = Some n /\ is_leafb (a_bd n) = Nat.eqb (ib_ht J) 0) ->
  St m (setA lp (ND gp mdp rtp pap J) (setA ps (ND gs mds rts pas (new_inode (ib_ht J))) s)) ->
  (forall m' A JL JR pop, halves J ci sk r JL JR pop -> ib_ht JR = ib_ht J ->
    (forall x, A !! x = if decide (x = lp) then Some (ND gp mdp rtp pap JL) else if decide (x = ps) then Some (ND gs mds rts pas JR)
       else if decide (x ∈ kids JR) then with_pa ps <$> sA s !! x else sA s !! x) ->
    St m' (withA A s) -> wp (k pop (Nat.ltb ci 8)) m' Q) ->
  wp ('(popup, wl) <- split_into lp ps ci sk r ;;
      ph2 <- height lp ;;
      reparent_children ps (if Nat.eqb ph2 0 then set_leaf_parent else set_inode_parent) ;;; k popup wl) m Q.
Proof.
  intros Hne Hci Hn L1 L2 Hk HS HQ.
  assert (Hstate : forall X Y Y', setA ps Y' (setA lp X (setA ps Y s)) = setA lp X (setA ps Y' s)).
  { intros X Y Y'. rewrite setA_comm by done. by rewrite setA_setA. }
  assert (Hlq : forall X Y, sA (setA lp X (setA ps Y s)) !! ps = Some Y).
  { intros X Y. rewrite setA_lookup_ne by done. apply setA_lookup. }
  assert (Hlp : forall X Y, sA (setA lp X (setA ps Y s)) !! lp = Some X) by (intros; apply setA_lookup).
  apply wp_bind. unfold split_into. apply wp_bind. eapply wp_nkeys; [exact HS|apply Hlp|]. rewrite Hn.
  change (Nat.eqb 15 IWIDTH) with true. cbv iota. apply wp_bind, wp_ret. cbv zeta.
  apply wp_bind. eapply wp_cut; [exact Hne|exact L1|exact L2| | |exact Hn|exact Hci|exact HS|]; [done|done|].
  intros m1 JL JR0 pop HH _ H1.
  apply wp_bind. eapply wp_height; [exact H1|apply Hlp|].
  apply wp_bind. eapply wp_set_height; [exact H1|apply Hlq|]. intros m2 H2. rewrite Hstate in H2.
  rewrite (hv_h _ _ _ _ _ _ _ HH) in *. set (JR := iset_ht (ib_ht J) JR0) in *.
  assert (HH' : halves J ci sk r JL JR pop) by (destruct HH; by split).
  assert (Hkids : forall A : gmap N anode, (forall x, x <> lp -> x <> ps -> (exists n, sA s !! x = Some n /\ is_leafb (a_bd n) = Nat.eqb (ib_ht J) 0) ->
       exists n, A !! x = Some n /\ is_leafb (a_bd n) = Nat.eqb (ib_ht J) 0) ->
     forall c, c ∈ kids JR -> c <> 0%N /\ c <> ps /\ exists n, A !! c = Some n /\ is_leafb (a_bd n) = Nat.eqb (ib_ht J) 0).
  { intros A HA c Hc. destruct (Hk c) as (N1 & N2 & N3 & n & Hn1 & Hn2). { eapply halves_in; eauto. }
    split; [done|]. split; [done|]. apply HA; eauto. }
  assert (HnR : ib_nk JR + 1 <= 16) by (destruct HH'; lia).
  assert (HkA : forall X Y, forall c, c ∈ kids JR -> c <> 0%N /\ c <> ps /\ exists n, sA (setA lp X (setA ps Y s)) !! c = Some n /\ is_leafb (a_bd n) = Nat.eqb (ib_ht J) 0).
  { intros X Y. apply Hkids. intros x N1 N2 Hx. rewrite !setA_lookup_ne by congruence. exact Hx. }
  (* the second pass over the children *)
  assert (Hlast : forall m3 (A : gmap N anode), (forall x, A !! x = if decide (x = lp) then Some (ND gp mdp rtp pap JL) else if decide (x = ps) then Some (ND gs mds rts pas JR)
       else if decide (x ∈ kids JR) then with_pa ps <$> sA s !! x else sA s !! x) \/ A = sA (setA lp (ND gp mdp rtp pap JL) (setA ps (ND gs mds rts pas JR) s)) ->
     St m3 (withA A s) -> wp (ph2 <- height lp ;;
      reparent_children ps (if Nat.eqb ph2 0 then set_leaf_parent else set_inode_parent) ;;; k pop (Nat.ltb ci 8)) m3 Q).
  { intros m3 A HA H3.
    assert (HAlp : A !! lp = Some (ND gp mdp rtp pap JL)).
    { destruct HA as [-> | ->]; [by rewrite decide_True|apply Hlp]. }
    assert (HAps : A !! ps = Some (ND gs mds rts pas JR)).
    { destruct HA as [-> | ->]; [by rewrite decide_False, decide_True|apply Hlq]. }
    assert (HAk : forall c, c ∈ kids JR -> c <> 0%N /\ c <> ps /\ exists n, A !! c = Some n /\ is_leafb (a_bd n) = Nat.eqb (ib_ht J) 0).
    { destruct HA as [HA|HA].
      - apply Hkids. intros x N1 N2 (n & Hx1 & Hx2). rewrite HA, !decide_False by done. case_decide; rewrite Hx1; eexists; split; done.
      - rewrite HA. apply HkA. }
    apply wp_bind. eapply wp_height; [exact H3|exact HAlp|]. rewrite (hv_h _ _ _ _ _ _ _ HH').
    apply wp_bind. eapply (wp_reparent _ _ ps _ _ _ _ JR (Nat.eqb (ib_ht J) 0)); [exact H3|exact HAps|done|exact HAk|].
    intros m4 A4 HA4 H4. cbn [sA withA] in HA4. eapply HQ; [exact HH'|done| |exact H4].
    intros x. rewrite HA4.
    assert (Nlp : lp ∉ kids JR). { intros Hin. destruct (Hk lp) as (_ & N2 & _); [|done]. eapply (halves_in J JL JR); eauto. }
    assert (Nps : ps ∉ kids JR). { intros Hin. destruct (Hk ps) as (_ & _ & N2 & _); [|done]. eapply (halves_in J JL JR); eauto. }
    destruct (decide (x = lp)) as [->|]; [rewrite decide_False by done; done|].
    destruct (decide (x = ps)) as [->|]; [rewrite decide_False by done; done|].
    destruct HA as [HA|HA].
    - rewrite HA. destruct (decide (x = lp)); [done|]. destruct (decide (x = ps)); [done|]. case_decide; [|done]. by destruct (sA s !! x).
    - rewrite HA, !setA_lookup_ne by congruence. done. }
  apply wp_bind. destruct (Nat.ltb_spec 0 (ib_ht J)) as [Hh|Hh].
  - assert (E0 : Nat.eqb (ib_ht J) 0 = false) by (apply Nat.eqb_neq; lia).
    eapply (wp_reparent _ _ ps _ _ _ _ JR false); [exact H2|apply Hlq|done| |].
    { rewrite <- E0. apply HkA. }
    intros m3 A HA H3. apply wp_ret. eapply Hlast; [|exact H3]. left. intros x. rewrite HA.
    assert (Nlp : lp ∉ kids JR). { intros Hin. destruct (Hk lp) as (_ & N2 & _); [|done]. eapply (halves_in J JL JR); eauto. }
    assert (Nps : ps ∉ kids JR). { intros Hin. destruct (Hk ps) as (_ & _ & N2 & _); [|done]. eapply (halves_in J JL JR); eauto. }
    destruct (decide (x = lp)) as [->|]; [rewrite decide_False by done; apply Hlp|].
    destruct (decide (x = ps)) as [->|]; [rewrite decide_False by done; apply Hlq|].
    rewrite !setA_lookup_ne by congruence. done.
  - apply wp_ret. apply wp_ret. eapply Hlast; [by right|]. exact H2.
Qed.

(** ** one step up *)
Section Up.
Context (K : bytes -> N -> Prop) (B : N) (s : ast) (l r lp : N) (gl gr gp : ghost) (rtl rtr rtp : bool) (par pap : N) (bl br : body) (J : ibody) (ci : nat).
Context (HI : Inv K B s l r) (Hfree : free_but [l; r] (sA s)).
Context (Hl : sA s !! l = Some (mk_anode gl MSpl rtl lp bl)) (Hr : sA s !! r = Some (mk_anode gr MSpl rtr par br)) (Hr0 : r <> 0%N).
Context (Hlp0 : lp <> 0%N) (Hlp : sA s !! lp = Some (ND gp MFree rtp pap J)) (Hci : kids J !! ci = Some l).
Definition up_gl := mk_gh (g_lid gl) (g_pre gl) (g_lo gl) (g_hi gl) (g_hi gl).

Lemma up_ne : l <> r /\ lp <> l /\ lp <> r /\ lvl (skel (mk_anode gl MSpl rtl lp bl)) = ib_ht J /\ lvl (skel (mk_anode gr MSpl rtr par br)) = ib_ht J.
Proof.
  pose proof (ip_pend _ _ _ _ _ _ (iv_s _ _ _ _ _ HI) (skels_lookup _ _ _ Hl) (skels_lookup _ _ _ Hr) Hr0) as (P1 & P2 & P3 & _).
  destruct (io_kid _ _ _ _ _ _ _ (si_inode _ _ _ _ (iv_s _ _ _ _ _ HI) lp _ J (skels_lookup _ _ _ Hlp) eq_refl) ci l Hci) as [_ (cn & E1 & E2 & E3 & E4 & _)].
  rewrite (skels_lookup _ _ _ Hl) in E1. injection E1 as <-.
  assert (Q1 : lp <> l).
  { intros E. rewrite E, Hl in Hlp. injection Hlp as _ _ _ _ Eb. unfold lvl, skel in E4. cbn in E4. rewrite Eb in E4. lia. }
  assert (Q2 : lp <> r).
  { intros E. rewrite E, Hr in Hlp. injection Hlp as _ _ _ _ Eb. rewrite <- P3 in E4. unfold lvl, skel in E4. cbn in E4. rewrite Eb in E4. lia. }
  repeat (split; [done|]). by rewrite P3.
Qed.
Lemma up_rt : rtl = false.
Proof.
  pose proof (si_rt _ _ _ _ (iv_s _ _ _ _ _ HI) l _ (skels_lookup _ _ _ Hl)) as H. cbn in H.
  destruct up_ne as (P1 & _). rewrite decide_False in H by done. rewrite H. by apply N.eqb_neq.
Qed.
Lemma up_nk : ib_nk J <= length (ib_ks J) /\ ib_nk J + 1 <= length (ib_cs J) /\ NoDup (kids J) /\ ci <= ib_nk J.
Proof.
  pose proof (si_inode _ _ _ _ (iv_s _ _ _ _ _ HI) lp _ J (skels_lookup _ _ _ Hlp) eq_refl) as H. destruct H.
  repeat (split; [done|]). apply lookup_lt_Some in Hci. rewrite kids_len in Hci by done. lia.
Qed.
Lemma up_kid c : c ∈ kids J \/ c = r -> c <> 0%N /\ c <> lp /\ exists n, sA s !! c = Some n /\ is_leafb (a_bd n) = Nat.eqb (ib_ht J) 0.
Proof.
  destruct up_ne as (P1 & P2 & P3 & P4 & P5).
  assert (HL : forall n, lvl (skel n) = ib_ht J -> is_leafb (a_bd n) = Nat.eqb (ib_ht J) 0).
  { intros n <-. unfold lvl, skel. cbn. by destruct (a_bd n). }
  intros [Hc| ->].
  - apply elem_of_list_lookup in Hc as [i Hi].
    destruct (io_kid _ _ _ _ _ _ _ (si_inode _ _ _ _ (iv_s _ _ _ _ _ HI) lp _ J (skels_lookup _ _ _ Hlp) eq_refl) i c Hi) as [_ (cn & E1 & E2 & E3 & E4 & _)].
    split; [intros E; rewrite E, (si_zero _ _ _ _ (iv_s _ _ _ _ _ HI)) in E1; done|].
    apply skels_some in E1 as (n & E1 & ->). split.
    + intros ->. assert (n = ND gp MFree rtp pap J) as -> by congruence. unfold lvl in E4. cbn in E4. lia.
    + exists n. split; [done|]. by apply HL.
  - split; [done|]. split; [congruence|]. eexists. split; [exact Hr|]. by apply HL.
Qed.

(** the parent had room *)
Lemma up_done ks cs s' : ib_nk J < 15 -> length ks = 15 -> length cs = 16 ->
  (forall t, t < 15 -> ks !! t = if decide (t < ci) then ib_ks J !! t else if decide (t = ci) then Some (g_hi gl)
         else if decide (t <= ib_nk J) then ib_ks J !! (t - 1) else ib_ks J !! t) ->
  (forall t, t < 16 -> cs !! t = if decide (t < ci + 1) then ib_cs J !! t else if decide (t = ci + 1) then Some r
         else if decide (t <= ib_nk J + 1) then ib_cs J !! (t - 1) else ib_cs J !! t) ->
  (forall x, sA s' !! x = if decide (x = l) then Some (mk_anode up_gl MFree false lp bl) else if decide (x = r) then Some (mk_anode gr MFree false lp br)
    else if decide (x = lp) then Some (ND gp MFree rtp pap (mk_ibody (ib_nk J + 1) (ib_ht J) ks cs)) else sA s !! x) ->
  sR s' = sR s -> sV s' = sV s ->
  Inv K B s' 0 0 /\ free_but [] (sA s') /\ lsame (sA s) (sA s').
Proof.
  intros Hnk Lks Lcs Hks Hcs HA HR HV. destruct up_ne as (P1 & P2 & P3 & P4 & P5). destruct up_nk as (N1 & N2 & N3 & N4).
  assert (Hls : lsame (sA s) (sA s')).
  { split.
    - intros x n Hx. rewrite HA. destruct (decide (x = l)) as [->|].
      { assert (n = mk_anode gl MSpl rtl lp bl) as -> by congruence. eexists. split; [done|]. split; [done|]. split; [done|]. cbn. destruct bl; eauto. }
      destruct (decide (x = r)) as [->|].
      { assert (n = mk_anode gr MSpl rtr par br) as -> by congruence. eexists. split; [done|]. split; [done|]. split; [done|]. cbn. destruct br; eauto. }
      destruct (decide (x = lp)) as [->|].
      { assert (n = ND gp MFree rtp pap J) as -> by congruence. eexists. split; [done|]. split; [done|]. split; [done|]. cbn. eauto. }
      eauto using nsim_refl.
    - intros x n' Hx Hlf. rewrite HA in Hx. destruct (decide (x = l)) as [->|].
      { injection Hx as <-. eexists. split; [exact Hl|]. split; [done|]. split; [done|]. cbn. destruct bl; eauto. }
      destruct (decide (x = r)) as [->|].
      { injection Hx as <-. eexists. split; [exact Hr|]. split; [done|]. split; [done|]. cbn. destruct br; eauto. }
      destruct (decide (x = lp)) as [->|]; [injection Hx as <-; done|]. eauto using nsim_refl. }
  split; [|split; [|done]].
  - eapply inv_lsame; [exact HI| |done|done]. rewrite HR.
    pose proof (iv_s _ _ _ _ _ HI) as HI'.
    eapply (sinv_insert_parent (skels (sA s)) (skels (sA s')) (sR s) l r (skel (mk_anode gl MSpl rtl lp bl)) (skel (mk_anode gr MSpl rtr par br)) (skel (ND gp MFree rtp pap J)) J
      (mk_ibody (ib_nk J + 1) (ib_ht J) ks cs) ci); try done.
    + by apply skels_lookup.
    + by apply skels_lookup.
    + by apply skels_lookup.
    + cbn [ib_ks]. apply take_mid; [lia|lia|lia|]. intros t Ht. rewrite Hks by lia. repeat case_decide; try done; lia.
    + unfold kids at 1. cbn [ib_nk ib_cs].
      assert (Hlen : length (ib_cs J) >= ib_nk J + 1) by lia. unfold kids.
      apply (take_mid (ib_cs J) cs (ci + 1) r (ib_nk J + 1)); [lia|lia|lia|]. intros t Ht. rewrite Hcs by lia. repeat case_decide; try done; lia.
    + intros x. unfold skels. rewrite lookup_fmap, HA, lookup_fmap. cbn [n_pa skel a_pa]. unfold ip_l, ip_r, ip_p. cbn [n_pa skel a_pa n_rt a_rt n_gh a_gh].
      rewrite up_rt.
      assert (Hrt : rtr = false).
      { pose proof (si_rt _ _ _ _ HI' r _ (skels_lookup _ _ _ Hr)) as H. rewrite decide_True in H by done. done. }
      rewrite Hrt.
      destruct (decide (x = l)) as [->|]; [done|]. destruct (decide (x = r)) as [->|]; [done|]. destruct (decide (x = lp)); done.
  - intros x n Hx _. rewrite HA in Hx. destruct (decide (x = l)); [by injection Hx as <-|].
    destruct (decide (x = r)); [by injection Hx as <-|]. destruct (decide (x = lp)); [by injection Hx as <-|].
    eapply Hfree; [exact Hx|]. rewrite elem_of_cons, elem_of_list_singleton. tauto.
Qed.

(** the parent was full and was split *)
Definition up_gp (pop : N) := mk_gh (g_lid gp) (g_pre gp) (g_lo gp) pop (g_hi gp).
Definition up_gs (pop : N) := mk_gh (g_lid gp) (g_pre gp) pop (g_hi gp) (g_hi gp).
Lemma up_split ps JL JR pop s' : ib_nk J = 15 -> length (ib_ks J) = 15 -> length (ib_cs J) = 16 ->
  halves J ci (g_hi gl) r JL JR pop -> ib_ht JR = ib_ht J -> sA s !! ps = None -> ps <> 0%N ->
  (forall x, sA s' !! x = if decide (x = lp) then Some (ND (up_gp pop) MSpl rtp pap JL) else if decide (x = ps) then Some (ND (up_gs pop) MSpl false 0%N JR)
    else if decide (x = l) then Some (mk_anode up_gl MFree false (if decide (l ∈ kids JR) then ps else lp) bl)
    else if decide (x = r) then Some (mk_anode gr MFree false (if decide (r ∈ kids JR) then ps else lp) br)
    else if decide (x ∈ kids JR) then with_pa ps <$> sA s !! x else sA s !! x) ->
  sR s' = sR s -> sV s' = sV s ->
  Inv K B s' lp ps /\ free_but [lp; ps] (sA s') /\ lsame (sA s) (sA s').
Proof.
  intros Hnk L1 L2 HH Hht Hps Hps0 HA HR HV. destruct up_ne as (P1 & P2 & P3 & P4 & P5). destruct up_nk as (N1 & N2 & N3 & N4).
  assert (Npl : ps <> l) by congruence. assert (Npr : ps <> r) by congruence. assert (Npp : ps <> lp) by congruence.
  assert (Hls : lsame (sA s) (sA s')).
  { split.
    - intros x n Hx. rewrite HA. destruct (decide (x = lp)) as [->|].
      { assert (n = ND gp MFree rtp pap J) as -> by congruence. eexists. split; [done|]. split; [done|]. split; [done|]. cbn. eexists. split; [done|]. apply HH. }
      destruct (decide (x = ps)); [congruence|].
      destruct (decide (x = l)) as [->|].
      { assert (n = mk_anode gl MSpl rtl lp bl) as -> by congruence. eexists. split; [done|]. split; [done|]. split; [done|]. cbn. destruct bl; eauto. }
      destruct (decide (x = r)) as [->|].
      { assert (n = mk_anode gr MSpl rtr par br) as -> by congruence. eexists. split; [done|]. split; [done|]. split; [done|]. cbn. destruct br; eauto. }
      destruct (decide (x ∈ kids JR)); [|eauto using nsim_refl]. rewrite Hx. exists (with_pa ps n).
      split; [done|]. split; [done|]. split; [done|]. cbn. destruct (a_bd n); eauto.
    - intros x n' Hx Hlf. rewrite HA in Hx. destruct (decide (x = lp)) as [->|]; [injection Hx as <-; done|].
      destruct (decide (x = ps)) as [->|]; [injection Hx as <-; done|].
      destruct (decide (x = l)) as [->|].
      { injection Hx as <-. eexists. split; [exact Hl|]. split; [done|]. split; [done|]. cbn. destruct bl; eauto. }
      destruct (decide (x = r)) as [->|].
      { injection Hx as <-. eexists. split; [exact Hr|]. split; [done|]. split; [done|]. cbn. destruct br; eauto. }
      case_decide; [|eauto using nsim_refl]. destruct (sA s !! x) as [n9|] eqn:E; [|done]. cbn in Hx. injection Hx as <-. exists n9. split; [done|].
      split; [done|]. split; [done|]. cbn. destruct (a_bd n9); eauto. }
  pose proof (iv_s _ _ _ _ _ HI) as HI'.
  assert (Hrt : rtr = false).
  { pose proof (si_rt _ _ _ _ HI' r _ (skels_lookup _ _ _ Hr)) as H. rewrite decide_True in H by done. done. }
  set (snl := skel (mk_anode gl MSpl rtl lp bl)). set (snr := skel (mk_anode gr MSpl rtr par br)). set (snp := skel (ND gp MFree rtp pap J)).
  set (J' := fat J ci (g_hi gl) r).
  set (S1 := <[l := ip_l snl]> (<[r := ip_r snl snr]> (<[lp := ip_p snp J']> (skels (sA s))))).
  assert (HS1 : SInv S1 (sR s) 0 0).
  { eapply (sinv_insert_parent (skels (sA s)) S1 (sR s) l r snl snr snp J J' ci); try done.
    - by apply skels_lookup.
    - by apply skels_lookup.
    - by apply skels_lookup.
    - change (ib_nk J') with 16. lia.
    - rewrite Hnk. change (15 + 1) with 16. unfold J'. rewrite take_ge by (cbn; rewrite app_length; cbn; rewrite take_length, drop_length; lia).
      rewrite (take_ge (ib_ks J)) by lia. done.
    - apply fat_kids; done || lia.
    - intros x. unfold S1. change (n_pa snl) with lp. destruct (decide (x = l)) as [->|]; [by rewrite lookup_insert|].
      rewrite lookup_insert_ne by congruence. destruct (decide (x = r)) as [->|]; [by rewrite lookup_insert|].
      rewrite lookup_insert_ne by congruence. destruct (decide (x = lp)) as [->|]; [by rewrite lookup_insert|]. by rewrite lookup_insert_ne by done. }
  split; [|split; [|done]].
  - eapply inv_lsame; [exact HI| |done|done]. rewrite HR.
    assert (Hkr : kids JR = drop (8 + 1) (kids J')) by (apply halves_kidsR with (JL := JL) (pop := pop); done || lia).
    eapply (sinv_node_split S1 (skels (sA s')) (sR s) lp ps (ip_p snp J') J' JL JR 8 pop); try done.
    + unfold S1. rewrite !lookup_insert_ne by congruence. by rewrite lookup_insert.
    + unfold S1. rewrite !lookup_insert_ne by congruence. unfold skels. by rewrite lookup_fmap, Hps.
    + lia.
    + unfold J'. rewrite fat_ks by lia. apply HH.
    + apply HH.
    + apply HH.
    + eapply halves_ksL; [exact HH|..]; done || lia.
    + eapply halves_kidsL; [exact HH|..]; done || lia.
    + change (ib_nk J') with 16. destruct HH as [_ _ [_ E] _ _ _ _ _ _]. rewrite E. done.
    + change (ib_nk J' - (8 + 1)) with 7. change (ib_nk J') with 16. eapply halves_ksR; [exact HH|..]; done || lia.
    + intros x. unfold skels. rewrite lookup_fmap, HA. destruct (decide (x = lp)) as [->|]; [done|].
      destruct (decide (x = ps)) as [->|]; [done|]. unfold S1.
      destruct (decide (x = l)) as [->|].
      { rewrite lookup_insert. unfold ip_l, snl, ns_k. rewrite up_rt. destruct (decide (l ∈ kids JR)); done. }
      rewrite (lookup_insert_ne _ l) by congruence. destruct (decide (x = r)) as [->|].
      { rewrite lookup_insert. unfold ip_r, snr, snl, ns_k. rewrite Hrt. destruct (decide (r ∈ kids JR)); done. }
      rewrite !lookup_insert_ne by congruence. unfold skels. rewrite lookup_fmap. destruct (decide (x ∈ kids JR)); [|done]. by destruct (sA s !! x).
  - intros x n Hx Hn. rewrite elem_of_cons, elem_of_list_singleton in Hn. rewrite HA in Hx.
    rewrite decide_False in Hx by tauto. rewrite decide_False in Hx by tauto.
    destruct (decide (x = l)); [by injection Hx as <-|].
    destruct (decide (x = r)); [by injection Hx as <-|].
    assert (Hx' : exists n9, sA s !! x = Some n9 /\ a_md n9 = a_md n).
    { case_decide; [|eauto]. destruct (sA s !! x) as [n9|]; [|done]. cbn in Hx. injection Hx as <-. eauto. }
    destruct Hx' as (n9 & E1 & E2). rewrite <- E2. eapply Hfree; [exact E1|]. rewrite elem_of_cons, elem_of_list_singleton. tauto.
Qed.
End Up.

(** propagation.rs:175-524 *)
Lemma wp_propagate K B F : 0 < F -> forall n stale m s l lv r sk main layer is_leaf gl gr rtl rtr pal par bl br rt0 (Q : bool -> mem -> Prop),
  St m s -> Inv K B s l r -> free_but [l; r] (sA s) ->
  sA s !! l = Some (mk_anode gl MSpl rtl pal bl) -> sA s !! r = Some (mk_anode gr MSpl rtr par br) -> r <> 0%N ->
  is_leafb bl = is_leaf -> vbits lv MSpl rt0 is_leaf -> sk = g_hi gl ->
  (pal = 0%N -> main = (sR s =? l)%N /\ layer = negb main) ->
  23 <= n + lvl (skel (mk_anode gl MSpl rtl pal bl)) ->
  (forall m' s', St m' s' -> Inv K B s' 0 0 -> free_but [] (sA s') -> lsame (sA s) (sA s') -> envsame s s' -> Q true m') ->
  wp (propagate F n stale l lv r sk main layer is_leaf) m Q.
Proof.
  intros HF. induction n as [|n IH]; intros stale m s l lv r sk main layer is_leaf gl gr rtl rtr pal par bl br rt0 Q HS HI Hfree Hl Hr Hr0 Hlf Hlv Hsk Hmain Hn HQ.
  { pose proof (level_bound _ _ _ _ (iv_s _ _ _ _ _ HI) l _ (skels_lookup _ _ _ Hl)). lia. }
  cbn [propagate]. apply wp_bind. eapply wp_get_parent; [exact HS|exact Hl|exact Hlf|]. cbn [a_pa].
  destruct (N.eqb_spec pal 0) as [E|Hpa].
  { subst pal. destruct (Hmain eq_refl) as [-> ->]. cbn [andb].
    destruct (wp_new_root K B s l r gl gr rtl rtr par bl br HI Hfree Hl Hr Hr0 m lv rt0 is_leaf sk Q HS Hlf Hlv Hsk HQ) as [W1 W2].
    destruct (N.eqb_spec (sR s) l) as [E|E]; cbn [negb]; [by apply W2|by apply W1]. }
  cbn [andb]. rename pal into lp.
  pose proof (iv_s _ _ _ _ _ HI) as HI'.
  destruct (si_pend _ _ _ _ HI') as (Hne & _); [by right|].
  destruct (parent_of _ _ _ _ HI' l _ (skels_lookup _ _ _ Hl) Hne Hpa) as (pn & J & ci & E1 & E2 & Hci & _).
  cbn [n_pa skel a_pa] in E1. apply skels_some in E1 as (np & Hlp & ->). destruct np as [gp mdp rtp pap [?|J0]]; [done|]. cbn in E2. injection E2 as ->.
  (* the parent is neither of the two *)
  assert (Hlpl : lp <> l /\ lp <> r).
  { destruct (io_kid _ _ _ _ _ _ _ (si_inode _ _ _ _ HI' lp _ J (skels_lookup _ _ _ Hlp) eq_refl) ci l Hci) as [_ (cn & F1 & F2 & F3 & F4 & _)].
    rewrite (skels_lookup _ _ _ Hl) in F1. injection F1 as <-.
    destruct (si_pend _ _ _ _ HI') as (_ & nl & nr & G1 & G2 & G3 & G4 & _); [by right|].
    rewrite (skels_lookup _ _ _ Hl) in G1. rewrite (skels_lookup _ _ _ Hr) in G2. injection G1 as <-. injection G2 as <-.
    split; intros ->.
    - rewrite Hl in Hlp. injection Hlp as _ _ _ _ Eb. unfold lvl, skel in F4. cbn in F4. rewrite Eb in F4. lia.
    - rewrite Hr in Hlp. injection Hlp as _ _ _ _ Eb. rewrite F4 in G4. unfold lvl, skel in G4. cbn in G4. rewrite Eb in G4. lia. }
  destruct Hlpl as [Nl Nr].
  assert (mdp = MFree) as ->.
  { apply (Hfree lp _ Hlp). rewrite elem_of_cons, elem_of_list_singleton. naive_solver. }
  destruct (up_ne K B s l r lp gl gr gp rtl rtr rtp par pap bl br J ci HI Hl Hr Hr0 Hpa Hlp Hci) as (_ & _ & _ & Lv & _).
  destruct (up_nk K B s l r lp gp rtp pap J ci HI Hr0 Hpa Hlp Hci) as (N1 & N2 & N3 & N4).
  destruct (inode_lens _ _ HS _ _ _ _ _ _ Hlp) as [L1 L2].
  apply wp_bind. eapply wp_lock; [exact HS|exact Hlp|exact HF|done|]. intros plv m1 Hplv H1.
  apply wp_bind. eapply wp_get_parent; [exact H1|lk; exact Hl|exact Hlf|]. cbn [a_pa].
  rewrite N.eqb_refl. cbn [negb].
  apply wp_bind. eapply wp_find_child_index; [exact H1|apply setA_lookup|lia|exact N3|exact Hci|].
  apply wp_bind. apply wp_bind. eapply wp_nkeys; [exact H1|apply setA_lookup|]. apply wp_ret.
  destruct (Nat.leb_spec IWIDTH (ib_nk J)) as [Hfull|Hroom]; unfold IWIDTH in *.
  - assert (Hnk : ib_nk J = 15) by lia.
    apply wp_bind. eapply wp_mark_split; [exact H1|apply setA_lookup|done|exact Hplv|]. intros plv' m2 Hplv' H2. rewrite setA_setA in H2.
    apply wp_bind. eapply wp_load_root; [exact H2|]. change (sR (setA ?a ?b ?c)) with (sR c).
    apply wp_bind. eapply wp_inode_parent; [exact H2|apply setA_lookup|].
    apply wp_bind. eapply wp_flag_root; [exact H2|apply setA_lookup|].
    apply wp_bind. eapply wp_version; [exact H2|apply setA_lookup|]. intros pv _ Hpv.
    apply wp_bind. eapply wp_height; [exact H2|apply setA_lookup|].
    rewrite (vbits_lockedf _ _ _ _ Hpv). cbv iota.
    apply wp_bind. eapply (wp_alloc_node _ _ H2 _ (ND gp MSpl false 0%N (new_inode (ib_ht J)))).
    { intros bgs. apply inode_new_rel. eapply vbits_new_split. exact Hpv. } { done. } { done. }
    intros ps m3 Hps0 Hpse HpsA H3.
    assert (Hpp : ps <> lp). { intros ->. by rewrite setA_lookup in HpsA. }
    rewrite setA_lookup_ne in HpsA by done.
    change (sfn (setA ?a ?b ?c)) with (sfn c) in H3.
    change (setfn ?a (setA ?b ?c (setA ?d ?e ?f))) with (setA b c (setA d e (setfn a f))) in H3.
    apply wp_bind. eapply (wp_track _ _ H3 ps (sfn s)); [done|]. intros m4 H4.
    change (setfn ?a (setA ?b ?c (setA ?d ?e (setfn ?g ?f)))) with (setA b c (setA d e (setfn a f))) in H4.
    change (setfn (sfn s) s) with (mk_ast (sA s) (sR s) (sC s) (sV s) (sfv s) (sfn s)) in H4.
    replace (mk_ast (sA s) (sR s) (sC s) (sV s) (sfv s) (sfn s)) with s in H4 by (by destruct s).
    rewrite setA_comm in H4 by done.
    assert (Npl : ps <> l) by congruence. assert (Npr : ps <> r) by congruence.
    eapply wp_split_inode; [| | | | | |exact H4|]; [done|lia|done|done|done| |].
    { intros c Hc. destruct (up_kid K B s l r lp gl gr gp rtl rtr rtp par pap bl br J ci HI Hl Hr Hr0 Hpa Hlp Hci c Hc) as (C1 & C2 & cn & C3 & C4).
      split; [done|]. split; [done|]. split; [congruence|]. eauto. }
    intros m5 A JL JR pop HH Hht HA H5.
    assert (HkJ' : NoDup (kids (fat J ci sk r))).
    { rewrite fat_kids by (done || lia). apply (NoDup_Permutation_proper _ (r :: kids J)).
      - etransitivity; [symmetry; apply Permutation_middle|]. by rewrite take_drop.
      - apply NoDup_cons. split; [|done]. intros Hin. apply elem_of_list_lookup in Hin as [i Hi].
        destruct (io_kid _ _ _ _ _ _ _ (si_inode _ _ _ _ HI' lp _ J (skels_lookup _ _ _ Hlp) eq_refl) i r Hi) as [Hx _]. done. }
    assert (Hwl : (if Nat.ltb ci 8 then lp else ps) = if decide (r ∈ kids JR) then ps else lp).
    { pose proof (halves_r J JL JR ci sk r pop HH L1 L2 Hnk ltac:(lia) HkJ') as Hx.
      destruct (Nat.ltb ci 8), (decide (r ∈ kids JR)); try done; exfalso; naive_solver. }
    assert (HAl : A !! l = Some (mk_anode gl MSpl rtl (if decide (l ∈ kids JR) then ps else lp) bl)).
    { rewrite HA. rewrite (decide_False (P := l = lp)) by congruence. rewrite (decide_False (P := l = ps)) by congruence. rewrite Hl. by destruct (decide (l ∈ kids JR)). }
    assert (HAr : A !! r = Some (mk_anode gr MSpl rtr (if decide (r ∈ kids JR) then ps else par) br)).
    { rewrite HA. rewrite (decide_False (P := r = lp)) by congruence. rewrite (decide_False (P := r = ps)) by congruence. rewrite Hr. by destruct (decide (r ∈ kids JR)). }
    destruct (si_pend _ _ _ _ HI') as (_ & nl & nr & G1 & G2 & G3 & G4 & _); [by right|].
    rewrite (skels_lookup _ _ _ Hl) in G1. rewrite (skels_lookup _ _ _ Hr) in G2. injection G1 as <-. injection G2 as <-.
    assert (Hrl : is_leafb br = is_leaf).
    { rewrite <- Hlf. unfold lvl, skel in G4. cbn in G4. destruct br, bl; done. }
    apply wp_bind. eapply wp_set_parent; [exact H5|exact HAr|exact Hrl|]. intros m6 H6. unfold with_pa in H6. cbn [a_gh a_md a_rt a_bd] in H6. rewrite Hwl in H6.
    apply wp_bind. eapply wp_unlock_for_split; [exact H6|apply setA_lookup|done|]. intros m7 H7. rewrite setA_setA in H7.
    apply wp_bind. eapply wp_unlock; [exact H7|lk; exact HAl|rewrite Hlf; exact Hlv|]. intros m8 H8. cbn [unlocked_rt] in H8.
    pose proof (St_ghost _ _ H8 l _ _ _ _ _ (setA_lookup _ _ _) (up_gl gl)) as H9. rewrite setA_setA in H9.
    assert (HAlp : A !! lp = Some (ND gp MSpl rtp pap JL)) by (rewrite HA; by rewrite decide_True).
    assert (HAps : A !! ps = Some (ND gp MSpl false 0%N JR)) by (rewrite HA; rewrite decide_False by done; by rewrite decide_True).
    match type of H9 with St _ ?s9 => assert (HX : sA s9 !! lp = Some (ND gp MSpl rtp pap JL)) by (lk; exact HAlp) end.
    pose proof (St_ghost _ _ H9 lp _ _ _ _ _ HX (up_gp gp pop)) as H10. clear HX.
    match type of H10 with St _ ?s9 => assert (HX : sA s9 !! ps = Some (ND gp MSpl false 0%N JR)) by (lk; exact HAps) end.
    pose proof (St_ghost _ _ H10 ps _ _ _ _ _ HX (up_gs gp pop)) as H11. clear HX.
    rewrite Hsk in *.
    match type of H11 with St _ ?s' => set (s1 := s') in * end.
    destruct (up_split K B s l r lp gl gr gp rtl rtr rtp par pap bl br J ci HI Hfree Hl Hr Hr0 Hpa Hlp Hci ps JL JR pop s1) as (I1 & I2 & I3); try done.
    { intros x. unfold s1. destruct (decide (x = lp)) as [->|]; [by lk|]. destruct (decide (x = ps)) as [->|]; [by lk|].
      destruct (decide (x = l)) as [->|]; [by lk|]. destruct (decide (x = r)) as [->|]; [by lk|]. lk. change (sA (withA A s)) with A.
      rewrite HA. destruct (decide (x = lp)); [done|]. by destruct (decide (x = ps)). }
    assert (Hrtp : rtp = (pap =? 0)%N).
    { pose proof (si_rt _ _ _ _ HI' lp _ (skels_lookup _ _ _ Hlp)) as Hx. by rewrite decide_False in Hx by done. }
    eapply (IH 0 _ s1 lp plv' ps pop _ _ false (up_gp gp pop) (up_gs gp pop) rtp false pap 0%N (BInode JL) (BInode JR) rtp Q H11 I1 I2); try done.
    + unfold s1. by lk.
    + unfold s1. by lk.
    + intros ->. change (sR s1) with (sR s). split; [done|]. rewrite Hrtp. cbn. by rewrite !andb_true_r.
    + unfold lvl, skel. cbn. rewrite (hv_h _ _ _ _ _ _ _ HH). lia.
    + intros m' s' J1 J2 J3 J4 J5. eapply HQ; [exact J1|done|done|by eapply lsame_trans|]. by eapply (envsame_trans s s1 s').
  - apply wp_bind. eapply wp_mark_insert; [exact Hplv|].
    apply wp_bind. eapply wp_insert_kc; [exact L1|exact L2|exact Hroom|exact N4|exact H1|].
    intros m2 ks cs Lks Lcs Hks Hcs H2.
    destruct (si_pend _ _ _ _ HI') as (_ & nl & nr & G1 & G2 & G3 & G4 & _); [by right|].
    rewrite (skels_lookup _ _ _ Hl) in G1. rewrite (skels_lookup _ _ _ Hr) in G2. injection G1 as <-. injection G2 as <-.
    assert (Hrl : is_leafb br = is_leaf).
    { rewrite <- Hlf. unfold lvl, skel in G4. cbn in G4. destruct br, bl; done. }
    apply wp_bind. eapply wp_set_parent; [exact H2|lk; exact Hr|exact Hrl|]. intros m3 H3. unfold with_pa in H3. cbn [a_gh a_md a_rt a_bd] in H3.
    apply wp_bind. eapply wp_unlock_for_split; [exact H3|apply setA_lookup|done|]. intros m4 H4. rewrite setA_setA in H4.
    apply wp_bind. eapply wp_unlock; [exact H4|lk; done|exact Hplv|]. intros m5 H5. cbn [unlocked_rt] in H5.
    apply wp_bind. eapply wp_unlock; [exact H5|lk; exact Hl|rewrite Hlf; exact Hlv|]. intros m6 H6. cbn [unlocked_rt] in H6.
    pose proof (St_ghost _ _ H6 l _ _ _ _ _ (setA_lookup _ _ _) (up_gl gl)) as H7. rewrite setA_setA in H7.
    apply wp_ret. rewrite Hsk in *.
    match type of H7 with St _ ?s' => set (s1 := s') in * end.
    destruct (up_done K B s l r lp gl gr gp rtl rtr rtp par pap bl br J ci HI Hfree Hl Hr Hr0 Hpa Hlp Hci ks cs s1) as (I1 & I2 & I3); try done.
    { intros x. unfold s1. destruct (decide (x = l)) as [->|]; [by lk|]. destruct (decide (x = r)) as [->|]; [by lk|].
      destruct (decide (x = lp)) as [->|]; [by lk|]. by lk. }
    eapply HQ; [exact H7|done|done|done|done].
Qed.
