(** Concurrent executions on the whole tree: passing a split on to the parents. *)
From Verif Require Import Base Perm PermFacts PermList PermLaws SpecPerm Key SpecKey KeyFacts Prog Version VersionFacts Mem Tree
  SpecTree TreeState SpecLin Conc ConcStep ConcRules ConcRead ConcPar ConcMem ConcAlloc ConcOwn ConcLeaf ConcIns ConcInode.
From Verif Require LinInsert.

(** ** nodes ready to be unlocked *)
Definition ready (w : world) (pe : gmap N (list N)) (p : N) (n : node) : Prop := match n with
  | NLeaf l => leaf_good l /\ is_frozen (l_perm l) = false
  | NInode x => NoDup (kids x) /\ 0%N ∉ kids x /\ exists l, pe !! p = Some l /\ forall c, c ∈ l <-> c ∈ kids x end.
Definition nkids (n : node) : list N := match n with NLeaf _ => [] | NInode x => kids x end.
Lemma ready_mono w w' pe p n : Mono w w' -> ready w pe p n -> ready w' pe p n.
Proof. intros M. by destruct n. Qed.
Lemma ready_pe w pe pe' p n : pe' !! p = pe !! p -> ready w pe p n -> ready w pe' p n.
Proof. intros E. destruct n as [l|x]; [done|]. cbn. by rewrite E. Qed.
(** the children of [ks] now have [q] as their parent *)
Definition moved (pe pe' : gmap N (list N)) (q : N) (ks : list N) : Prop := forall o lo, pe !! o = Some lo -> exists lo', pe' !! o = Some lo' /\
  forall y, y ∈ lo' <-> if decide (o = q) then y ∈ lo \/ y ∈ ks else y ∈ lo /\ y ∉ ks.
Lemma moved_nil pe q : moved pe pe q [].
Proof. intros o lo H. exists lo. split; [done|]. intros y. pose proof (not_elem_of_nil y). case_decide; tauto. Qed.
Lemma moved_app pe1 pe2 pe3 q k1 k2 : moved pe1 pe2 q k1 -> moved pe2 pe3 q k2 -> moved pe1 pe3 q (k1 ++ k2).
Proof.
  intros H1 H2 o lo Ho. destruct (H1 o lo Ho) as (l2 & Hl2 & E2). destruct (H2 o l2 Hl2) as (l3 & Hl3 & E3). exists l3. split; [done|].
  intros y. pose proof (E2 y) as P2. pose proof (E3 y) as P3. pose proof (elem_of_app k1 k2 y). destruct (decide (o = q)); tauto.
Qed.
Lemma moved_ext pe pe' q k1 k2 : moved pe pe' q k1 -> (forall y, y ∈ k1 <-> y ∈ k2) -> moved pe pe' q k2.
Proof. intros H E o lo Ho. destruct (H o lo Ho) as (lo' & H1 & H2). exists lo'. split; [done|]. intros y. rewrite H2. pose proof (E y). case_decide; tauto. Qed.
Lemma moved_one pe c q lq : pe !! q = Some lq -> moved pe (move_kid c q lq pe) q [c].
Proof.
  intros Hq o lo Ho. unfold move_kid. destruct (decide (o = q)) as [->|Hne].
  - rewrite lookup_insert. exists (c :: lq). split; [done|]. intros y. rewrite Hq in Ho. injection Ho as <-. rewrite elem_of_cons, elem_of_list_singleton. tauto.
  - rewrite lookup_insert_ne, lookup_fmap, Ho by done. eexists. split; [reflexivity|]. intros y. rewrite elem_of_list_filter, elem_of_list_singleton. tauto.
Qed.
Lemma ready_moved w pe pe' q ks p n : moved pe pe' q ks -> p <> q -> (forall c, c ∈ ks -> c ∉ nkids n) -> ready w pe p n -> ready w pe' p n.
Proof.
  intros Hm Hpq Hk. destruct n as [l|x]; [done|]. intros (H1 & H2 & l & H3 & H4). split; [done|]. split; [done|].
  destruct (Hm p l H3) as (l' & H5 & H6). exists l'. split; [done|]. intros c. rewrite H6. rewrite decide_False by done. rewrite H4.
  split; [tauto|]. intros H. split; [done|]. intros Hc. by apply (Hk c Hc).
Qed.
Lemma kid_lev i σ w p x c : At i σ w -> nl σ !! p = Some (NInode x) -> c ∈ kids x -> c <> 0%N -> vis w c (i_height x).
Proof.
  intros A0 Hp Hc Hz. apply ptr_vis; [|done]. apply (io_child _ _ (at_inode_ok _ _ _ p _ A0 Hp)). unfold kids in Hc. by eapply elem_of_take in Hc as (j & Hj & _); eapply elem_of_list_lookup_2.
Qed.

(** ** unlocking *)
Lemma cwp_unlock i nl hs un pe tp zs w p n lv md rt (Q : unit -> world -> Prop) :
  At i (L nl hs un ∅ ∅ pe tp zs) w -> nl !! p = Some n -> p ∈ tp -> p ∈ wpub w -> ready w pe p n ->
  md <> MFree -> vbits lv md rt (nleaf n) -> vcnt lv = vcnt (nver n) ->
  (forall w1, Mono w w1 -> At i (L nl hs un ∅ ∅ pe tp zs) w1 -> root (wm w1) = p -> unlocked_rt md rt = true) ->
  (forall w', At i (L (delete p nl) hs un ∅ ∅ (delete p pe) (tp ∖ {[p]}) (zs ∖ {[p]})) w' -> Mono w w' -> Q tt w') ->
  cwp i (unlock p lv) w Q.
Proof.
  intros A0 Hn Hp Hpub Hrd Hmd Hv Hc Hr HQ. eapply cwp_release; [exact A0|exact Hn|apply not_elem_of_empty|exact Hmd|exact Hv|exact Hc| | |exact Hr|exact HQ].
  - intros w1 M1 A1. split; [done|]. pose proof (ready_mono _ _ _ _ _ M1 Hrd) as H. by destruct n.
  - intros w1 M1 _. by apply M1.
Qed.
Lemma at_rootf i σ w p n md rt lf : At i σ w -> nl σ !! p = Some n -> vbits (nver n) md rt lf -> root (wm w) = p -> rt = true.
Proof. intros A0 Hn Hv Hr. destruct rt; [done|]. by destruct (at_nonroot _ _ _ _ _ _ _ A0 Hn Hv). Qed.
Lemma cwp_unlock_split i nl hs un pe tp zs w p n (Q : unit -> world -> Prop) :
  At i (L nl hs un ∅ ∅ pe tp zs) w -> nl !! p = Some n -> p ∈ wpub w -> ready w pe p n -> parented w p ->
  vbits (nver n) MSpl false (nleaf n) ->
  (forall w', At i (L (delete p nl) hs un ∅ ∅ (delete p pe) (tp ∖ {[p]}) (zs ∖ {[p]})) w' -> Mono w w' -> Q tt w') ->
  cwp i (unlock_for_split p) w Q.
Proof.
  intros A0 Hn Hpub Hrd (n' & Hp & Hpa) Hv HQ. pose proof (at_add_tp _ _ _ _ _ _ _ _ _ _ _ _ _ A0 Hn Hp Hpa) as A1.
  unfold unlock_for_split, ver_unlock_for_split. apply cwp_bind. change (ver_load (rd_ver p)) with (version p).
  eapply cwp_rver; [exact A1|exact Hn|]. intros w1 A2 R1. pose proof (rl_mono _ _ _ R1) as M1.
  rewrite (vbits_lockedf _ _ _ _ Hv), (vbits_splitting _ _ _ _ Hv). cbn [andb].
  rewrite unlock_for_split_eq by (rewrite <- is_splitting_bit; by rewrite (vbits_splitting _ _ _ _ Hv)).
  change (ver_store (rd_ver p) (wr_ver p) (v_unlock (nver n))) with (unlock p (nver n)).
  eapply (cwp_unlock i nl hs un pe ({[p]} ∪ tp) zs w1 p n (nver n) MSpl false); [exact A2|exact Hn| | | | | | | |].
  - apply elem_of_union_l. by apply elem_of_singleton.
  - by apply M1.
  - by eapply ready_mono.
  - done.
  - done.
  - done.
  - intros w2 M2 A3 Hr. by eapply at_rootf in Hr.
  - intros w2 A3 M2. apply HQ; [|by eapply mono_trans]. eapply at_weaken; [exact A3|done| |done].
    intros y. rewrite !elem_of_difference, elem_of_union, !elem_of_singleton. tauto.
Qed.

(** ** parents *)
Lemma cwp_setpar i nl hs un ns pr pe tp zs w c q k lq nq (rel : bool) b (Q : unit -> world -> Prop) :
  At i (L nl hs un ns pr pe tp zs) w -> nl !! q = Some nq -> pe !! q = Some lq ->
  q ∈ wpub w -> lev w q = Some (S k) -> lev w c = Some k -> b = Nat.eqb k 0 ->
  (c ∈ zs /\ (forall w1, Mono w w1 -> At i (L nl hs un ns pr pe tp zs) w1 -> root (wm w1) <> c)) \/
    (exists q0 l0, pe !! q0 = Some l0 /\ c ∈ l0) ->
  (q ∈ ns -> is_Some (nl !! c)) ->
  (rel = true -> finishes q nq c lq ns tp) ->
  (forall w', At i (if rel then L (delete q nl) hs un (ns ∖ {[q]}) pr (delete q (move_kid c q lq pe)) (tp ∖ {[q]}) (zs ∖ {[c]} ∖ {[q]})
                    else L nl hs un ns pr (move_kid c q lq pe) tp (zs ∖ {[c]})) w' -> Mono w w' -> parented w' c -> Q tt w') ->
  cwp i (set_parent c q b) w Q.
Proof.
  intros A0 Hnq Hlq Hpub Hlev Hc -> Hold Hns Hrel HQ.
  assert (HQ' : forall w', At i (if rel then L (delete q nl) hs un (ns ∖ {[q]}) pr (delete q (move_kid c q lq pe)) (tp ∖ {[q]}) (zs ∖ {[c]} ∖ {[q]})
                    else L nl hs un ns pr (move_kid c q lq pe) tp (zs ∖ {[c]})) w' -> Mono w w' -> (forall n, hp w' !! c = Some n -> npar n <> 0%N) -> Q tt w').
  { intros w' A1 M1 H. apply HQ; [done|done|]. unfold lev in Hc. destruct (hp w !! c) as [n|] eqn:E; [|done].
    destruct (mono_hp _ _ _ _ M1 E) as (n' & E' & _). exists n'. split; [done|]. by apply H. }
  unfold set_parent. destruct k as [|k]; cbn [Nat.eqb].
  - unfold set_leaf_parent, leaf_up. eapply (cwp_reparent _ _ _ _ _ _ _ _ _ _ c q _ 0 lq nq rel); try done.
    intros m n Hm Hl. rewrite Hm. by destruct n.
  - unfold set_inode_parent, inode_up. eapply (cwp_reparent _ _ _ _ _ _ _ _ _ _ c q _ (S k) lq nq rel); try done.
    intros m n Hm Hl. rewrite Hm. by destruct n.
Qed.
Definition setp (k : nat) : N -> N -> P unit := if Nat.eqb k 0 then set_leaf_parent else set_inode_parent.
Lemma setp_eq k c q : setp k c q = set_parent c q (Nat.eqb k 0). Proof. by destruct k. Qed.

(** internode.rs:651-686, propagation.rs: every child of the new node gets it as parent *)
Lemma cwp_reparent_children i nl hs un pr pe tp zs w q x lq (Q : unit -> world -> Prop) :
  At i (L nl hs un ∅ pr pe tp zs) w -> nl !! q = Some (NInode x) -> pe !! q = Some lq -> q ∈ wpub w -> 0%N ∉ kids x ->
  (forall c, c ∈ kids x -> (c ∈ zs /\ (forall σ w1, At i σ w1 -> Conc.nl σ = nl -> root (wm w1) <> c)) \/ (exists q0 l0, pe !! q0 = Some l0 /\ c ∈ l0)) ->
  (forall w' pe' zs', At i (L nl hs un ∅ pr pe' tp zs') w' -> Mono w w' -> moved pe pe' q (kids x) -> (forall c, c ∈ zs -> c ∉ kids x -> c ∈ zs') ->
     (forall c, c ∈ kids x -> parented w' c) -> Q tt w') ->
  cwp i (reparent_children q (setp (i_height x))) w Q.
Proof.
  intros A0 Hq Hlq Hpub Hnz Hsrc HQ. pose proof (at_inode_ok _ _ _ q _ A0 Hq) as [[B1 B2] B3 B4 B5].
  unfold reparent_children. apply cwp_bind. eapply (cwp_rinode _ _ _ _ _ _ (i_nkeys x)); [exact A0|exact Hq|done|]. intros w1 A1 R1.
  assert (Hlen : length (kids x) = i_nkeys x + 1) by (unfold kids; rewrite take_length; lia).
  eapply (cwp_for_seq (fun j w2 => Mono w w2 /\ exists pe' zs', At i (L nl hs un ∅ pr pe' tp zs') w2 /\ moved pe pe' q (take j (kids x)) /\
     (forall c, c ∈ zs -> c ∉ take j (kids x) -> c ∈ zs') /\ (forall c, c ∈ take j (kids x) -> parented w2 c))).
  - split; [apply R1|]. exists pe, zs. split; [done|]. rewrite take_0. split; [apply moved_nil|]. split; [done|]. by intros c H%not_elem_of_nil.
  - intros j w2 Hj (M2 & pe' & zs' & A2 & Hm & Hzs & Hpa).
    destruct (lookup_lt_is_Some_2 (kids x) j) as [c Hc]; [lia|].
    assert (Hcx : i_child x !! j = Some c) by (unfold kids in Hc; rewrite lookup_take in Hc by lia; done).
    pose proof (elem_of_list_lookup_2 _ _ _ Hc) as Hck. assert (c <> 0%N) as Hc0 by (by intros ->).
    apply cwp_bind. eapply (cwp_rinode _ _ _ _ _ _ c); [exact A2|exact Hq|intros; exact Hcx|]. intros w3 A3 R3.
    pose proof (rl_mono _ _ _ R3) as M3. pose proof (mono_trans _ _ _ M2 M3) as M03.
    rewrite (proj2 (N.eqb_neq _ _) Hc0), setp_eq. destruct (Hm q lq Hlq) as (lq' & Hlq' & Elq).
    pose proof (kid_lev _ _ _ _ _ _ A3 Hq Hck Hc0) as [_ Hcl]. pose proof (at_lev _ _ _ _ _ A3 Hq) as Hql.
    eapply (cwp_setpar _ _ _ _ _ _ _ _ _ _ c q (i_height x) lq' _ false); [exact A3|exact Hq|exact Hlq'|by apply M03|exact Hql|exact Hcl|done| | | |].
    + destruct (decide (c ∈ take j (kids x))) as [Hin|Hin].
      * right. exists q, lq'. split; [done|]. apply Elq. rewrite decide_True by done. by right.
      * destruct (Hsrc c Hck) as [[H1 H2]|(q0 & l0 & H1 & H2)].
        -- left. split; [by apply Hzs|]. intros w4 _ A4. exact (H2 _ w4 A4 eq_refl).
        -- right. destruct (Hm q0 l0 H1) as (l0' & H3 & H4). exists q0, l0'. split; [done|]. apply H4. case_decide; [by left|done].
    + by intros H%not_elem_of_empty.
    + done.
    + intros w4 A4 M4 Hpa4. cbn iota in A4. split; [by eapply mono_trans|]. eexists _, _. split; [exact A4|].
      rewrite (Nat.add_1_r j), (take_S_r _ _ _ Hc). split; [|split].
      * eapply moved_app; [exact Hm|by apply moved_one].
      * intros y Hy Hny. rewrite elem_of_app, elem_of_list_singleton in Hny. apply elem_of_difference. split; [apply Hzs; tauto|].
        rewrite elem_of_singleton. tauto.
      * intros y Hy. rewrite elem_of_app, elem_of_list_singleton in Hy. destruct Hy as [Hy| ->]; [|done].
        eapply parented_mono; [exact (mono_trans _ _ _ M3 M4)|by apply Hpa].
  - intros w2 (M2 & pe' & zs' & A2 & Hm & Hzs & Hpa). rewrite take_ge in * by lia. by eapply HQ.
Qed.

(** parent_locking.rs:22-33 *)
Lemma cwp_find_child i σ w p x c (Q : option nat -> world -> Prop) : At i σ w -> nl σ !! p = Some (NInode x) -> c ∈ kids x ->
  (forall w' j, At i σ w' -> Mono w w' -> kids x !! j = Some c -> j <= i_nkeys x -> Q (Some j) w') -> cwp i (find_child_index p c) w Q.
Proof.
  intros A0 Hp Hc HQ. pose proof (at_inode_ok _ _ _ p _ A0 Hp) as [[B1 B2] B3 B4 B5].
  unfold find_child_index. apply cwp_bind. eapply (cwp_rinode _ _ _ _ _ _ (i_nkeys x)); [exact A0|exact Hp|done|]. intros w1 A1 R1.
  assert (Hlen : length (kids x) = i_nkeys x + 1) by (unfold kids; rewrite take_length; lia).
  assert (H : forall k a w2, Mono w w2 -> At i σ w2 -> a + k = i_nkeys x + 1 -> (forall t, t < a -> kids x !! t <> Some c) ->
     cwp i (find_child p c (seq a k)) w2 Q).
  { induction k as [|k IH]; intros a w2 M2 A2 Ha Hn; cbn [seq find_child].
    - apply elem_of_list_lookup in Hc as (t & Ht). pose proof (lookup_lt_Some _ _ _ Ht). by destruct (Hn t ltac:(lia)).
    - destruct (lookup_lt_is_Some_2 (kids x) a) as [y Hy]; [lia|].
      assert (Hyx : i_child x !! a = Some y) by (unfold kids in Hy; rewrite lookup_take in Hy by lia; done).
      apply cwp_bind. eapply (cwp_rinode _ _ _ _ _ _ y); [exact A2|exact Hp|intros; exact Hyx|]. intros w3 A3 R3.
      assert (Mono w w3) by (eapply mono_trans; [exact M2|apply R3]).
      destruct (N.eqb_spec y c) as [->|Hne]; [apply HQ; [done|done|done|lia]|].
      apply IH; [done|done|lia|]. intros t Ht. destruct (decide (t = a)) as [->|]; [congruence|apply Hn; lia]. }
  apply H; [apply R1|done|lia|lia].
Qed.

(** ** a new root *)
Lemma ready_nset w pe p v n : ready w pe p n -> ready w pe p (nset v n).
Proof. destruct n as [l|x]; [|done]. intros (H & H2). split; [|done]. by destruct H. Qed.
Lemma ready_kids0 w pe p n : ready w pe p n -> 0%N ∉ nkids n.
Proof. destruct n as [l|x]; [intros _; apply not_elem_of_nil|by intros (_ & ? & _)]. Qed.
Lemma not_nkid i σ w p n pe c k : At i σ w -> nl σ !! p = Some n -> ready w pe p n -> lev w c = Some k -> nlev n <= k -> c ∉ nkids n.
Proof.
  intros A0 Hp Hrd Hc Hk Hin. pose proof (ready_kids0 _ _ _ _ Hrd) as H0. destruct n as [l|x]; cbn in *; [by apply not_elem_of_nil in Hin|].
  destruct (kid_lev _ _ _ _ _ c A0 Hp Hin) as [_ Hl]; [by intros ->|]. rewrite Hc in Hl. injection Hl as ->. lia.
Qed.
Lemma at_root_is i σ w p : At i σ w -> p ∈ tp σ -> p ∈ zs σ -> root (wm w) = p.
Proof.
  intros A0 H1 H2. destruct (at_tp _ _ _ A0 p H1) as [B1 B2]. destruct (at_zs _ _ _ A0 p H2) as [_ B3].
  pose proof (iv_own _ (at_inv _ _ _ A0) _ _ B1) as [n Hn]. apply (B2 n Hn). by apply B3.
Qed.
Lemma set_back (x : N) : ({[x]} ∪ ∅) ∖ {[x]} = (∅ : gset N). Proof. set_solver. Qed.
Lemma set_back1 (x : N) : {[x]} ∖ {[x]} = (∅ : gset N). Proof. set_solver. Qed.
Lemma elem_sing (x : N) : x ∈ ({[x]} : gset N). Proof. by apply elem_of_singleton. Qed.
Lemma elem_unl (x : N) (s : gset N) : x ∈ {[x]} ∪ s. Proof. apply elem_of_union_l, elem_sing. Qed.

(** root_creation.rs:69-141, 158-223 *)
Lemma cwp_create_root i pe tp0 w l n1 r n2 k sk rt1 (Q : unit -> world -> Prop) :
  At i (L (<[l := n1]> (<[r := n2]> ∅)) ∅ ∅ ∅ ∅ pe tp0 ({[l]} ∪ {[r]})) w -> l ∈ tp0 -> l <> r -> vis w l k -> vis w r k ->
  nlev n1 = k -> nlev n2 = k -> ready w pe l n1 -> ready w pe r n2 -> vbits (nver n1) MSpl rt1 (nleaf n1) ->
  (forall w' pe', At i (L (<[l := nset (v_mark_nonroot (nver n1)) n1]> (<[r := n2]> ∅)) ∅ ∅ ∅ ∅ pe' ({[l]}) ∅) w' -> Mono w w' ->
     parented w' l -> parented w' r -> ready w' pe' l (nset (v_mark_nonroot (nver n1)) n1) -> ready w' pe' r n2 -> Q tt w') ->
  cwp i (create_main_root l r sk (nleaf n1)) w Q.
Proof.
  intros A0 Hlt Hlr Hvl Hvr Hk1 Hk2 Hr1 Hr2 Hv1 HQ. unfold create_main_root. set (nl0 := <[l := n1]> (<[r := n2]> (∅ : gmap N node))) in *.
  assert (Hl0 : nl0 !! l = Some n1) by apply lookup_insert.
  assert (Hr0 : nl0 !! r = Some n2) by (unfold nl0; rewrite lookup_insert_ne by done; apply lookup_insert).
  apply cwp_bind.
  eapply (cwp_mono i _ _ (fun h w1 => h = k /\ At i (L nl0 ∅ ∅ ∅ ∅ pe tp0 ({[l]} ∪ {[r]})) w1 /\ Mono w w1)).
  { destruct n1 as [ll|x1]; cbn [nleaf].
    - apply cwp_ret. split; [done|]. split; [done|apply mono_refl].
    - apply cwp_bind. eapply (cwp_rinode _ _ _ _ _ _ (i_height x1)); [exact A0|exact Hl0|done|]. intros w1 A1 R1. apply cwp_ret.
      split; [cbn in Hk1; lia|]. split; [done|apply R1]. }
  intros h w1 (-> & A1 & M1). apply cwp_bind.
  eapply (cwp_alloc i _ _ _ _ _ _ _ _ w1 _ false MFree true); [exact A1| | |done|].
  { split; [done|]. split; [done|]. split; [done|]. split; [cbn; lia|]. intros c Hc. by apply elem_of_list_In, repeat_spec in Hc. }
  { change (vbits (v_mark_root (v_new false)) MFree true false). apply (vbits_root _ MFree false), vbits_new. }
  intros nr w2 A2 M2 _ Hnrl _ Hnr0 Hnre _ _. cbn iota in A2.
  pose proof (mono_trans _ _ _ M1 M2) as M02.
  assert (Hnl : nr <> l) by (intros ->; congruence). assert (Hnr : nr <> r) by (intros ->; congruence).
  set (x0 := inode_new (v_mark_root (v_new false)) k) in *.
  assert (B2 : Aw i w2 (L (<[nr := NInode x0]> nl0) ∅ ({[nr]} ∪ ∅) ∅ ({[nr]} ∪ ∅) (<[nr := []]> pe) tp0 ({[nr]} ∪ ({[l]} ∪ {[r]}))) w2) by (split; [done|apply mono_refl]).
  assert (Hmine : forall x, mine ∅ ({[nr]} ∪ ∅) nr x) by (intros x; split; [apply not_elem_of_empty|left; apply elem_unl]).
  pose proof (vis_mono _ _ _ _ M02 Hvl) as Hvl2. pose proof (vis_mono _ _ _ _ M02 Hvr) as Hvr2.
  apply cwp_bind. eapply aw_set_child; [exact B2|apply lookup_insert|apply Hmine|lia|by right|]. intros w3 B3. rewrite insert_insert in B3.
  apply cwp_bind. eapply aw_set_key; [exact B3|apply lookup_insert|apply Hmine|lia|]. intros w4 B4. rewrite insert_insert in B4.
  apply cwp_bind. eapply aw_set_child; [exact B4|apply lookup_insert|apply Hmine|lia|right; eapply vis_mono; [apply B4|exact Hvr2]|]. intros w5 B5. rewrite insert_insert in B5.
  apply cwp_bind. eapply aw_set_nkeys; [exact B5|apply lookup_insert|apply Hmine|lia|]. intros w6 B6. rewrite insert_insert in B6.
  match type of B6 with Aw _ _ (L (<[nr := NInode ?y]> _) _ _ _ _ _ _ _) _ => set (x := y) in * end.
  assert (Hkx : kids x = [l; r]) by done. assert (Hhx : i_height x = k) by done. assert (Hvx : i_ver x = v_mark_root (v_new false)) by done.
  clearbody x. clear B2 B3 B4 B5. destruct B6 as [A6 M26]. pose proof (mono_trans _ _ _ M02 M26) as M06.
  apply cwp_bind. eapply cwp_track; [exact A6|apply elem_unl|]. intros w7 A7 M7. rewrite set_back in A7. pose proof (mono_trans _ _ _ M06 M7) as M07.
  apply cwp_bind. eapply (cwp_cas_root _ _ _ _ _ _ _ _ _ l nr x); [exact A7|done| |apply elem_unl|apply elem_unl|apply lookup_insert|apply lookup_insert| |].
  { apply elem_of_union_r, elem_unl. }
  { by rewrite Hvx. }
  intros w8 A8 M8 Hnpub. rewrite set_back in A8. pose proof (mono_trans _ _ _ M07 M8) as M08. cbn iota.
  assert (Hxnl : forall y n, y <> nr -> nl0 !! y = Some n -> (<[nr := NInode x]> nl0) !! y = Some n) by (intros y n Hy H; by rewrite lookup_insert_ne).
  assert (Hnx : (<[nr := NInode x]> nl0) !! nr = Some (NInode x)) by apply lookup_insert.
  pose proof (at_lev _ _ _ _ _ A8 Hnx) as Hlx. cbn in Hlx. rewrite Hhx in Hlx.
  assert (Hb : nleaf n1 = Nat.eqb k 0) by (rewrite <- Hk1; by destruct n1).
  apply cwp_bind. eapply (cwp_setpar _ _ _ _ _ _ _ _ _ _ l nr k [] _ false); [exact A8|exact Hnx|apply lookup_insert|exact Hnpub|exact Hlx|by eapply vis_mono; [exact M08|]|exact Hb| | |done|].
  { left. split; [apply elem_of_union_r, elem_unl|]. intros w9 _ A9. rewrite (at_root_is _ _ _ nr A9); [done|apply elem_unl|apply elem_unl]. }
  { intros _. exists n1. by apply Hxnl. }
  intros w9 A9 M9 Hpl. cbn iota in A9. pose proof (mono_trans _ _ _ M08 M9) as M09.
  assert (Hnrl9 : nr ∈ ({[nr]} ∪ ({[l]} ∪ {[r]})) ∖ ({[l]} : gset N)) by (apply elem_of_difference; split; [apply elem_unl|by rewrite elem_of_singleton]).
  apply cwp_bind. eapply (cwp_setpar _ _ _ _ _ _ _ _ _ _ r nr k [l] _ true); [exact A9|exact Hnx|apply lookup_insert|by apply M9|by apply M9|by eapply vis_mono; [exact M09|]|exact Hb| | | |].
  { left. split.
    - apply elem_of_difference. split; [apply elem_of_union_r, elem_of_union_r, elem_sing|by rewrite elem_of_singleton].
    - intros w10 _ A10. rewrite (at_root_is _ _ _ nr A10); [done|apply elem_unl|done]. }
  { intros _. exists n2. by apply Hxnl. }
  { intros _. split; [done|]. split; [apply elem_unl|]. split; [cbn; by rewrite Hvx|]. exists x. split; [done|]. rewrite Hkx. split; [|split].
    - constructor; [by rewrite elem_of_list_singleton|]. constructor; [apply not_elem_of_nil|constructor].
    - rewrite !elem_of_cons. destruct Hvl as [Hvl' _]. destruct Hvr as [Hvr' _]. pose proof (not_elem_of_nil 0%N).
      pose proof (at_inv _ _ _ A0) as I0. pose proof (iv_pub _ I0 _ Hvl') as [? ?%(iv_addr _ I0)]. pose proof (iv_pub _ I0 _ Hvr') as [? ?%(iv_addr _ I0)].
      intros [?|[?|?]]; [lia|lia|done].
    - intros y. rewrite !elem_of_cons. tauto. }
  intros w10 A10 M10 Hpr. cbn iota in A10. rewrite delete_insert in A10 by done. rewrite set_back1 in A10.
  pose proof (mono_trans _ _ _ M09 M10) as M010. pose proof (parented_mono _ _ _ M10 Hpl) as Hpl10.
  match type of A10 with At _ (L _ _ _ _ _ (delete nr ?e) ?t ?z) _ => set (pe2 := e) in *; set (tp2 := t) in *; set (zs2 := z) in * end.
  assert (Hmv : moved (<[nr := []]> pe) pe2 nr [l; r]).
  { change [l; r] with ([l] ++ [r]). eapply moved_app; [apply moved_one|]; [apply lookup_insert|]. unfold pe2. apply moved_one. apply lookup_insert. }
  assert (Hrd : forall y n, y <> nr -> nl0 !! y = Some n -> nlev n = k -> ready w pe y n -> ready w10 (delete nr pe2) y n).
  { intros y n Hy Hn Hlv Hrd. eapply ready_pe; [by rewrite lookup_delete_ne|]. eapply ready_moved; [exact Hmv|done| |].
    - intros c Hc. eapply (not_nkid _ _ w y n pe c k); [exact A0|exact Hn|done| |lia]. rewrite !elem_of_cons in Hc.
      destruct Hc as [->|[->|Hc]]; [apply Hvl|apply Hvr|by apply not_elem_of_nil in Hc].
    - eapply ready_pe; [by rewrite lookup_insert_ne|]. by eapply ready_mono. }
  unfold mark_nonroot, ver_mark_nonroot. eapply (cwp_wver i _ _ _ _ _ _ _ _ w10 l n1 v_mark_nonroot); [exact A10|exact Hl0|apply not_elem_of_empty| | | | |].
  - exists MSpl, false. split; [done|]. by eapply vbits_nonroot.
  - apply nonroot_vcnt.
  - intros _. by rewrite (vbits_splitting _ _ _ _ (vbits_nonroot _ _ _ _ Hv1)).
  - right. intros w11 M11 A11. apply parented_root; [apply A11|]. by eapply parented_mono.
  - intros w11 A11 M11. unfold nl0 in A11. rewrite insert_insert in A11. destruct (parented_mono _ _ _ M11 Hpl10) as (n' & Hn' & Hpa').
    assert (A12 := at_add_tp _ _ _ _ _ _ _ _ _ _ l _ _ A11 (lookup_insert _ _ _) Hn' Hpa').
    apply (HQ w11 (delete nr pe2)).
    + eapply at_weaken; [exact A12|done| |apply empty_subseteq]. intros y ->%elem_of_singleton. apply elem_unl.
    + by eapply mono_trans.
    + by eapply parented_mono.
    + by eapply parented_mono.
    + apply ready_nset. eapply ready_mono; [exact M11|by apply Hrd].
    + eapply ready_mono; [exact M11|by apply Hrd].
Qed.
