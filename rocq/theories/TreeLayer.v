(** The creation of new layers. *)
From Verif Require Import Base Perm PermFacts PermList SpecPerm PermLaws Key SpecKey KeyFacts Suffix SpecSuffix SuffixFacts Prog Version Mem Tree TreeState TreePrim TreeInv TreeRead TreeSplit TreeSkel TreeInode TreeProp TreeLeaf TreeContent TreeInsert.

(** ** the skeleton of a new layer *)
Definition lgh (q : N) (pr : bytes) : ghost := mk_gh q pr 0 TOP TOP.
Section AddLayer.
Context (S : gmap N snode) (R : N) (I : SInv S R 0 0) (q : N) (pr : bytes) (Hq : S !! q = None) (Hq0 : q <> 0%N) (Hpr : exists d, length pr = d * 8).
Definition new_sn : snode := mk_sn (lgh q pr) true 0 (SL 0 0).
Local Notation S' := (<[q := new_sn]> S).
Lemma al_fwd x n : S !! x = Some n -> S' !! x = Some n.
Proof. intros H. rewrite lookup_insert_ne; [done|]. congruence. Qed.
Lemma al_back x n : S' !! x = Some n -> (x = q /\ n = new_sn) \/ (x <> q /\ S !! x = Some n).
Proof.
  intros H. destruct (decide (x = q)) as [->|].
  - rewrite lookup_insert in H. left. split; [done|congruence].
  - rewrite lookup_insert_ne in H by done. by right.
Qed.
Lemma sinv_add_layer : SInv S' R 0 0.
Proof.
  assert (Hlid : forall x n, S !! x = Some n -> lid n <> q).
  { intros x n Hx E. destruct (si_lid _ _ _ _ I x n Hx) as (n' & H1 & _). congruence. }
  split.
  - rewrite lookup_insert_ne by done. apply I.
  - destruct (si_root _ _ _ _ I) as (n & H1 & H2). exists n. split; [by apply al_fwd|done].
  - intros x n Hx. apply al_back in Hx as [[-> ->]|[_ Hx]]; [|by apply (si_gh _ _ _ _ I)].
    unfold new_sn, lgh. split; cbn [n_gh g_lo g_hi g_xh g_pre]; unfold TOP; try lia; done.
  - intros x n Hx. apply al_back in Hx as [[-> ->]|[_ Hx]].
    + exists new_sn. split; [by rewrite lookup_insert|done].
    + destruct (si_lid _ _ _ _ I x n Hx) as (n' & H1 & H2). exists n'. split; [by apply al_fwd|done].
  - intros x n Hx Hr Hpa. apply al_back in Hx as [[-> ->]|[_ Hx]]; [done|].
    destruct (si_pa _ _ _ _ I x n Hx Hr Hpa) as (pn & J & H1 & H2). exists pn, J. split; [by apply al_fwd|done].
  - intros x n Hx Hr Hpa. apply al_back in Hx as [[-> ->]|[_ Hx]]; [|by apply (si_top _ _ _ _ I)].
    split; [done|]. split; [done|]. cbn. intros E. exfalso. destruct (si_root _ _ _ _ I) as (n & H1 & H2 & _).
    apply (Hlid _ _ H1). congruence.
  - intros x n Hx. apply al_back in Hx as [[-> ->]|[_ Hx]]; [|by apply (si_rt _ _ _ _ I)]. by rewrite decide_False.
  - intros x n J Hx Hs. apply al_back in Hx as [[-> ->]|[_ Hx]]; [done|].
    destruct (si_inode _ _ _ _ I x n J Hx Hs) as [H1 H2 H3 H4 H5 H6]. split; try done.
    intros i c Hc. destruct (H6 i c Hc) as [K1 (cn & K2 & K3)]. split; [done|]. exists cn. split; [by apply al_fwd|done].
  - intros x n nx pv Hx Hs. apply al_back in Hx as [[-> ->]|[_ Hx]].
    + cbn in Hs. injection Hs as <- <-. split; done.
    + destruct (si_leaf _ _ _ _ I x n nx pv Hx Hs) as [H1 H2 H3 H4 H5]. split; try done.
      * intros Hz. destruct (H2 Hz) as (qn & nx' & K1 & K2). exists qn, nx'. split; [by apply al_fwd|done].
      * intros Hz. destruct (H4 Hz) as (qn & pv' & K1 & K2). exists qn, pv'. split; [by apply al_fwd|done].
  - intros x y n n' Hx Hy Hne Hl. apply al_back in Hx. apply al_back in Hy. destruct Hx as [[-> ->]|[_ Hx]], Hy as [[-> ->]|[_ Hy]].
    + done.
    + exfalso. by apply (Hlid _ _ Hy).
    + exfalso. by apply (Hlid _ _ Hx).
    + by apply (si_disj _ _ _ _ I x y).
  - intros x y n n' Hx Hy Hl. apply al_back in Hx. apply al_back in Hy. destruct Hx as [[-> ->]|[_ Hx]], Hy as [[-> ->]|[_ Hy]].
    + done.
    + exfalso. by apply (Hlid _ _ Hy).
    + exfalso. by apply (Hlid _ _ Hx).
    + by apply (si_deg _ _ _ _ I x y).
  - intros [?|?]; done.
Qed.
End AddLayer.

(** ** the twigs *)
Definition tw_leaf (ik kx ptr : N) : lbody := mk_lbody (perm_make_sorted 1) (<[0 := mk_slot ik kx ptr None]> (replicate 24 slot0)) 0 0 0 0.
Lemma sorted_ids n : n <= 24 -> p_wf P24 (perm_make_sorted n) /\ active_slots (perm_make_sorted n) = seq 0 n.
Proof.
  intros Hn. destruct (make_sorted_law_holds P24 P24_ok n Hn) as (H1 & H2 & _). apply perm_word_wf in H1. split; [done|]. by rewrite ids_active.
Qed.
Lemma tw_es ik kx ptr : es (tw_leaf ik kx ptr) = [mk_slot ik kx ptr None].
Proof. unfold es, ids. cbn [tw_leaf lb_perm]. rewrite (proj2 (sorted_ids 1 ltac:(lia))). done. Qed.

Lemma wp_new_layer_leaf m s (gq : N -> ghost) (Q : N -> mem -> Prop) : St m s ->
  (forall q m', q <> 0%N -> sA s !! q = None -> St m' (setA q (LF (gq q) MFree true 0%N new_leaf) s) -> Q q m') ->
  wp new_layer_leaf m Q.
Proof.
  intros HS HQ. unfold new_layer_leaf. set (g0 := mk_gh 0 [] 0 0 0).
  apply wp_bind. eapply (wp_alloc_node _ _ HS); [intros bgs; apply (leaf_root_rel g0)|apply (new_leaf_refs g0)|apply (new_leaf_refs g0)|].
  intros q m1 Hq0 Hqe Hq H1. change (setfn ?a (setA ?b ?c ?d)) with (setA b c (setfn a d)) in H1.
  apply wp_bind. eapply (wp_track _ _ H1 q (sfn s)); [done|]. intros m2 H2.
  change (setfn ?a (setA ?b ?c (setfn ?d ?e))) with (setA b c (setfn a e)) in H2.
  replace (setfn (sfn s) s) with s in H2 by (by destruct s). apply wp_ret.
  pose proof (St_ghost _ _ H2 q _ _ _ _ _ (setA_lookup _ _ _) (gq q)) as H3. rewrite setA_setA in H3. by apply HQ.
Qed.
(** generic.rs:2241-2284: linking the last twig *)
Lemma wp_link_twig m s t g rt pa ik x (Q : unit -> mem -> Prop) : St m s -> sA s !! t = Some (LF g MFree rt pa (tw_leaf ik 0 0)) ->
  (forall m', St m' (setA t (LF g MFree rt pa (tw_leaf ik LAYER_KEYLENX x)) s) -> Q tt m') ->
  wp (set_keylenx t 0 LAYER_KEYLENX ;;; set_val_ptr t 0 x) m Q.
Proof.
  intros HS Ht HQ. apply wp_bind.
  eapply (wp_set_keylenx _ _ HS t g MFree rt pa _ Ht 0 (mk_slot ik 0 0 None) LAYER_KEYLENX (sfv s)); [done|done|]. intros m1 H1.
  change (setfv (sfv s) ?a) with (setfv (sfv a) a) in H1. rewrite setfv_same in H1.
  eapply (wp_set_val_ptr _ _ H1 t g MFree rt pa _ (setA_lookup _ _ _) 0 (mk_slot ik LAYER_KEYLENX 0 None) x (sfv s)); [done| |].
  { unfold srefs, sset_ptr. cbn [s_ptr s_kx]. rewrite N.ltb_irrefl, !andb_false_r. done. }
  intros m2 H2. rewrite setA_setA in H2. change (setfv (sfv s) ?a) with (setfv (sfv a) a) in H2. rewrite setfv_same in H2. apply HQ. exact H2.
Qed.

Section Twigs.
Context (A0 : gmap N anode) (R : N) (a kb : bytes) (D : nat) (Ha : is_bytes a) (Hkb : is_bytes kb) (Hal : length a <= 256) (Hkl : length kb <= 256).
Local Notation b := (drop (D * 8) kb).
Definition tgh (i : nat) (t : N) : ghost := lgh t (take ((D + i) * 8) kb).
Definition tik (i : nat) : N := be_word (pad8 (drop ((D + i) * 8) kb)).
Definition kxn (o : option N) : N := match o with Some _ => LAYER_KEYLENX | None => 0 end.
Definition ptn (o : option N) : N := default 0%N o.
(** [ts]: the twigs; [o]: the leaf they lead to, if it exists *)
Record TI (A : gmap N anode) (ts o : list N) : Prop := {
  ti_old : forall x, x ∉ ts ++ o -> A !! x = A0 !! x;
  ti_nd : NoDup (ts ++ o);
  ti_new : forall x, x ∈ ts ++ o -> A0 !! x = None /\ x <> 0%N;
  ti_tw : forall i t, ts !! i = Some t -> A !! t = Some (LF (tgh i t) MFree true 0%N (tw_leaf (tik i) (kxn ((ts ++ o) !! (i + 1))) (ptn ((ts ++ o) !! (i + 1)))));
  ti_s : SInv (skels A) R 0 0 }.
(** the twigs so far are a common part of the two keys *)
Definition common (j : nat) : Prop := take (j * 8) a = take (j * 8) b /\ j * 8 < length a /\ j * 8 < length b.
Definition tl_post (j : nat) : Prop := common j /\
  ~ (pad8 (drop (j * 8) a) = pad8 (drop (j * 8) b) /\ 8 < length (drop (j * 8) a) /\ 8 < length (drop (j * 8) b)).

Lemma common_D j : common j -> (D + j) * 8 < length kb.
Proof. intros (_ & _ & H). rewrite drop_length in H. lia. Qed.
Lemma pre_mult j : common j -> exists d, length (take ((D + j) * 8) kb) = d * 8.
Proof. intros H. exists (D + j). rewrite take_length. pose proof (common_D j H). lia. Qed.
Lemma drop_D j : drop ((D + j) * 8) kb = drop (j * 8) b.
Proof. rewrite drop_drop. f_equal. lia. Qed.
Definition hd0 (ts : list N) : N := match ts with [] => 0 | t :: _ => t end.
Definition last0 (ts : list N) : N := default 0%N (last ts).

Lemma ti_fresh A ts o q : TI A ts o -> (forall x, x ∈ o -> A !! x <> None) -> A !! q = None -> A0 !! q = None /\ q ∉ ts ++ o.
Proof.
  intros HT Ho Hq. assert (q ∉ ts ++ o).
  { intros Hin. apply elem_of_app in Hin as [Hin|Hin]; [|by eapply Ho].
    apply elem_of_list_lookup in Hin as [i Hi]. rewrite (ti_tw _ _ _ HT i q Hi) in Hq. done. }
  split; [|done]. by rewrite <- (ti_old _ _ _ HT).
Qed.
Definition link_last (ts : list N) (q : N) (A : gmap N anode) : gmap N anode :=
  match last ts with
  | Some t => <[t := LF (tgh (length ts - 1) t) MFree true 0%N (tw_leaf (tik (length ts - 1)) LAYER_KEYLENX q)]> A
  | None => A
  end.
Lemma ti_link A ts q L : TI A ts [] -> common (length ts) -> q <> 0%N -> A !! q = None -> lb_nx L = 0%N -> lb_pv L = 0%N ->
  let A' := link_last ts q (<[q := LF (tgh (length ts) q) MFree true 0%N L]> A) in
  TI A' ts [q] /\ A' !! q = Some (LF (tgh (length ts) q) MFree true 0%N L).
Proof.
  intros HT Hc Hq0 Hq En Ep A'. destruct (ti_fresh _ _ _ q HT) as [Hq' Hni]; [intros x Hx; by apply elem_of_nil in Hx|done|].
  rewrite app_nil_r in Hni. pose proof (ti_nd _ _ _ HT) as Hnd. rewrite app_nil_r in Hnd.
  pose proof (ti_old _ _ _ HT) as Hold. pose proof (ti_new _ _ _ HT) as Hnew. pose proof (ti_tw _ _ _ HT) as Htw. rewrite app_nil_r in Hold, Hnew, Htw.
  assert (Hlast : forall t, last ts = Some t -> ts !! (length ts - 1) = Some t /\ t <> q /\ 0 < length ts).
  { intros t Ht. rewrite last_lookup in Ht. assert (H1 : ts !! (length ts - 1) = Some t) by (by replace (length ts - 1) with (pred (length ts)) by lia).
    split; [done|]. split; [intros ->; apply Hni; by eapply elem_of_list_lookup_2|]. apply lookup_lt_Some in Ht. lia. }
  set (A1 := <[q := LF (tgh (length ts) q) MFree true 0%N L]> A) in *.
  assert (HS1 : SInv (skels A1) R 0 0).
  { unfold A1. rewrite skels_set. assert (E : skel (LF (tgh (length ts) q) MFree true 0%N L) = new_sn q (take ((D + length ts) * 8) kb)).
    { unfold skel, new_sn. cbn. by rewrite En, Ep. }
    rewrite E. apply sinv_add_layer; [apply HT|by unfold skels; rewrite lookup_fmap, Hq|done|by apply pre_mult]. }
  assert (Hq1 : A1 !! q = Some (LF (tgh (length ts) q) MFree true 0%N L)) by apply lookup_insert.
  assert (HlA : forall x, A' !! x = if decide (last ts = Some x) then Some (LF (tgh (length ts - 1) x) MFree true 0%N (tw_leaf (tik (length ts - 1)) LAYER_KEYLENX q)) else A1 !! x).
  { intros x. unfold A', link_last. destruct (last ts) as [t|]; [|done]. destruct (decide (t = x)) as [->|Hne].
    - rewrite lookup_insert, decide_True by done. done.
    - rewrite lookup_insert_ne by done. rewrite decide_False by congruence. done. }
  assert (HqA : A' !! q = A1 !! q).
  { rewrite HlA, decide_False; [done|]. intros E. by destruct (Hlast q E) as (_ & ? & _). }
  split; [|by rewrite HqA]. split.
  - intros x Hx. rewrite not_elem_of_app in Hx. destruct Hx as [Hx Hxq]. rewrite HlA, decide_False.
    + unfold A1. rewrite lookup_insert_ne; [by apply Hold|]. intros ->. apply Hxq. by left.
    + intros E. destruct (Hlast x E) as (E1 & _). apply Hx. by eapply elem_of_list_lookup_2.
  - apply NoDup_app. split; [done|]. split; [|apply NoDup_singleton]. intros x Hx ->%elem_of_list_singleton. done.
  - intros x Hx. apply elem_of_app in Hx as [Hx| ->%elem_of_list_singleton]; [by apply Hnew|done].
  - intros i t Hi. pose proof (lookup_lt_Some _ _ _ Hi) as Hil. rewrite HlA. destruct (decide (last ts = Some t)) as [E|E].
    + destruct (Hlast t E) as (E1 & _). assert (i = length ts - 1) as -> by (by eapply NoDup_lookup).
      rewrite lookup_app_r by lia. replace (length ts - 1 + 1 - length ts) with 0 by lia. done.
    + assert (i + 1 < length ts).
      { destruct (decide (i + 1 = length ts)); [|lia]. exfalso. apply E. rewrite last_lookup. by replace (pred (length ts)) with i by lia. }
      unfold A1. rewrite lookup_insert_ne by (intros ->; apply Hni; by eapply elem_of_list_lookup_2). rewrite (Htw i t Hi), lookup_app_l by lia. done.
  - assert (E : skels A' = skels A1); [|by rewrite E].
    unfold A', link_last. destruct (last ts) as [t|] eqn:E; [|done]. destruct (Hlast t eq_refl) as (E1 & E2 & _).
    eapply skels_same; [unfold A1; rewrite lookup_insert_ne by congruence; by apply Htw|done].
Qed.
Lemma ti_snoc A ts q : TI A ts [q] -> A !! q = Some (LF (tgh (length ts) q) MFree true 0%N (tw_leaf (tik (length ts)) 0 0)) -> TI A (ts ++ [q]) [].
Proof.
  intros [H1 H2 H3 H4 H5] Hq. split; rewrite ?app_nil_r; try done.
  intros i t Hi. apply lookup_app_Some in Hi as [Hi|[Hl Hi]]; [by apply H4|].
  assert (i = length ts) as -> by (apply lookup_lt_Some in Hi; cbn in Hi; lia). rewrite Nat.sub_diag in Hi. injection Hi as <-.
  rewrite Hq, (lookup_ge_None_2 (ts ++ [q])) by (rewrite app_length; cbn; lia). done.
Qed.
(** generic.rs:2241-2284 *)
Lemma hd0_snoc ts q : hd0 (ts ++ [q]) = if (hd0 ts =? 0)%N && Nat.eqb (length ts) 0 then q else hd0 ts.
Proof. destruct ts; [done|]. cbn. by rewrite andb_false_r. Qed.
Lemma compare_eq i : common i -> key_compare (kpos a i) (k_ikey (kpos kb (D + i))) (key_current_len (kpos kb (D + i))) = Eq ->
  key_has_suffix (kpos a i) && key_has_suffix (kpos kb (D + i)) = true -> common (i + 1) /\ tik i = be_word (pad8 (drop (i * 8) a)).
Proof.
  intros Hc Hcmp Hs. pose proof Hc as (C1 & C2 & C3). pose proof (common_D i Hc) as HD. rewrite !has_suffix_pos in Hs. apply andb_prop in Hs as [S1 S2].
  apply Nat.ltb_lt in S1, S2. unfold key_compare in Hcmp. rewrite !ikey_pos in Hcmp by lia. rewrite drop_D in *.
  destruct (N.compare_spec (be_word (pad8 (drop (i * 8) a))) (be_word (pad8 (drop (i * 8) b)))) as [E|E|E]; [|done|done].
  unfold tik. rewrite drop_D. split; [|done]. apply slice_eq in E; [|by apply Forall_drop|by apply Forall_drop, Forall_drop].
  split; [|rewrite !drop_length in *; lia]. rewrite !take_step, C1. f_equal. rewrite <- !pad8_long by lia. done.
Qed.
Lemma compare_post i : common i -> 
  ~ (key_compare (kpos a i) (k_ikey (kpos kb (D + i))) (key_current_len (kpos kb (D + i))) = Eq /\ key_has_suffix (kpos a i) && key_has_suffix (kpos kb (D + i)) = true) -> tl_post i.
Proof.
  intros Hc Hn. split; [done|]. intros (E1 & E2 & E3). apply Hn. pose proof Hc as (C1 & C2 & C3). pose proof (common_D i Hc) as HD.
  rewrite compare_pos by (done || lia). cbv zeta. rewrite !has_suffix_pos, drop_D. rewrite bool_decide_true by done.
  apply Nat.ltb_lt in E2, E3. by rewrite E2, E3.
Qed.
Lemma wp_assoc {X Y Z} (p : P X) (q : P Y) (k : P Z) m Q : wp (p ;;; q ;;; k) m Q <-> wp ((p ;;; q) ;;; k) m Q.
Proof. unfold wp. rewrite !VersionLaws.run_bind. destruct (run p m) as [[r m']|]; [|done]. by rewrite !VersionLaws.run_bind. Qed.
Lemma ti_hd A ts o t : TI A ts o -> hd0 (t :: ts) = t. Proof. done. Qed.
Lemma wp_linked {X} (k : P X) m s ts q L (Q : X -> mem -> Prop) : 
  St m (withA (<[q := LF (tgh (length ts) q) MFree true 0%N L]> (sA s)) s) -> TI (sA s) ts [] -> q ∉ ts -> ts <> [] ->
  (forall m', St m' (withA (link_last ts q (<[q := LF (tgh (length ts) q) MFree true 0%N L]> (sA s))) s) -> wp k m' Q) ->
  wp (set_keylenx (last0 ts) 0 LAYER_KEYLENX ;;; set_val_ptr (last0 ts) 0 q ;;; k) m Q.
Proof.
  intros HS HT Hq Hts HQ. destruct (last ts) as [t|] eqn:E; [|by apply last_None in E]. unfold last0. rewrite E. cbn [default].
  assert (E1 : ts !! (length ts - 1) = Some t) by (rewrite last_lookup in E; by replace (length ts - 1) with (pred (length ts)) by lia).
  pose proof (lookup_lt_Some _ _ _ E1) as Hl.
  pose proof (ti_tw _ _ _ HT _ _ E1) as Ht. rewrite (lookup_ge_None_2 (ts ++ [])) in Ht by (rewrite app_nil_r; lia).
  rewrite wp_assoc. apply wp_bind. eapply (wp_link_twig _ _ t (tgh (length ts - 1) t) true 0%N (tik (length ts - 1)) q); [exact HS| |].
  { cbn [withA sA]. rewrite lookup_insert_ne; [exact Ht|]. intros ->. apply Hq. by eapply elem_of_list_lookup_2. }
  intros m' H'. apply HQ. unfold link_last. rewrite E. exact H'.
Qed.
Lemma wp_twig_loop n : forall m s ts (Q : N * N * key * key * comparison -> mem -> Prop), St m s -> TI (sA s) ts [] -> common (length ts) -> 33 <= n + length ts ->
  (forall m' s' ts', St m' s' -> s' = withA (sA s') s -> TI (sA s') ts' [] -> tl_post (length ts') ->
     Q (hd0 ts', last0 ts', kpos a (length ts'), kpos kb (D + length ts'),
        key_compare (kpos a (length ts')) (k_ikey (kpos kb (D + length ts'))) (key_current_len (kpos kb (D + length ts')))) m') ->
  wp (twig_loop n (hd0 ts) (last0 ts) (kpos a (length ts)) (kpos kb (D + length ts))) m Q.
Proof.
  induction n as [|n IH]; intros m s ts Q HS HT Hc Hn HQ.
  { exfalso. destruct Hc as (_ & Hc & _). lia. }
  cbn [twig_loop]. set (j := length ts) in *.
  destruct (key_compare (kpos a j) (k_ikey (kpos kb (D + j))) (key_current_len (kpos kb (D + j)))) eqn:Ecmp.
  2,3: apply wp_ret; rewrite <- Ecmp; apply (HQ m s); [done|by rewrite withA_same|done|apply compare_post; [done|]; unfold j in *; rewrite Ecmp; intros [E9 _]; discriminate E9].
  destruct (key_has_suffix (kpos a j) && key_has_suffix (kpos kb (D + j))) eqn:Es.
  2: apply wp_ret; rewrite <- Ecmp; apply (HQ m s); [done|by rewrite withA_same|done|apply compare_post; [done|]; intros [_ E9]; unfold j in *; congruence].
  destruct (compare_eq j Hc Ecmp Es) as [Hc' Hik].
  apply wp_bind. apply (wp_new_layer_leaf _ _ (tgh j) _ HS). intros q m1 Hq0 Hq H1.
  pose proof (lookup_insert (sA s) q (LF (tgh j q) MFree true 0%N new_leaf)) as Hq1.
  apply wp_bind. eapply (wp_set_ikey _ _ H1 q (tgh j q) MFree true 0%N new_leaf Hq1 0 slot0); [done|]. intros m2 H2. rewrite setA_setA in H2.
  apply wp_bind. eapply (wp_set_permutation _ _ H2 q (tgh j q) MFree true 0%N _ (setA_lookup _ _ _)). intros m3 H3. rewrite setA_setA in H3.
  rewrite ikey_pos in H3 by (destruct Hc as (_ & ? & _); lia). rewrite <- Hik in H3.
  set (L := tw_leaf (tik j) 0 0) in *.
  assert (H3' : St m3 (withA (<[q := LF (tgh j q) MFree true 0%N L]> (sA s)) s)) by exact H3.
  destruct (ti_link _ _ _ L HT Hc Hq0 Hq eq_refl eq_refl) as [HT' Hq']. fold j in HT', Hq'.
  destruct (ti_fresh _ _ _ q HT) as [_ Hni]; [intros x Hx; by apply elem_of_nil in Hx|done|]. rewrite app_nil_r in Hni.
  assert (Hlen : length (ts ++ [q]) = j + 1) by (rewrite app_length; cbn; lia).
  assert (Hrec : forall m4, St m4 (withA (link_last ts q (<[q := LF (tgh j q) MFree true 0%N L]> (sA s))) s) ->
    wp (twig_loop n (hd0 (ts ++ [q])) q (key_shift (kpos a j)) (key_shift (kpos kb (D + j)))) m4 Q).
  { intros m4 H4. rewrite !shift_pos. replace (D + j + 1) with (D + length (ts ++ [q])) by lia. replace (j + 1) with (length (ts ++ [q])) by lia.
    assert (El : last0 (ts ++ [q]) = q) by (unfold last0; by rewrite last_snoc). rewrite <- El at 2.
    eapply IH; [exact H4|by eapply ti_snoc|by rewrite Hlen|rewrite Hlen; lia|].
    intros m' s' ts' G1 G2 G3 G4. apply (HQ m' s'); try done. }
  apply wp_bind. destruct ts as [|t0 ts0] eqn:Ets.
  - cbn [hd0]. rewrite N.eqb_refl. apply wp_ret. apply Hrec. exact H3'.
  - cbn [hd0]. destruct (ti_new _ _ _ HT t0) as [_ Ht0]; [by left|]. rewrite (proj2 (N.eqb_neq _ _) Ht0).
    eapply (wp_linked _ _ _ (t0 :: ts0)); [exact H3'|done|done|done|]. intros m4 H4. apply wp_ret. by apply Hrec.
Qed.
End Twigs.

(** ** the leaf with the two keys *)
Lemma wp_assign_from_key m s kb d v p g md rt pa L i x (Q : unit -> mem -> Prop) : is_bytes kb -> d * 8 <= length kb -> length kb <= 256 ->
  St m s -> sA s !! p = Some (LF g md rt pa L) -> lb_sl L !! i = Some x -> s_ptr x = 0%N -> s_sf x = None ->
  (lb_bud L + N.of_nat (length (drop (d * 8) kb)) < U32_MAX)%N ->
  (forall h y bg bud m', h <> 0%N -> sV s !! h = None -> rest_of y (drop (d * 8) kb) -> s_ptr y = h -> (s_kx y <> KSUF_KEYLENX -> s_sf y = None) ->
     (bud <= lb_bud L + N.of_nat (length (drop (d * 8) kb)))%N ->
     St m' (setV (<[h := v]> (sV s)) (setA p (LF g md rt pa (mk_lbody (lb_perm L) (<[i := y]> (lb_sl L)) bg bud (lb_nx L) (lb_pv L))) s)) -> Q tt m') ->
  wp (assign_from_key p i (kpos kb d) (Some v)) m Q.
Proof.
  intros Hkb Hd Hlen HS Hp Hx Hx0 Hxs Hbud HQ. cbn [assign_from_key].
  apply wp_bind. eapply (wp_set_ikey _ _ HS p g md rt pa _ Hp i x); [done|]. intros m1 H1. rewrite ikey_pos in H1 by done.
  set (x1 := sset_ik (be_word (pad8 (drop (d * 8) kb))) x) in *. unfold lslot in H1.
  apply wp_bind. apply (wp_to_raw _ _ H1). intros h m2 Hh Hhf H2. cbn [setA sV] in Hhf. change (sV (setA ?a ?b ?c)) with (sV c) in H2. change (sfv (setA ?a ?b ?c)) with (sfv c) in H2.
  assert (Hi : i < length (lb_sl L)) by (by eapply lookup_lt_Some).
  eapply (wp_store_rest _ _ kb d v p g md rt pa _ i x1 h (sfv s)); [done|done|done|exact H2|cbn; apply lookup_insert|cbn; by apply list_lookup_insert|done|done|done|done|done|done|cbn; apply lookup_insert| |].
  { intros. by rewrite current_len_pos, Nat.min_l by done. }
  intros y bg bud m3 R1 R2 R3 R4 H3. eapply (HQ h y bg bud); try done.
  cbn [lset_sl lb_sl lb_perm lb_nx lb_pv] in H3. rewrite list_insert_insert in H3.
  unfold setfv, setV, setA in H3 |- *. cbn [sA sR sC sV sfv sfn] in H3 |- *. by rewrite insert_insert in H3.
Qed.
Definition two (bg bud : N) (y0 y1 : slot) : lbody := mk_lbody (perm_make_sorted 2) (<[1 := y1]> (<[0 := y0]> (replicate 24 slot0))) bg bud 0 0.
Lemma two_es bg bud y0 y1 : es (two bg bud y0 y1) = [y0; y1].
Proof. unfold es, ids. cbn [two lb_perm]. rewrite (proj2 (sorted_ids 2 ltac:(lia))). done. Qed.
Lemma one_ok K B S V q pr e : (s_ik e < TOP)%N -> s_sf e = None -> s_kx e <> KSUF_KEYLENX -> ent_ok K S V (lgh q pr) e -> leaf_ok K B S V (lgh q pr) (tw_leaf (s_ik e) (s_kx e) (s_ptr e)).
Proof.
  intros He Hsf Hkx Hok. assert (E : mk_slot (s_ik e) (s_kx e) (s_ptr e) None = e) by (destruct e; cbn in *; by subst).
  assert (Hes : es (tw_leaf (s_ik e) (s_kx e) (s_ptr e)) = [e]) by (by rewrite tw_es, E).
  split.
  - done.
  - apply sorted_ids. lia.
  - intros i x Hx Hn. cbn in Hx. unfold ids in Hn. cbn [tw_leaf lb_perm] in Hn. rewrite (proj2 (sorted_ids 1 ltac:(lia))) in Hn.
    destruct i; [exfalso; apply Hn; cbn; by left|]. cbn [lookup list_lookup] in Hx. apply elem_of_list_lookup_2 in Hx. 
    change (x ∈ replicate 23 slot0) in Hx. apply elem_of_replicate in Hx as [-> _]. done.
  - intros i x Hx _. cbn [tw_leaf lb_sl] in Hx. apply list_lookup_insert_Some in Hx as [(_ & <- & _)|[_ Hx]]; [done|].
    apply elem_of_list_lookup_2, elem_of_replicate in Hx as [-> _]. done.
  - rewrite Hes. intros [|i] [|j] e1 e2 Hij; try lia; done.
  - rewrite Hes. intros x ->%elem_of_list_singleton. cbn [lgh g_lo g_hi]. lia.
  - rewrite Hes. by intros x ->%elem_of_list_singleton.
  - rewrite Hes. apply NoDup_singleton.
  - done.
  - done.
  - cbn. lia.
Qed.
Lemma two_ok K B S V q pr bg bud y0 y1 : (s_ik y0 <= s_ik y1)%N -> (s_ik y1 < TOP)%N -> ecls y0 <> ecls y1 ->
  (s_kx y0 <> KSUF_KEYLENX -> s_sf y0 = None) -> (s_kx y1 <> KSUF_KEYLENX -> s_sf y1 = None) ->
  ent_ok K S V (lgh q pr) y0 -> ent_ok K S V (lgh q pr) y1 -> (bud <= B)%N -> leaf_ok K B S V (lgh q pr) (two bg bud y0 y1).
Proof.
  intros Hle Htop Hc Hf0 Hf1 H0 H1 Hb. pose proof (two_es bg bud y0 y1) as Hes.
  split.
  - done.
  - apply sorted_ids. lia.
  - intros i x Hx Hn. unfold ids in Hn. cbn [two lb_perm] in Hn. rewrite (proj2 (sorted_ids 2 ltac:(lia))) in Hn.
    cbn [two lb_sl] in Hx. apply list_lookup_insert_Some in Hx as [(<- & _ & _)|[_ Hx]]; [exfalso; apply Hn; right; left|].
    apply list_lookup_insert_Some in Hx as [(<- & _ & _)|[_ Hx]]; [exfalso; apply Hn; left|].
    apply elem_of_list_lookup_2, elem_of_replicate in Hx as [-> _]. done.
  - intros i x Hx. cbn [two lb_sl] in Hx. apply list_lookup_insert_Some in Hx as [(_ & <- & _)|[_ Hx]]; [done|].
    apply list_lookup_insert_Some in Hx as [(_ & <- & _)|[_ Hx]]; [done|].
    apply elem_of_list_lookup_2, elem_of_replicate in Hx as [-> _]. done.
  - rewrite Hes. intros [|[|i]] [|[|j]] e1 e2 Hij; try lia; cbn; try done. by intros [= <-] [= <-].
  - rewrite Hes. intros x [->|[->|[]%elem_of_nil]%elem_of_cons]%elem_of_cons; cbn [lgh g_lo g_hi]; lia.
  - rewrite Hes. by intros x [->|[->|[]%elem_of_nil]%elem_of_cons]%elem_of_cons.
  - rewrite Hes. apply NoDup_cons. split; [|apply NoDup_singleton]. by intros ?%elem_of_list_singleton.
  - done.
  - done.
  - done.
Qed.
Lemma compare_leb a i kb d : i * 8 <= length a -> d * 8 <= length kb ->
  let ef := match key_compare (kpos a i) (k_ikey (kpos kb d)) (key_current_len (kpos kb d)) with
    | Lt => true | Gt => false | Eq => Nat.leb (key_current_len (kpos a i)) (key_current_len (kpos kb d)) end in
  if ef then (be_word (pad8 (drop (i * 8) a)) <= be_word (pad8 (drop (d * 8) kb)))%N else (be_word (pad8 (drop (d * 8) kb)) <= be_word (pad8 (drop (i * 8) a)))%N.
Proof.
  intros H1 H2 ef. unfold ef, key_compare. rewrite !ikey_pos by done.
  destruct (N.compare_spec (be_word (pad8 (drop (i * 8) a))) (be_word (pad8 (drop (d * 8) kb)))); [|lia|lia].
  match goal with |- if ?b then _ else _ => destruct b end; lia.
Qed.
Section Final.
Context (a kb : bytes) (i d : nat) (Ha : is_bytes a) (Hkb : is_bytes kb) (Hal : length a <= 256) (Hkl : length kb <= 256) (Hi : i * 8 <= length a) (Hd : d * 8 <= length kb).
Definition finl (ef : bool) bg bud ye yn : lbody := if ef then two bg bud ye yn else two bg bud yn ye.
Lemma wp_assign_final m s q g ve vn (Q : unit -> mem -> Prop) : St m s -> sA s !! q = Some (LF g MFree true 0%N new_leaf) ->
  (forall ef bg bud ye yn m' V', rest_of ye (drop (i * 8) a) -> rest_of yn (drop (d * 8) kb) ->
     (s_kx ye <> KSUF_KEYLENX -> s_sf ye = None) -> (s_kx yn <> KSUF_KEYLENX -> s_sf yn = None) -> (bud <= 512)%N ->
     s_ptr ye <> 0%N -> s_ptr yn <> 0%N -> V' !! s_ptr ye = Some ve -> V' !! s_ptr yn = Some vn -> (forall h w, sV s !! h = Some w -> V' !! h = Some w) ->
     (if (ef : bool) then s_ik ye <= s_ik yn else s_ik yn <= s_ik ye)%N ->
     St m' (setV V' (setA q (LF g MFree true 0%N (finl ef bg bud ye yn)) s)) -> Q tt m') ->
  wp (assign_final q (kpos a i) (Some ve) (kpos kb d) (Some vn) (key_compare (kpos a i) (k_ikey (kpos kb d)) (key_current_len (kpos kb d)))) m Q.
Proof.
  intros HS Hq HQ. unfold assign_final. pose proof (compare_leb a i kb d Hi Hd) as Hcmp. cbv zeta in Hcmp.
  destruct (match key_compare _ _ _ with Eq => _ | Lt => _ | Gt => _ end).
  - apply wp_bind, wp_bind. eapply (wp_assign_from_key _ _ a i ve q _ _ _ _ _ 0 slot0); [done|done|done|exact HS|exact Hq|done|done|done| |].
    { cbn [new_leaf lb_bud]. rewrite drop_length. unfold U32_MAX. lia. }
    intros h y bg bud m1 H1 H2 H3 H4 H5 H6 HS1.
    eapply (wp_assign_from_key _ _ kb d vn q _ _ _ _ _ 1 slot0); [done|done|done|exact HS1|apply lookup_insert|done|done|done| |].
    { cbn [new_leaf lb_bud] in H6 |- *. rewrite drop_length in H6 |- *. unfold U32_MAX. lia. }
    cbn [lb_perm lb_sl lb_bg lb_bud lb_nx lb_pv]. intros h' y' bg' bud' m2 G1 G2 G3 G4 G5 G6 HS2.
    eapply (wp_set_permutation _ _ HS2); [apply lookup_insert|]. intros m3 HS3.
    cbn [setV setA sV] in G2. rewrite lookup_insert_None in G2. destruct G2 as [G2 Gne].
    eapply (HQ true bg' bud' y y' m3 (<[h' := vn]> (<[h := ve]> (sV s)))); try done; rewrite ?H4, ?G4; try done.
    + cbn [new_leaf lb_bud] in H6. rewrite drop_length in G6, H6. lia.
    + rewrite lookup_insert_ne by done. apply lookup_insert.
    + apply lookup_insert.
    + intros x w Hx. rewrite !lookup_insert_ne; [done|congruence|congruence].
    + destruct H3 as (_ & -> & _), G3 as (_ & -> & _). exact Hcmp.
    + unfold setV, setA in HS3 |- *. cbn [sA sR sC sV sfv sfn] in HS3 |- *. rewrite !insert_insert in HS3. exact HS3.
  - apply wp_bind, wp_bind. eapply (wp_assign_from_key _ _ kb d vn q _ _ _ _ _ 0 slot0); [done|done|done|exact HS|exact Hq|done|done|done| |].
    { cbn [new_leaf lb_bud]. rewrite drop_length. unfold U32_MAX. lia. }
    intros h y bg bud m1 H1 H2 H3 H4 H5 H6 HS1.
    eapply (wp_assign_from_key _ _ a i ve q _ _ _ _ _ 1 slot0); [done|done|done|exact HS1|apply lookup_insert|done|done|done| |].
    { cbn [new_leaf lb_bud] in H6 |- *. rewrite drop_length in H6 |- *. unfold U32_MAX. lia. }
    cbn [lb_perm lb_sl lb_bg lb_bud lb_nx lb_pv]. intros h' y' bg' bud' m2 G1 G2 G3 G4 G5 G6 HS2.
    eapply (wp_set_permutation _ _ HS2); [apply lookup_insert|]. intros m3 HS3.
    cbn [setV setA sV] in G2. rewrite lookup_insert_None in G2. destruct G2 as [G2 Gne].
    eapply (HQ false bg' bud' y' y m3 (<[h' := ve]> (<[h := vn]> (sV s)))); try done; rewrite ?H4, ?G4; try done.
    + cbn [new_leaf lb_bud] in H6. rewrite drop_length in G6, H6. lia.
    + apply lookup_insert.
    + rewrite lookup_insert_ne by done. apply lookup_insert.
    + intros x w Hx. rewrite !lookup_insert_ne; [done|congruence|congruence].
    + destruct H3 as (_ & -> & _), G3 as (_ & -> & _). exact Hcmp.
    + unfold setV, setA in HS3 |- *. cbn [sA sR sC sV sfv sfn] in HS3 |- *. rewrite !insert_insert in HS3. exact HS3.
Qed.
End Final.
