(** What every primitive access does to the abstract state. *)
From Verif Require Import Base Perm Key Suffix SpecSuffix SuffixFacts Prog Version VersionFacts Mem Tree TreeState.

Notation LF g md rt pa L := (mk_anode g md rt pa (BLeaf L)).
Notation ND g md rt pa J := (mk_anode g md rt pa (BInode J)).

Definition lset_perm v (L : lbody) := mk_lbody v (lb_sl L) (lb_bg L) (lb_bud L) (lb_nx L) (lb_pv L).
Definition lset_sl v (L : lbody) := mk_lbody (lb_perm L) v (lb_bg L) (lb_bud L) (lb_nx L) (lb_pv L).
Definition lset_nx v (L : lbody) := mk_lbody (lb_perm L) (lb_sl L) (lb_bg L) (lb_bud L) v (lb_pv L).
Definition lset_pv v (L : lbody) := mk_lbody (lb_perm L) (lb_sl L) (lb_bg L) (lb_bud L) (lb_nx L) v.
Definition lset_bag b bud (L : lbody) := mk_lbody (lb_perm L) (lb_sl L) b bud (lb_nx L) (lb_pv L).
Definition sset_ik v (x : slot) := mk_slot v (s_kx x) (s_ptr x) (s_sf x).
Definition sset_kx v (x : slot) := mk_slot (s_ik x) v (s_ptr x) (s_sf x).
Definition sset_ptr v (x : slot) := mk_slot (s_ik x) (s_kx x) v (s_sf x).
Definition sset_sf v (x : slot) := mk_slot (s_ik x) (s_kx x) (s_ptr x) v.
Definition iset_nk v (J : ibody) := mk_ibody v (ib_ht J) (ib_ks J) (ib_cs J).
Definition iset_ht v (J : ibody) := mk_ibody (ib_nk J) v (ib_ks J) (ib_cs J).
Definition iset_ks v (J : ibody) := mk_ibody (ib_nk J) (ib_ht J) v (ib_cs J).
Definition iset_cs v (J : ibody) := mk_ibody (ib_nk J) (ib_ht J) (ib_ks J) v.

(** ** reads *)
Section Reads.
Context (m : mem) (s : ast) (HS : St m s).
Context (p : N) (g : ghost) (md : vmode) (rt : bool) (pa : N).

Section Leaf.
Context (L : lbody) (Hp : sA s !! p = Some (LF g md rt pa L)).
Lemma wp_leaf_ld {R} (f : leaf -> option R) r (Q : R -> mem -> Prop) :
  (forall l, l_parent l = pa -> leaf_rel (bags m) l L -> f l = Some r) -> Q r m -> wp (leaf_ld p f) m Q.
Proof.
  intros Hf HQ. destruct (St_leaf _ _ _ _ _ _ _ _ HS Hp) as (l & H1 & H2 & H3 & H4).
  eapply wp_atomic; [|exact HQ]. cbn beta. rewrite H1. by rewrite (Hf l).
Qed.
Lemma wp_ikey i x (Q : N -> mem -> Prop) : lb_sl L !! i = Some x -> Q (s_ik x) m -> wp (ikey p i) m Q.
Proof. intros Hx. apply wp_leaf_ld. intros l _ H. rewrite (lr_ik _ _ _ H), list_lookup_fmap, Hx. done. Qed.
Lemma wp_keylenx i x (Q : N -> mem -> Prop) : lb_sl L !! i = Some x -> Q (s_kx x) m -> wp (keylenx p i) m Q.
Proof. intros Hx. apply wp_leaf_ld. intros l _ H. rewrite (lr_kx _ _ _ H), list_lookup_fmap, Hx. done. Qed.
Lemma wp_val_ptr i x (Q : N -> mem -> Prop) : lb_sl L !! i = Some x -> Q (s_ptr x) m -> wp (val_ptr p i) m Q.
Proof. intros Hx. apply wp_leaf_ld. intros l _ H. rewrite (lr_val _ _ _ H), list_lookup_fmap, Hx. done. Qed.
Lemma wp_permutation (Q : N -> mem -> Prop) : Q (lb_perm L) m -> wp (permutation p) m Q.
Proof. apply wp_leaf_ld. intros l _ H. by rewrite (lr_perm _ _ _ H). Qed.
Lemma wp_ksuf_ptr (Q : N -> mem -> Prop) : Q (lb_bg L) m -> wp (ksuf_ptr p) m Q.
Proof. apply wp_leaf_ld. intros l _ H. by rewrite (lr_bg _ _ _ H). Qed.
Lemma wp_next_raw (Q : N -> mem -> Prop) : Q (lb_nx L) m -> wp (next_raw p) m Q.
Proof. apply wp_leaf_ld. intros l _ H. by rewrite (lr_nx _ _ _ H). Qed.
Lemma wp_prev (Q : N -> mem -> Prop) : Q (lb_pv L) m -> wp (prev p) m Q.
Proof. apply wp_leaf_ld. intros l _ H. by rewrite (lr_pv _ _ _ H). Qed.
Lemma wp_leaf_parent (Q : N -> mem -> Prop) : Q pa m -> wp (leaf_parent p) m Q.
Proof. apply wp_leaf_ld. intros l H _. by rewrite H. Qed.
(** leaf24.rs:364-378, when the slot holds a suffix *)
Lemma wp_ksuf i x (Q : option bytes -> mem -> Prop) : lb_sl L !! i = Some x ->
  Q (if (s_kx x =? KSUF_KEYLENX)%N then s_sf x else None) m -> wp (ksuf p i) m Q.
Proof.
  intros Hx HQ. unfold ksuf. apply wp_bind. eapply wp_keylenx; [done|].
  destruct (N.eqb_spec (s_kx x) KSUF_KEYLENX); [|done].
  apply wp_bind, wp_ksuf_ptr. destruct (St_leaf _ _ _ _ _ _ _ _ HS Hp) as (l & H1 & H2 & H3 & H4).
  pose proof (lr_bag _ _ _ H4) as HB. unfold bag_rel in HB.
  destruct (N.eqb_spec (lb_bg L) 0) as [Hz|Hz].
  - rewrite decide_True in HB by done. rewrite (HB i x Hx) in HQ. done.
  - rewrite decide_False in HB by done. destruct HB as (bg & mm & E1 & E2 & E3).
    eapply wp_atomic; [|exact HQ]. cbn beta. rewrite E1.
    rewrite (bag_get_inv 24 _ _ _ i E2); [by rewrite <- (E3 i x)|].
    rewrite <- (lr_len _ _ _ H4). by eapply lookup_lt_Some.
Qed.
Lemma wp_ksuf_equals i x suf (Q : bool -> mem -> Prop) : lb_sl L !! i = Some x -> s_kx x = KSUF_KEYLENX ->
  Q (bool_decide (s_sf x = Some suf)) m -> wp (ksuf_equals p i suf) m Q.
Proof.
  intros Hx Hk HQ. unfold ksuf_equals. apply wp_bind. eapply wp_keylenx; [done|].
  rewrite Hk, N.eqb_refl.
  apply wp_bind, wp_ksuf_ptr. destruct (St_leaf _ _ _ _ _ _ _ _ HS Hp) as (l & H1 & H2 & H3 & H4).
  pose proof (lr_bag _ _ _ H4) as HB. unfold bag_rel in HB.
  destruct (N.eqb_spec (lb_bg L) 0) as [Hz|Hz].
  - rewrite decide_True in HB by done. rewrite (HB i x Hx) in HQ. rewrite bool_decide_false in HQ by done. done.
  - rewrite decide_False in HB by done. destruct HB as (bg & mm & E1 & E2 & E3).
    eapply wp_atomic; [|exact HQ]. cbn beta. rewrite E1. unfold bag_equals.
    rewrite (bag_get_inv 24 _ _ _ i E2).
    2: { rewrite <- (lr_len _ _ _ H4). by eapply lookup_lt_Some. }
    rewrite <- (E3 i x) by done. cbn [res_bind]. destruct (s_sf x) as [y|]; cbn.
    + f_equal. f_equal. destruct (decide (y = suf)) as [->|]; [by rewrite !bool_decide_true|by rewrite !bool_decide_false by congruence].
    + by rewrite bool_decide_false.
Qed.
End Leaf.

Section Inode.
Context (J : ibody) (Hp : sA s !! p = Some (ND g md rt pa J)).
Lemma wp_inode_ld {R} (f : inode -> option R) r (Q : R -> mem -> Prop) :
  (forall i, i_parent i = pa -> inode_rel i J -> f i = Some r) -> Q r m -> wp (inode_ld p f) m Q.
Proof.
  intros Hf HQ. destruct (St_inode _ _ _ _ _ _ _ _ HS Hp) as (l & H1 & H2 & H3 & H4).
  eapply wp_atomic; [|exact HQ]. cbn beta. rewrite H1. by rewrite (Hf l).
Qed.
Lemma wp_nkeys (Q : nat -> mem -> Prop) : Q (ib_nk J) m -> wp (nkeys p) m Q.
Proof. apply wp_inode_ld. intros i _ H. by rewrite (ir_nk _ _ H). Qed.
Lemma wp_height (Q : nat -> mem -> Prop) : Q (ib_ht J) m -> wp (height p) m Q.
Proof. apply wp_inode_ld. intros i _ H. by rewrite (ir_ht _ _ H). Qed.
Lemma wp_inode_parent (Q : N -> mem -> Prop) : Q pa m -> wp (inode_parent p) m Q.
Proof. apply wp_inode_ld. intros i H _. by rewrite H. Qed.
Lemma wp_inode_ikey j x (Q : N -> mem -> Prop) : ib_ks J !! j = Some x -> Q x m -> wp (inode_ikey p j) m Q.
Proof. intros Hx. apply wp_inode_ld. intros i _ H. by rewrite (ir_ks _ _ H). Qed.
Lemma wp_child j x (Q : N -> mem -> Prop) : ib_cs J !! j = Some x -> Q x m -> wp (child p j) m Q.
Proof. intros Hx. apply wp_inode_ld. intros i _ H. by rewrite (ir_cs _ _ H). Qed.
Lemma inode_lens : length (ib_ks J) = 15 /\ length (ib_cs J) = 16.
Proof.
  destruct (St_inode _ _ _ _ _ _ _ _ HS Hp) as (l & H1 & H2 & H3 & H4).
  split; [exact (ir_lk _ _ H4)|exact (ir_lc _ _ H4)].
Qed.
End Inode.
Lemma leaf_len L : sA s !! p = Some (LF g md rt pa L) -> length (lb_sl L) = 24.
Proof.
  intros Hp. destruct (St_leaf _ _ _ _ _ _ _ _ HS Hp) as (l & H1 & H2 & H3 & H4). exact (lr_len _ _ _ H4).
Qed.

Context (b : body) (Hp : sA s !! p = Some (mk_anode g md rt pa b)).
Lemma wp_version (Q : N -> mem -> Prop) :
  (forall w, rd_ver p m = Some w -> vbits w md rt (is_leafb b) -> Q w m) -> wp (version p) m Q.
Proof.
  intros HQ. destruct (St_ver _ _ _ _ HS Hp) as (w & H1 & H2 & _).
  eapply wp_atomic; [|apply (HQ w H1 H2)]. cbn beta. by rewrite H1.
Qed.
Lemma wp_flag f r (Q : bool -> mem -> Prop) :
  (forall w, vbits w md rt (is_leafb b) -> f w = r) -> Q r m -> wp (flag p f) m Q.
Proof.
  intros Hf HQ. unfold flag. apply wp_bind, wp_version. intros w _ Hw. apply wp_ret. by rewrite (Hf w Hw).
Qed.
Lemma wp_flag_leaf (Q : bool -> mem -> Prop) : Q (is_leafb b) m -> wp (flag p v_is_leaf) m Q.
Proof. apply wp_flag. intros w. apply vbits_leaf. Qed.
Lemma wp_flag_root (Q : bool -> mem -> Prop) : Q rt m -> wp (flag p v_is_root) m Q.
Proof. apply wp_flag. intros w. apply vbits_rootf. Qed.
Lemma wp_flag_deleted (Q : bool -> mem -> Prop) : Q false m -> wp (flag p v_is_deleted) m Q.
Proof. apply wp_flag. intros w. apply vbits_deleted. Qed.
Lemma wp_flag_splitting (Q : bool -> mem -> Prop) :
  Q match md with MSpl => true | _ => false end m -> wp (flag p v_is_splitting) m Q.
Proof. apply wp_flag. intros w. apply vbits_splitting. Qed.
Lemma wp_flag_locked (Q : bool -> mem -> Prop) :
  Q match md with MFree => false | _ => true end m -> wp (flag p v_is_locked) m Q.
Proof. apply wp_flag. intros w. apply vbits_lockedf. Qed.
Lemma wp_flag_dirty (Q : bool -> mem -> Prop) : md = MFree -> Q false m -> wp (flag p v_is_dirty) m Q.
Proof. intros E. apply wp_flag. intros w Hw. rewrite E in Hw. exact (vbits_free_load _ _ _ Hw). Qed.
Lemma wp_stable F (Q : N -> mem -> Prop) : 0 < F -> md = MFree ->
  (forall w, rd_ver p m = Some w -> vbits w MFree rt (is_leafb b) -> Q w m) -> wp (stable F p) m Q.
Proof.
  intros HF E HQ. destruct F as [|F]; [lia|]. unfold stable. cbn [ver_stable].
  apply wp_bind. eapply wp_version. intros w Hw Hb. rewrite E in Hb.
  rewrite (vbits_free_load _ _ _ Hb). apply wp_ret. auto.
Qed.
Lemma wp_has_changed old (Q : bool -> mem -> Prop) : rd_ver p m = Some old -> Q false m -> wp (has_changed p old) m Q.
Proof.
  intros Ho HQ. unfold has_changed, ver_has_changed. apply wp_bind. eapply wp_atomic; [by rewrite Ho|].
  apply wp_ret. unfold v_has_changed. rewrite N.lxor_nilpotent. done.
Qed.
End Reads.

Lemma wp_load_root m s (Q : N -> mem -> Prop) : St m s -> Q (sR s) m -> wp load_root m Q.
Proof. intros H HQ. eapply wp_atomic; [|exact HQ]. cbn beta. by rewrite (st_root _ _ H). Qed.
Lemma wp_load_count m s (Q : N -> mem -> Prop) : St m s -> Q (sC s) m -> wp load_count m Q.
Proof. intros H HQ. eapply wp_atomic; [|exact HQ]. cbn beta. by rewrite (st_cnt _ _ H). Qed.
Lemma wp_from_raw m s h v (Q : N -> mem -> Prop) : St m s -> sV s !! h = Some v -> Q v m -> wp (output_from_raw h) m Q.
Proof. intros H Hv HQ. eapply wp_atomic; [|exact HQ]. cbn beta. by rewrite (st_vals _ _ H), Hv. Qed.

(** ** writes to one node *)
Lemma setfv_same s : setfv (sfv s) s = s. Proof. by destruct s. Qed.
Lemma setA_setA p n n' s : setA p n (setA p n' s) = setA p n s.
Proof. unfold setA. cbn. by rewrite insert_insert. Qed.
Lemma setA_lookup p n s : sA (setA p n s) !! p = Some n.
Proof. apply lookup_insert. Qed.
Lemma setA_lookup_ne p q n s : p <> q -> sA (setA p n s) !! q = sA s !! q.
Proof. apply lookup_insert_ne. Qed.
Lemma setA_comm p q n n' s : p <> q -> setA p n (setA q n' s) = setA q n' (setA p n s).
Proof. intros. unfold setA. cbn. by rewrite insert_commute. Qed.
Lemma setA_same p n s : sA s !! p = Some n -> setA p n s = s.
Proof. intros H. unfold setA. rewrite insert_id by done. by destruct s. Qed.

Section Writes.
Context (m : mem) (s : ast) (HS : St m s).
Context (p : N) (g : ghost) (md : vmode) (rt : bool) (pa : N).

Section Leaf.
Context (L : lbody) (Hp : sA s !! p = Some (LF g md rt pa L)).
(** generic store to a leaf *)
Lemma wp_leaf_up {R} (f : leaf -> option (R * leaf)) r L' fv' pa' (Q : R -> mem -> Prop) :
  (forall l, l_parent l = pa -> leaf_rel (bags m) l L ->
     exists l', f l = Some (r, l') /\ l_ver l' = l_ver l /\ l_parent l' = pa' /\ leaf_rel (bags m) l' L') ->
  lb_bg L' = lb_bg L ->
  concat (map srefs (lb_sl L')) ++ fv' ≡ₚ concat (map srefs (lb_sl L)) ++ sfv s ->
  (forall m', St m' (setfv fv' (setA p (LF g md rt pa' L') s)) -> Q r m') ->
  wp (leaf_up p f) m Q.
Proof.
  intros Hf Hb Hv HQ. destruct (St_leaf _ _ _ _ _ _ _ _ HS Hp) as (l & H1 & H2 & H3 & H4).
  destruct (Hf l H3 H4) as (l' & E1 & E2 & E3 & E4).
  eapply wp_atomic.
  - cbn beta. rewrite H1, E1. reflexivity.
  - apply HQ. eapply St_node; [done|done|..].
    + cbn. rewrite E2. done.
    + unfold nbags. cbn. by rewrite Hb.
    + exact Hv.
Qed.
Lemma wp_leaf_up0 {R} (f : leaf -> option (R * leaf)) r L' pa' (Q : R -> mem -> Prop) :
  (forall l, l_parent l = pa -> leaf_rel (bags m) l L ->
     exists l', f l = Some (r, l') /\ l_ver l' = l_ver l /\ l_parent l' = pa' /\ leaf_rel (bags m) l' L') ->
  lb_bg L' = lb_bg L -> map srefs (lb_sl L') = map srefs (lb_sl L) ->
  (forall m', St m' (setA p (LF g md rt pa' L') s) -> Q r m') ->
  wp (leaf_up p f) m Q.
Proof.
  intros Hf Hb Hv HQ. eapply (wp_leaf_up _ _ _ (sfv s)); [exact Hf|done|by rewrite Hv|].
  intros m' H'. apply HQ. exact H'.
Qed.

Definition lslot (i : nat) (y : slot) : lbody := lset_sl (<[i := y]> (lb_sl L)) L.

Lemma leaf_rel_slot l l' i x y : leaf_rel (bags m) l L -> lb_sl L !! i = Some x ->
  s_sf y = s_sf x ->
  l_perm l' = l_perm l -> l_ikey l' = <[i := s_ik y]> (l_ikey l) -> l_klx l' = <[i := s_kx y]> (l_klx l) ->
  l_val l' = <[i := s_ptr y]> (l_val l) -> l_ksuf l' = l_ksuf l -> l_next l' = l_next l -> l_prev l' = l_prev l ->
  leaf_rel (bags m) l' (lslot i y).
Proof.
  intros HL Hx Hsf E1 E2 E3 E4 E5 E6 E7. destruct HL as [R1 lr_ik0 lr_kx0 lr_val0 R5 R6 R7 R8 lr_bag0]. unfold lslot.
  split; cbn [lset_sl lb_perm lb_sl lb_bg lb_nx lb_pv lb_bud]; try congruence.
  - rewrite E2, lr_ik0. symmetry. apply list_fmap_insert.
  - rewrite E3, lr_kx0. symmetry. apply list_fmap_insert.
  - rewrite E4, lr_val0. symmetry. apply list_fmap_insert.
  - by rewrite insert_length.
  - unfold bag_rel in *. destruct (decide (lb_bg L = 0%N)).
    + intros j z Hz. apply list_lookup_insert_Some in Hz as [(-> & <- & _)|(_ & Hz)]; [|eauto].
      rewrite Hsf. eauto.
    + destruct lr_bag0 as (bg & mm & B1 & B2 & B3). exists bg, mm. split; [done|]. split; [done|].
      intros j z Hz. apply list_lookup_insert_Some in Hz as [(-> & <- & _)|(_ & Hz)]; [|eauto].
      rewrite Hsf. eauto.
Qed.
Lemma list_set_some (l : list N) i v : is_Some (l !! i) -> list_set l i v = Some (<[i := v]> l).
Proof. intros [x Hx]. unfold list_set. by rewrite Hx. Qed.

Lemma slot_perm i x y fv' : lb_sl L !! i = Some x -> srefs y ++ fv' ≡ₚ srefs x ++ sfv s ->
  concat (map srefs (lb_sl (lslot i y))) ++ fv' ≡ₚ concat (map srefs (lb_sl L)) ++ sfv s.
Proof. intros Hx Hv. pose proof (srefs_set _ _ _ y Hx) as HH. cbn [lslot lset_sl lb_sl]. perm_tac. Qed.

Lemma wp_set_ikey i x v (Q : unit -> mem -> Prop) : lb_sl L !! i = Some x ->
  (forall m', St m' (setA p (LF g md rt pa (lslot i (sset_ik v x))) s) -> Q tt m') ->
  wp (set_ikey p i v) m Q.
Proof.
  intros Hx HQ. eapply (wp_leaf_up _ _ _ (sfv s)); [|..|exact HQ].
  - intros l H3 H4. eexists. split.
    { rewrite list_set_some; [done|]. rewrite (lr_ik _ _ _ H4), list_lookup_fmap, Hx. by eexists. }
    split; [done|]. split; [done|]. eapply leaf_rel_slot; [done|done|done|..]; try done; cbn.
    + symmetry. apply list_insert_id. by rewrite (lr_kx _ _ _ H4), list_lookup_fmap, Hx.
    + symmetry. apply list_insert_id. by rewrite (lr_val _ _ _ H4), list_lookup_fmap, Hx.
  - done.
  - by eapply slot_perm.
Qed.
Lemma wp_set_keylenx i x v fv' (Q : unit -> mem -> Prop) : lb_sl L !! i = Some x -> srefs (sset_kx v x) ++ fv' ≡ₚ srefs x ++ sfv s ->
  (forall m', St m' (setfv fv' (setA p (LF g md rt pa (lslot i (sset_kx v x))) s)) -> Q tt m') ->
  wp (set_keylenx p i v) m Q.
Proof.
  intros Hx Hv HQ. eapply (wp_leaf_up _ _ _ fv'); [|..|exact HQ].
  - intros l H3 H4. eexists. split.
    { rewrite list_set_some; [done|]. rewrite (lr_kx _ _ _ H4), list_lookup_fmap, Hx. by eexists. }
    split; [done|]. split; [done|]. eapply leaf_rel_slot; [done|done|done|..]; try done; cbn.
    + symmetry. apply list_insert_id. by rewrite (lr_ik _ _ _ H4), list_lookup_fmap, Hx.
    + symmetry. apply list_insert_id. by rewrite (lr_val _ _ _ H4), list_lookup_fmap, Hx.
  - done.
  - by eapply slot_perm.
Qed.
Lemma wp_set_val_ptr i x v fv' (Q : unit -> mem -> Prop) : lb_sl L !! i = Some x -> srefs (sset_ptr v x) ++ fv' ≡ₚ srefs x ++ sfv s ->
  (forall m', St m' (setfv fv' (setA p (LF g md rt pa (lslot i (sset_ptr v x))) s)) -> Q tt m') ->
  wp (set_val_ptr p i v) m Q.
Proof.
  intros Hx Hv HQ. eapply (wp_leaf_up _ _ _ fv'); [|..|exact HQ].
  - intros l H3 H4. eexists. split.
    { rewrite list_set_some; [done|]. rewrite (lr_val _ _ _ H4), list_lookup_fmap, Hx. by eexists. }
    split; [done|]. split; [done|]. eapply leaf_rel_slot; [done|done|done|..]; try done; cbn.
    + symmetry. apply list_insert_id. by rewrite (lr_ik _ _ _ H4), list_lookup_fmap, Hx.
    + symmetry. apply list_insert_id. by rewrite (lr_kx _ _ _ H4), list_lookup_fmap, Hx.
  - done.
  - by eapply slot_perm.
Qed.
Lemma wp_take_val_ptr i x fv' (Q : N -> mem -> Prop) : lb_sl L !! i = Some x -> fv' ≡ₚ srefs x ++ sfv s ->
  (forall m', St m' (setfv fv' (setA p (LF g md rt pa (lslot i (sset_ptr 0 x))) s)) -> Q (s_ptr x) m') ->
  wp (take_val_ptr p i) m Q.
Proof.
  intros Hx Hv HQ. eapply (wp_leaf_up _ _ _ fv'); [|..|exact HQ].
  - intros l H3 H4. assert (E : l_val l !! i = Some (s_ptr x)) by (by rewrite (lr_val _ _ _ H4), list_lookup_fmap, Hx).
    eexists. split. { rewrite E. cbn. rewrite list_set_some by eauto. done. }
    split; [done|]. split; [done|]. eapply leaf_rel_slot; [done|done|done|..]; try done; cbn.
    + symmetry. apply list_insert_id. by rewrite (lr_ik _ _ _ H4), list_lookup_fmap, Hx.
    + symmetry. apply list_insert_id. by rewrite (lr_kx _ _ _ H4), list_lookup_fmap, Hx.
  - done.
  - eapply slot_perm; [done|]. unfold srefs at 1. cbn. done.
Qed.
Lemma wp_set_permutation v (Q : unit -> mem -> Prop) :
  (forall m', St m' (setA p (LF g md rt pa (lset_perm v L)) s) -> Q tt m') -> wp (set_permutation p v) m Q.
Proof.
  intros HQ. eapply wp_leaf_up0; cycle 3; [exact HQ| |done|done].
  intros l H3 H4. eexists. split; [done|]. split; [done|]. split; [done|]. destruct H4. by split.
Qed.
Lemma wp_cas_permutation v (Q : bool -> mem -> Prop) :
  (forall m', St m' (setA p (LF g md rt pa (lset_perm v L)) s) -> Q true m') -> wp (cas_permutation p (lb_perm L) v) m Q.
Proof.
  intros HQ. eapply wp_leaf_up0; cycle 3; [exact HQ| |done|done].
  intros l H3 H4. eexists. split; [by rewrite (lr_perm _ _ _ H4), N.eqb_refl|].
  split; [done|]. split; [done|]. destruct H4. by split.
Qed.
Lemma wp_set_next v (Q : unit -> mem -> Prop) :
  (forall m', St m' (setA p (LF g md rt pa (lset_nx v L)) s) -> Q tt m') -> wp (set_next p v) m Q.
Proof.
  intros HQ. eapply wp_leaf_up0; cycle 3; [exact HQ| |done|done].
  intros l H3 H4. eexists. split; [done|]. split; [done|]. split; [done|]. destruct H4. by split.
Qed.
Lemma wp_cas_next v (Q : bool -> mem -> Prop) :
  (forall m', St m' (setA p (LF g md rt pa (lset_nx v L)) s) -> Q true m') -> wp (cas_next p (lb_nx L) v) m Q.
Proof.
  intros HQ. eapply wp_leaf_up0; cycle 3; [exact HQ| |done|done].
  intros l H3 H4. eexists. split; [by rewrite (lr_nx _ _ _ H4), N.eqb_refl|].
  split; [done|]. split; [done|]. destruct H4. by split.
Qed.
Lemma wp_set_prev v (Q : unit -> mem -> Prop) :
  (forall m', St m' (setA p (LF g md rt pa (lset_pv v L)) s) -> Q tt m') -> wp (set_prev p v) m Q.
Proof.
  intros HQ. eapply wp_leaf_up0; cycle 3; [exact HQ| |done|done].
  intros l H3 H4. eexists. split; [done|]. split; [done|]. split; [done|]. destruct H4. by split.
Qed.
Lemma wp_set_leaf_parent v (Q : unit -> mem -> Prop) :
  (forall m', St m' (setA p (LF g md rt v L) s) -> Q tt m') -> wp (set_leaf_parent p v) m Q.
Proof.
  intros HQ. eapply wp_leaf_up0; cycle 3; [exact HQ| |done|done].
  intros l H3 H4. eexists. split; [done|]. split; [done|]. split; [done|]. destruct H4. by split.
Qed.
(** replacing the whole version word of a leaf under construction *)
Lemma wp_leaf_init_ver w md' rt' (Q : unit -> mem -> Prop) : vbits w md' rt' true ->
  (forall m', St m' (setA p (LF g md' rt' pa L) s) -> Q tt m') ->
  wp (leaf_up p (fun l => Some (tt, with_ver w l))) m Q.
Proof.
  intros Hw HQ. destruct (St_leaf _ _ _ _ _ _ _ _ HS Hp) as (l & H1 & H2 & H3 & H4).
  eapply wp_atomic; [cbn beta; rewrite H1; reflexivity|]. apply HQ.
  rewrite <- (setfv_same (setA _ _ _)). eapply St_node; [done|done|..].
  - cbn. split; [done|]. split; [done|]. destruct H4. by split.
  - done.
  - done.
Qed.
End Leaf.

Section Inode.
Context (J : ibody) (Hp : sA s !! p = Some (ND g md rt pa J)).
Lemma wp_inode_up {R} (f : inode -> option (R * inode)) r J' pa' (Q : R -> mem -> Prop) :
  (forall i, i_parent i = pa -> inode_rel i J ->
     exists i', f i = Some (r, i') /\ i_ver i' = i_ver i /\ i_parent i' = pa' /\ inode_rel i' J') ->
  (forall m', St m' (setA p (ND g md rt pa' J') s) -> Q r m') ->
  wp (inode_up p f) m Q.
Proof.
  intros Hf HQ. destruct (St_inode _ _ _ _ _ _ _ _ HS Hp) as (l & H1 & H2 & H3 & H4).
  destruct (Hf l H3 H4) as (l' & E1 & E2 & E3 & E4).
  eapply wp_atomic; [cbn beta; rewrite H1, E1; reflexivity|].
  apply HQ. rewrite <- (setfv_same (setA _ _ _)). eapply St_node; [done|done|..].
  - cbn. rewrite E2. done.
  - done.
  - done.
Qed.
Lemma wp_set_nkeys v (Q : unit -> mem -> Prop) :
  (forall m', St m' (setA p (ND g md rt pa (iset_nk v J)) s) -> Q tt m') -> wp (set_nkeys p v) m Q.
Proof.
  intros HQ. eapply wp_inode_up; cycle 1; [exact HQ|]. intros i H3 H4. eexists. split; [done|].
  split; [done|]. split; [done|]. destruct H4. by split.
Qed.
Lemma wp_set_height v (Q : unit -> mem -> Prop) :
  (forall m', St m' (setA p (ND g md rt pa (iset_ht v J)) s) -> Q tt m') -> wp (set_height p v) m Q.
Proof.
  intros HQ. eapply wp_inode_up; cycle 1; [exact HQ|]. intros i H3 H4. eexists. split; [done|].
  split; [done|]. split; [done|]. destruct H4. by split.
Qed.
Lemma wp_set_inode_parent v (Q : unit -> mem -> Prop) :
  (forall m', St m' (setA p (ND g md rt v J) s) -> Q tt m') -> wp (set_inode_parent p v) m Q.
Proof.
  intros HQ. eapply wp_inode_up; cycle 1; [exact HQ|]. intros i H3 H4. eexists. split; [done|].
  split; [done|]. split; [done|]. destruct H4. by split.
Qed.
Lemma wp_set_inode_ikey j v (Q : unit -> mem -> Prop) : j < 15 ->
  (forall m', St m' (setA p (ND g md rt pa (iset_ks (<[j := v]> (ib_ks J)) J)) s) -> Q tt m') ->
  wp (set_inode_ikey p j v) m Q.
Proof.
  intros Hj HQ. eapply wp_inode_up; cycle 1; [exact HQ|]. intros i H3 H4. eexists. split.
  { rewrite list_set_some; [done|]. apply lookup_lt_is_Some. destruct H4. congruence. }
  split; [done|]. split; [done|]. destruct H4. split; try done; cbn; [congruence|by rewrite insert_length].
Qed.
Lemma wp_set_child j v (Q : unit -> mem -> Prop) : j < 16 ->
  (forall m', St m' (setA p (ND g md rt pa (iset_cs (<[j := v]> (ib_cs J)) J)) s) -> Q tt m') ->
  wp (set_child p j v) m Q.
Proof.
  intros Hj HQ. eapply wp_inode_up; cycle 1; [exact HQ|]. intros i H3 H4. eexists. split.
  { rewrite list_set_some; [done|]. apply lookup_lt_is_Some. destruct H4. congruence. }
  split; [done|]. split; [done|]. destruct H4. split; try done; cbn; [congruence|by rewrite insert_length].
Qed.
End Inode.

(** ** locks *)
Context (b : body) (Hp : sA s !! p = Some (mk_anode g md rt pa b)).
Lemma wp_lock F (Q : N -> mem -> Prop) : 0 < F -> md = MFree ->
  (forall lv m', vbits lv MIns rt (is_leafb b) -> St m' (setA p (mk_anode g MIns rt pa b) s) -> Q lv m') ->
  wp (lock F p) m Q.
Proof.
  intros HF E HQ. destruct F as [|F]; [lia|]. unfold lock. cbn [ver_lock].
  destruct (St_ver _ _ _ _ HS Hp) as (w & H1 & H2 & H3). cbn [a_md a_rt a_bd a_gh a_pa] in *. rewrite E in H2.
  apply wp_bind. eapply wp_atomic; [by rewrite H1|]. rewrite (vbits_can_lock _ _ _ H2).
  apply wp_bind. eapply wp_atomic; [by rewrite H1, N.eqb_refl|]. apply wp_ret.
  apply HQ; [by apply vbits_locked|]. apply H3. by apply vbits_locked.
Qed.
Lemma wp_mark_insert lv (Q : N -> mem -> Prop) rtl lf : vbits lv MIns rtl lf -> Q lv m -> wp (mark_insert p lv) m Q.
Proof. intros Hl HQ. unfold mark_insert, guard_mark_insert. by rewrite (vbits_inserting _ _ _ Hl). Qed.
Lemma wp_mark_split lv rtl (Q : N -> mem -> Prop) : md <> MFree -> vbits lv md rtl (is_leafb b) ->
  (forall lv' m', vbits lv' MSpl rtl (is_leafb b) -> St m' (setA p (mk_anode g MSpl rt pa b) s) -> Q lv' m') ->
  wp (mark_split p lv) m Q.
Proof.
  intros Hm Hl HQ. unfold mark_split, guard_mark_split.
  destruct (St_ver _ _ _ _ HS Hp) as (w & H1 & H2 & H3). cbn [a_md a_rt a_bd a_gh a_pa] in *.
  apply wp_bind. eapply wp_atomic; [by rewrite H1|].
  apply wp_bind. eapply wp_atomic; [by rewrite H1|]. apply wp_ret.
  apply HQ; [by eapply vbits_spl|]. apply H3. by eapply vbits_spl.
Qed.
Lemma wp_unlock lv md' rtl (Q : unit -> mem -> Prop) : vbits lv md' rtl (is_leafb b) ->
  (forall m', St m' (setA p (mk_anode g MFree (unlocked_rt md' rtl) pa b) s) -> Q tt m') ->
  wp (unlock p lv) m Q.
Proof.
  intros Hl HQ. unfold unlock, guard_drop.
  destruct (St_ver _ _ _ _ HS Hp) as (w & H1 & H2 & H3). cbn [a_md a_rt a_bd a_gh a_pa] in *.
  eapply wp_atomic; [by rewrite H1|]. apply HQ, H3. by apply vbits_unlock.
Qed.
Lemma wp_unlock_for_split (Q : unit -> mem -> Prop) : md = MSpl ->
  (forall m', St m' (setA p (mk_anode g MFree false pa b) s) -> Q tt m') ->
  wp (unlock_for_split p) m Q.
Proof.
  intros E HQ. unfold unlock_for_split, ver_unlock_for_split.
  destruct (St_ver _ _ _ _ HS Hp) as (w & H1 & H2 & H3). cbn [a_md a_rt a_bd a_gh a_pa] in *. rewrite E in H2.
  apply wp_bind. eapply wp_atomic; [by rewrite H1|].
  rewrite (vbits_lockedf _ _ _ _ H2), (vbits_splitting _ _ _ _ H2). cbn [andb].
  eapply wp_atomic; [by rewrite H1|]. apply HQ, H3.
  rewrite unlock_for_split_eq by apply H2. exact (vbits_unlock _ _ _ _ H2).
Qed.
Lemma wp_mark_nonroot (Q : unit -> mem -> Prop) :
  (forall m', St m' (setA p (mk_anode g md false pa b) s) -> Q tt m') -> wp (mark_nonroot p) m Q.
Proof.
  intros HQ. unfold mark_nonroot, ver_mark_nonroot, ver_update.
  destruct (St_ver _ _ _ _ HS Hp) as (w & H1 & H2 & H3). cbn [a_md a_rt a_bd a_gh a_pa] in *.
  eapply wp_atomic; [by rewrite H1|]. apply HQ, H3. by eapply vbits_nonroot.
Qed.
Lemma wp_mark_root (Q : unit -> mem -> Prop) :
  (forall m', St m' (setA p (mk_anode g md true pa b) s) -> Q tt m') -> wp (mark_root p) m Q.
Proof.
  intros HQ. unfold mark_root, ver_mark_root, ver_update.
  destruct (St_ver _ _ _ _ HS Hp) as (w & H1 & H2 & H3). cbn [a_md a_rt a_bd a_gh a_pa] in *.
  eapply wp_atomic; [by rewrite H1|]. apply HQ, H3. by eapply vbits_root.
Qed.
(** ghost data may be changed at will *)
Lemma St_ghost g' : St m (setA p (mk_anode g' md rt pa b) s).
Proof.
  destruct (St_lookup _ _ _ _ HS Hp) as (x & Hx & Hr). destruct HS.
  assert (E1 : nrefs (mk_anode g' md rt pa b) = nrefs (mk_anode g md rt pa b)) by done.
  assert (E2 : nbags (mk_anode g' md rt pa b) = nbags (mk_anode g md rt pa b)) by done.
  split; cbn [setA sA sR sC sV sfv sfn]; try done.
  - intros q. destruct (decide (q = p)) as [->|].
    + rewrite lookup_insert, Hx. exact Hr.
    + rewrite lookup_insert_ne by done. apply st_heap.
  - eapply own_perm; [|exact st_ov]. pose proof (big_set nrefs (sA s) p _ (mk_anode g' md rt pa b) Hp) as HH.
    rewrite E1 in HH. perm_tac.
  - eapply own_perm; [|exact st_ob]. pose proof (big_set nbags (sA s) p _ (mk_anode g' md rt pa b) Hp) as HH.
    rewrite E2 in HH. perm_tac.
Qed.
End Writes.

(** ** suffix bags *)
Lemma bag_try_spec bud b mm i suf : bag_inv 24 bud b mm -> i < 24 -> (N.of_nat (length suf) <= 65535)%N ->
  (bud + N.of_nat (length suf) < U32_MAX)%N ->
  exists ok b', bag_try_assign b i suf = Ok (ok, b') /\
    bag_inv 24 (bud + N.of_nat (length suf)) b' (if ok : bool then fun t => if Nat.eqb t i then Some suf else mm t else mm).
Proof.
  intros Hb Hi Hl Hu.
  destruct (run1_inv 24 bud b mm (BTry i suf) Hb) as (ok & b' & H1 & H2).
  - split; [done|]. exact Hl.
  - unfold bytes_written. cbn [map fold_right]. by rewrite N.add_0_r.
  - exists ok, b'. cbn in H1. split; [done|]. unfold bytes_written in H2. cbn [map fold_right] in H2.
    rewrite N.add_0_r in H2. destruct ok; exact H2.
Qed.
Lemma bag_assign_spec bud b mm i suf : bag_inv 24 bud b mm -> i < 24 -> (N.of_nat (length suf) <= 65535)%N ->
  (bud + N.of_nat (length suf) < U32_MAX)%N ->
  exists b', bag_assign b i suf = Ok b' /\
    bag_inv 24 (bud + N.of_nat (length suf)) b' (fun t => if Nat.eqb t i then Some suf else mm t).
Proof.
  intros Hb Hi Hl Hu. unfold bag_assign, U16_MAX.
  destruct (N.ltb_spec 65535 (N.of_nat (length suf))); [lia|].
  assert (Hlk : i < length (b_slots b)) by (destruct Hb; lia).
  apply lookup_lt_is_Some in Hlk as [y Hy]. rewrite Hy. eexists. split; [done|]. by apply append_inv.
Qed.
Lemma bag_clear_spec bud b mm i : bag_inv 24 bud b mm -> i < 24 ->
  exists b', bag_clear b i = Ok b' /\ bag_inv 24 bud b' (fun t => if Nat.eqb t i then None else mm t).
Proof.
  intros Hb Hi. unfold bag_clear. assert (Hlk : i < length (b_slots b)) by (destruct Hb; lia).
  apply lookup_lt_is_Some in Hlk as [y Hy]. rewrite Hy. eexists. split; [done|]. by apply clear_inv.
Qed.

Lemma sf_refs sl i x o : sl !! i = Some x -> map srefs (<[i := sset_sf o x]> sl) = map srefs sl.
Proof.
  intros H. rewrite list_fmap_insert. apply list_insert_id. by rewrite list_lookup_fmap, H.
Qed.
Lemma sf_proj {X} (f : slot -> X) sl i x o : sl !! i = Some x -> (forall y, f (sset_sf o y) = f y) ->
  map f (<[i := sset_sf o x]> sl) = map f sl.
Proof.
  intros H Hf. rewrite list_fmap_insert. apply list_insert_id. by rewrite list_lookup_fmap, H, Hf.
Qed.
Lemma sf_map sl i x o mm : sl !! i = Some x -> length sl = 24 ->
  (forall j y, sl !! j = Some y -> s_sf y = mm j) ->
  forall j y, <[i := sset_sf o x]> sl !! j = Some y -> s_sf y = (fun t => if Nat.eqb t i then o else mm t) j.
Proof.
  intros H Hl Hm j y Hj. cbn. apply list_lookup_insert_Some in Hj as [(-> & <- & _)|(Hne & Hj)].
  - by rewrite Nat.eqb_refl.
  - destruct (Nat.eqb_spec j i); [done|]. eauto.
Qed.

Section Bags.
Context (m : mem) (s : ast) (HS : St m s).
Context (p : N) (g : ghost) (md : vmode) (rt : bool) (pa : N).
Context (L : lbody) (Hp : sA s !! p = Some (LF g md rt pa L)).
Context (i : nat) (x : slot) (Hx : lb_sl L !! i = Some x).

Definition lsuf (b bud : N) (o : option bytes) : lbody :=
  mk_lbody (lb_perm L) (<[i := sset_sf o x]> (lb_sl L)) b bud (lb_nx L) (lb_pv L).

Lemma St_bag_inplace bg bg' mm bud' o : lb_bg L <> 0%N -> bags m !! lb_bg L = Some bg ->
  (forall j y, lb_sl L !! j = Some y -> s_sf y = mm j) ->
  bag_inv 24 bud' bg' (fun t => if Nat.eqb t i then o else mm t) ->
  St (mwith_bags (<[lb_bg L := bg']> (bags m)) m) (setA p (LF g md rt pa (lsuf (lb_bg L) bud' o)) s).
Proof.
  intros Hb Hbg Hmm Hinv. destruct (St_leaf _ _ _ _ _ _ _ _ HS Hp) as (l & H1 & H2 & H3 & H4).
  pose proof HS as HS'. destruct HS' as [Sh Sr Sc Sv Sn San Sab Sav Sov Sob Son].
  assert (E1 : nrefs (LF g md rt pa (lsuf (lb_bg L) bud' o)) = nrefs (LF g md rt pa L)).
  { unfold nrefs. cbn [a_bd lsuf lb_sl]. by rewrite sf_refs. }
  assert (E2 : nbags (LF g md rt pa (lsuf (lb_bg L) bud' o)) = nbags (LF g md rt pa L)) by done.
  split; cbn [heap bags vals root cnt nxt retired tracked mwith_bags sA sR sC sV sfv sfn setA]; try done.
  - intros q. destruct (decide (q = p)) as [->|Hq].
    + rewrite lookup_insert, H1. cbn. split; [done|]. split; [done|]. destruct H4.
      split; cbn [lsuf lb_perm lb_sl lb_bg lb_nx lb_pv]; rewrite ?sf_proj by done; try done.
      * by rewrite insert_length.
      * unfold bag_rel. rewrite decide_False by done. eexists bg', _. rewrite lookup_insert.
        split; [done|]. split; [exact Hinv|]. by apply sf_map.
    + rewrite lookup_insert_ne by done. specialize (Sh q).
      destruct (heap m !! q) as [y|] eqn:Ey, (sA s !! q) as [n|] eqn:En; try done.
      eapply node_rel_bags; [|exact Sh]. intros b Hin. rewrite lookup_insert_ne; [done|].
      intros <-. destruct Sob as [Hnd _]. apply NoDup_app in Hnd as (Hnd & _).
      eapply (big_disjoint nbags (sA s) p q); [done|done|done|done| |done].
      unfold nbags. cbn. destruct (N.eqb_spec (lb_bg L) 0); [done|]. by apply elem_of_list_singleton.
  - intros q. destruct (decide (q = lb_bg L)) as [->|]; [intros _; apply Sab; by eexists|].
    rewrite lookup_insert_ne by done. apply Sab.
  - eapply own_perm; [|exact Sov]. pose proof (big_set nrefs (sA s) p _ (LF g md rt pa (lsuf (lb_bg L) bud' o)) Hp) as HH.
    rewrite E1 in HH. perm_tac.
  - apply own_upd; [by eexists|]. eapply own_perm; [|exact Sob].
    pose proof (big_set nbags (sA s) p _ (LF g md rt pa (lsuf (lb_bg L) bud' o)) Hp) as HH.
    rewrite E2 in HH. perm_tac.
Qed.

Lemma St_bag_new bg' mm bud' o l : heap m !! p = Some (NLeaf l) ->
  (forall j y, lb_sl L !! j = Some y -> s_sf y = mm j) ->
  bag_inv 24 bud' bg' (fun t => if Nat.eqb t i then o else mm t) ->
  St (mk_mem (<[p := NLeaf (with_ksuf (nxt m) l)]> (heap m)) (<[nxt m := bg']> (bags m)) (vals m) (root m) (cnt m)
        (nxt m + 2) (if (lb_bg L =? 0)%N then retired m else GBag (lb_bg L) :: retired m) (tracked m))
     (setA p (LF g md rt pa (lsuf (nxt m) bud' o)) s).
Proof.
  intros Hl Hmm Hinv. destruct (St_leaf _ _ _ _ _ _ _ _ HS Hp) as (l' & H1 & H2 & H3 & H4).
  rewrite Hl in H1. injection H1 as <-.
  pose proof HS as HS'. destruct HS' as [Sh Sr Sc Sv Sn San Sab Sav Sov Sob Son].
  assert (E1 : nrefs (LF g md rt pa (lsuf (nxt m) bud' o)) = nrefs (LF g md rt pa L)).
  { unfold nrefs. cbn [a_bd lsuf lb_sl]. by rewrite sf_refs. }
  assert (Hnz : nxt m <> 0%N) by (destruct Sn; lia).
  assert (Hfr : bags m !! nxt m = None).
  { destruct (bags m !! nxt m) eqn:E; [|done]. destruct (Sab (nxt m)); [by eexists|]. lia. }
  assert (Hbump : forall a, addr_ok (nxt m) a -> addr_ok (nxt m + 2) a) by (intros a []; split; [lia|done]).
  split; cbn [heap bags vals root cnt nxt retired tracked sA sR sC sV sfv sfn setA]; try done.
  - intros q. destruct (decide (q = p)) as [->|Hq].
    + rewrite !lookup_insert. cbn. split; [done|]. split; [done|]. destruct H4.
      split; cbn [lsuf lb_perm lb_sl lb_bg lb_nx lb_pv with_ksuf l_perm l_ikey l_klx l_val l_ksuf l_next l_prev];
        rewrite ?sf_proj by done; try done.
      * by rewrite insert_length.
      * unfold bag_rel. rewrite decide_False by done. eexists bg', _. rewrite lookup_insert.
        split; [done|]. split; [exact Hinv|]. by apply sf_map.
    + rewrite !lookup_insert_ne by done. specialize (Sh q).
      destruct (heap m !! q) as [y|] eqn:Ey, (sA s !! q) as [n|] eqn:En; try done.
      eapply node_rel_bags; [|exact Sh]. intros b Hin. rewrite lookup_insert_ne; [done|].
      intros <-. destruct Sob as [_ Hd]. assert (Hc : is_Some (bags m !! nxt m)); [|rewrite Hfr in Hc; by destruct Hc].
      apply Hd, elem_of_app. left. apply big_elem. eauto.
  - split; [lia|]. rewrite N.even_add. by destruct Sn as [_ ->].
  - intros q. destruct (decide (q = p)) as [->|]; [intros _; apply Hbump, San; by eexists|].
    rewrite lookup_insert_ne by done. auto.
  - intros q. destruct (decide (q = nxt m)) as [->|].
    + intros _. destruct Sn. split; [lia|done].
    + rewrite lookup_insert_ne by done. auto.
  - auto.
  - eapply own_perm; [|exact Sov]. pose proof (big_set nrefs (sA s) p _ (LF g md rt pa (lsuf (nxt m) bud' o)) Hp) as HH.
    rewrite E1 in HH.
    assert (retv (if (lb_bg L =? 0)%N then retired m else GBag (lb_bg L) :: retired m) = retv (retired m)) as ->
      by (by destruct (lb_bg L =? 0)%N). perm_tac.
  - eapply own_perm; [|apply (own_add _ _ (nxt m) bg' Hfr Sob)].
    pose proof (big_set nbags (sA s) p _ (LF g md rt pa (lsuf (nxt m) bud' o)) Hp) as HH.
    unfold nbags at 1 3 in HH. cbn [a_bd lsuf lb_bg] in HH. rewrite (proj2 (N.eqb_neq _ _) Hnz) in HH.
    change (nxt m :: brefs (sA s) ++ retb (retired m)) with ([nxt m] ++ brefs (sA s) ++ retb (retired m)).
    destruct (lb_bg L =? 0)%N.
    + perm_tac.
    + change (retb (GBag (lb_bg L) :: retired m)) with ([lb_bg L] ++ retb (retired m)). perm_tac.
  - apply own_upd; [by eexists|done].
Qed.

Lemma wp_assign_ksuf suf fv' (Q : unit -> mem -> Prop) :
  (N.of_nat (length suf) <= 65535)%N -> (lb_bud L + N.of_nat (length suf) < U32_MAX)%N ->
  srefs (sset_kx KSUF_KEYLENX x) ++ fv' ≡ₚ srefs x ++ sfv s ->
  (forall b m', St m' (setfv fv' (setA p (LF g md rt pa (mk_lbody (lb_perm L)
       (<[i := mk_slot (s_ik x) KSUF_KEYLENX (s_ptr x) (Some suf)]> (lb_sl L)) b
       (lb_bud L + N.of_nat (length suf)) (lb_nx L) (lb_pv L))) s)) -> Q tt m') ->
  wp (assign_ksuf p i suf) m Q.
Proof.
  intros Hsl Hbd Hfv HQ. unfold assign_ksuf. apply wp_bind. eapply wp_ksuf_ptr; [done..|].
  assert (Hi : i < 24) by (rewrite <- (leaf_len _ _ HS _ _ _ _ _ _ Hp); by eapply lookup_lt_Some).
  assert (Hfin : forall m' b, St m' (setA p (LF g md rt pa (lsuf b (lb_bud L + N.of_nat (length suf)) (Some suf))) s) ->
    wp (set_keylenx p i KSUF_KEYLENX) m' Q).
  { intros m' b HS'. eapply wp_set_keylenx; [exact HS'|apply setA_lookup| | |].
    - cbn [lsuf lb_sl]. apply list_lookup_insert. by eapply lookup_lt_Some.
    - exact Hfv.
    - intros m2 HS2. rewrite setA_setA in HS2. apply (HQ b). unfold lslot, lset_sl, lsuf in HS2.
      cbn [lb_perm lb_sl lb_bg lb_bud lb_nx lb_pv] in HS2. rewrite list_insert_insert in HS2. exact HS2. }
  destruct (St_leaf _ _ _ _ _ _ _ _ HS Hp) as (l & H1 & H2 & H3 & H4).
  pose proof (lr_bag _ _ _ H4) as HB. unfold bag_rel in HB.
  destruct (N.eqb_spec (lb_bg L) 0) as [Hz|Hz].
  - rewrite decide_True in HB by done. apply wp_bind, wp_ret.
    destruct (bag_assign_spec (lb_bud L) (bag_new WIDTH) (fun _ => None) i suf) as (b' & E1 & E2); [apply bag_new_inv|done..|].
    apply wp_bind. rewrite E1. apply wp_ret. apply wp_bind. eapply wp_atomic; [done|].
    apply wp_bind. eapply wp_atomic; [cbn; rewrite H1; done|]. apply wp_bind, wp_ret.
    eapply (Hfin _ (nxt m)). pose proof (St_bag_new _ _ _ _ _ H1 HB E2) as HN.
    rewrite Hz in HN. exact HN.
  - rewrite decide_False in HB by done. destruct HB as (bg & mm & B1 & B2 & B3).
    destruct (bag_try_spec _ _ _ i suf B2 Hi Hsl Hbd) as (ok & b' & E1 & E2).
    apply wp_bind. eapply wp_atomic; [cbn beta; rewrite B1, E1; done|].
    destruct ok.
    + eapply (Hfin _ (lb_bg L)). eapply St_bag_inplace; done.
    + pose proof E2 as E2'.
      assert (b' = bg) as ->.
      { unfold bag_try_assign in E1. repeat case_match; congruence. }
      destruct (bag_assign_spec _ _ _ i suf (clone_inv _ _ _ _ B2) Hi Hsl Hbd) as (b2 & F1 & F2).
      apply wp_bind. eapply wp_atomic; [cbn; rewrite lookup_insert, F1; done|].
      apply wp_bind. eapply wp_atomic; [done|].
      apply wp_bind. eapply wp_atomic; [cbn; rewrite H1; done|].
      apply wp_bind. eapply wp_atomic; [done|].
      eapply (Hfin _ (nxt m)). pose proof (St_bag_new _ _ _ _ _ H1 B3 F2) as HN.
      rewrite (proj2 (N.eqb_neq _ _) Hz) in HN. rewrite (insert_id (bags m)) by done. exact HN.
Qed.

Lemma wp_clear_ksuf fv' (Q : unit -> mem -> Prop) :
  srefs (sset_kx 0 x) ++ fv' ≡ₚ srefs x ++ sfv s ->
  (forall b m', St m' (setfv fv' (setA p (LF g md rt pa (mk_lbody (lb_perm L)
       (<[i := mk_slot (s_ik x) 0 (s_ptr x) None]> (lb_sl L)) b
       (lb_bud L) (lb_nx L) (lb_pv L))) s)) -> Q tt m') ->
  wp (clear_ksuf p i) m Q.
Proof.
  intros Hfv HQ. unfold clear_ksuf. apply wp_bind. eapply wp_ksuf_ptr; [done..|].
  assert (Hi : i < 24) by (rewrite <- (leaf_len _ _ HS _ _ _ _ _ _ Hp); by eapply lookup_lt_Some).
  assert (Hfin : forall m' b, St m' (setA p (LF g md rt pa (lsuf b (lb_bud L) None)) s) ->
    wp (set_keylenx p i 0) m' Q).
  { intros m' b HS'. eapply wp_set_keylenx; [exact HS'|apply setA_lookup| | |].
    - cbn [lsuf lb_sl]. apply list_lookup_insert. by eapply lookup_lt_Some.
    - exact Hfv.
    - intros m2 HS2. rewrite setA_setA in HS2. apply (HQ b). unfold lslot, lset_sl, lsuf in HS2.
      cbn [lb_perm lb_sl lb_bg lb_bud lb_nx lb_pv] in HS2. rewrite list_insert_insert in HS2. exact HS2. }
  destruct (St_leaf _ _ _ _ _ _ _ _ HS Hp) as (l & H1 & H2 & H3 & H4).
  pose proof (lr_bag _ _ _ H4) as HB. unfold bag_rel in HB.
  destruct (N.eqb_spec (lb_bg L) 0) as [Hz|Hz].
  - rewrite decide_True in HB by done. eapply (Hfin _ (lb_bg L)).
    replace (setA _ _ _) with s; [done|].
    assert (E : lsuf (lb_bg L) (lb_bud L) None = L); [|by rewrite E, setA_same].
    unfold lsuf. replace (sset_sf None x) with x; [rewrite list_insert_id by done; by destruct L|].
    pose proof (HB i x Hx). destruct x; cbn in *. by subst.
  - rewrite decide_False in HB by done. destruct HB as (bg & mm & B1 & B2 & B3).
    destruct (bag_clear_spec _ _ _ i (clone_inv _ _ _ _ B2) Hi) as (b2 & F1 & F2).
    apply wp_bind. eapply wp_atomic; [cbn; rewrite B1, F1; done|].
    apply wp_bind. eapply wp_atomic; [done|].
    apply wp_bind. eapply wp_atomic; [cbn; rewrite H1; done|].
    apply wp_bind. eapply wp_atomic; [done|].
    eapply (Hfin _ (nxt m)). pose proof (St_bag_new _ _ _ _ _ H1 B3 F2) as HN.
    rewrite (proj2 (N.eqb_neq _ _) Hz) in HN. exact HN.
Qed.
End Bags.

(** ** allocation, retirement, the header *)
Section Alloc.
Context (m : mem) (s : ast) (HS : St m s).
Lemma wp_alloc_node x n (Q : N -> mem -> Prop) : (forall bgs, node_rel bgs x n) -> nrefs n = [] -> nbags n = [] ->
  (forall a m', a <> 0%N -> N.even a = true -> sA s !! a = None ->
     St m' (setfn (a :: sfn s) (setA a n s)) -> Q a m') ->
  wp (alloc_node x) m Q.
Proof.
  intros Hr H1 H2 HQ. pose proof HS as HS'. destruct HS' as [Sh Sr Sc Sv Sn San Sab Sav Sov Sob Son].
  assert (Hfr : heap m !! nxt m = None).
  { destruct (heap m !! nxt m) eqn:E; [|done]. destruct (San (nxt m)); [by eexists|]. lia. }
  assert (HfA : sA s !! nxt m = None) by (by apply (St_none m)).
  assert (Hbump : forall a, addr_ok (nxt m) a -> addr_ok (nxt m + 2) a) by (intros a []; split; [lia|done]).
  eapply wp_atomic; [done|]. apply HQ; [destruct Sn; lia|by destruct Sn|done|].
  split; cbn [heap bags vals root cnt nxt retired tracked mwith_heap mwith_nxt sA sR sC sV sfv sfn setA setfn]; try done.
  - intros q. destruct (decide (q = nxt m)) as [->|Hq]; [by rewrite !lookup_insert|].
    rewrite !lookup_insert_ne by done. apply Sh.
  - split; [lia|]. rewrite N.even_add. by destruct Sn as [_ ->].
  - intros q. destruct (decide (q = nxt m)) as [->|].
    + intros _. destruct Sn. split; [lia|done].
    + rewrite lookup_insert_ne by done. auto.
  - auto.
  - auto.
  - eapply own_perm; [|exact Sov]. pose proof (big_fresh nrefs (sA s) _ n HfA) as HH. rewrite H1 in HH. perm_tac.
  - eapply own_perm; [|exact Sob]. pose proof (big_fresh nbags (sA s) _ n HfA) as HH. rewrite H2 in HH. perm_tac.
  - eapply own_perm; [|apply (own_add _ _ (nxt m) x Hfr Son)].
    change (nxt m :: ?l) with ([nxt m] ++ l). perm_tac.
Qed.
Lemma wp_track p fn' (Q : unit -> mem -> Prop) : sfn s ≡ₚ p :: fn' ->
  (forall m', St m' (setfn fn' s) -> Q tt m') -> wp (track p) m Q.
Proof.
  intros Hf HQ. pose proof HS as HS'. destruct HS' as [Sh Sr Sc Sv Sn San Sab Sav Sov Sob Son].
  eapply wp_atomic; [done|]. apply HQ.
  split; cbn [heap bags vals root cnt nxt retired tracked mwith_tracked sA sR sC sV sfv sfn setfn]; try done.
  eapply own_perm; [|exact Son]. change (p :: ?l) with ([p] ++ l) in *. perm_tac.
Qed.
Lemma wp_to_raw v (Q : N -> mem -> Prop) :
  (forall h m', h <> 0%N -> sV s !! h = None -> St m' (setV (<[h := v]> (sV s)) (setfv (h :: sfv s) s)) -> Q h m') ->
  wp (output_to_raw v) m Q.
Proof.
  intros HQ. pose proof HS as HS'. destruct HS' as [Sh Sr Sc Sv Sn San Sab Sav Sov Sob Son].
  assert (Hfr : vals m !! nxt m = None).
  { destruct (vals m !! nxt m) eqn:E; [|done]. destruct (Sav (nxt m)); [by eexists|]. lia. }
  assert (Hbump : forall a, addr_ok (nxt m) a -> addr_ok (nxt m + 2) a) by (intros a []; split; [lia|done]).
  eapply wp_atomic; [done|]. apply HQ; [destruct Sn; lia|by rewrite <- Sv|].
  split; cbn [heap bags vals root cnt nxt retired tracked mwith_vals mwith_nxt sA sR sC sV sfv sfn setV setfv]; try done.
  - congruence.
  - split; [lia|]. rewrite N.even_add. by destruct Sn as [_ ->].
  - auto.
  - auto.
  - intros q. destruct (decide (q = nxt m)) as [->|].
    + intros _. destruct Sn. split; [lia|done].
    + rewrite lookup_insert_ne by done. auto.
  - eapply own_perm; [|apply (own_add _ _ (nxt m) v Hfr Sov)].
    change (nxt m :: ?l) with ([nxt m] ++ l). perm_tac.
Qed.
Lemma wp_retire_val h fv' (Q : unit -> mem -> Prop) : sfv s ≡ₚ h :: fv' ->
  (forall m', St m' (setfv fv' s) -> Q tt m') -> wp (retire (GVal h)) m Q.
Proof.
  intros Hf HQ. pose proof HS as HS'. destruct HS' as [Sh Sr Sc Sv Sn San Sab Sav Sov Sob Son].
  eapply wp_atomic; [done|]. apply HQ.
  split; cbn [heap bags vals root cnt nxt retired tracked mwith_retired sA sR sC sV sfv sfn setfv]; try done.
  eapply own_perm; [|exact Sov]. change (retv (GVal h :: retired m)) with ([h] ++ retv (retired m)). change (h :: fv') with ([h] ++ fv') in Hf. perm_tac.
Qed.
Lemma wp_inc_count (Q : unit -> mem -> Prop) : (forall m', St m' (setC (sC s + 1) s) -> Q tt m') -> wp inc_count m Q.
Proof.
  intros HQ. pose proof HS as HS'. destruct HS' as [Sh Sr Sc Sv Sn San Sab Sav Sov Sob Son].
  eapply wp_atomic; [done|]. apply HQ.
  split; cbn [heap bags vals root cnt nxt retired tracked mwith_cnt sA sR sC sV sfv sfn setC]; try done. congruence.
Qed.
Lemma wp_cas_root new (Q : bool -> mem -> Prop) : (forall m', St m' (setR new s) -> Q true m') -> wp (cas_root (sR s) new) m Q.
Proof.
  intros HQ. pose proof HS as HS'. destruct HS' as [Sh Sr Sc Sv Sn San Sab Sav Sov Sob Son].
  eapply wp_atomic; [by rewrite Sr, N.eqb_refl|]. apply HQ.
  split; cbn [heap bags vals root cnt nxt retired tracked mwith_root sA sR sC sV sfv sfn setR]; try done.
Qed.
End Alloc.
