(** The split of a leaf on its own: any contents and slot arrangement, no assumption on the
    rest of the memory. *)
From Verif Require Import Base Perm SpecPerm PermFacts PermLaws Suffix SpecSuffix SuffixFacts Prog Version Mem Tree TreeState TreePrim TreeInv TreeRead TreeSplit TreeLayer SpecNode.

Definition pos_bag (m : mem) (L : lbody) : Prop := lb_bg L = 0%N \/ is_Some (bags m !! lb_bg L).
(** [p] and [q] are leaves with different bags; the rest is as in [m0] *)
Record LV (m0 m : mem) (p q vp vq : N) (LP LQ : lbody) : Prop := {
  lv_p : exists l, heap m !! p = Some (NLeaf l) /\ l_ver l = vp /\ leaf_rel (bags m) l LP;
  lv_q : exists l, heap m !! q = Some (NLeaf l) /\ l_ver l = vq /\ leaf_rel (bags m) l LQ;
  lv_ne : lb_bg LP = lb_bg LQ -> lb_bg LP = 0%N;
  lv_fresh : allocator_fresh m;
  lv_oth : forall a, a <> p -> a <> q -> heap m !! a = heap m0 !! a;
  lv_vals : vals m = vals m0;
  lv_root : root m = root m0 }.
Lemma LV_sym m0 m p q vp vq LP LQ : LV m0 m p q vp vq LP LQ -> LV m0 m q p vq vp LQ LP.
Proof. intros []. split; try done. - intros H. rewrite H. by apply lv_ne0. - auto. Qed.

Lemma rel_bag_some bgs l L : leaf_rel bgs l L -> lb_bg L <> 0%N -> is_Some (bgs !! lb_bg L).
Proof.
  intros H Hz. pose proof (lr_bag _ _ _ H) as HB. unfold bag_rel in HB. rewrite decide_False in HB by done.
  destruct HB as (bg & mm & E & _). eauto.
Qed.
Lemma rel_bags bgs bgs' l L : leaf_rel bgs l L -> (lb_bg L <> 0%N -> bgs' !! lb_bg L = bgs !! lb_bg L) -> leaf_rel bgs' l L.
Proof.
  intros [] Hb. split; try done. unfold bag_rel in *. case_decide; [done|]. rewrite Hb by done. done.
Qed.
Lemma map_set {A} (f : slot -> A) sl i x y : sl !! i = Some x -> f y = f x -> map f (<[i := y]> sl) = map f sl.
Proof. intros H E. change (f <$> <[i := y]> sl = f <$> sl). rewrite list_fmap_insert, E. apply list_insert_id. by rewrite list_lookup_fmap, H. Qed.
Lemma bag_rel_set bgs b bud sl i x y : sl !! i = Some x -> s_sf y = s_sf x -> bag_rel bgs b bud sl -> bag_rel bgs b bud (<[i := y]> sl).
Proof.
  intros Hx E. unfold bag_rel. assert (forall (P : nat -> slot -> Prop), (forall j z, sl !! j = Some z -> P j z) ->
    P i y -> forall j z, <[i := y]> sl !! j = Some z -> P j z) as HH.
  { intros P H1 H2 j z Hj. destruct (decide (j = i)) as [->|].
    - rewrite list_lookup_insert in Hj by (by eapply lookup_lt_Some). injection Hj as <-. done.
    - rewrite list_lookup_insert_ne in Hj by done. by apply H1. }
  case_decide.
  - intros Hs. apply (HH (fun _ z => s_sf z = None)); [done|]. rewrite E. by eapply Hs.
  - intros (bg & mm & H1 & H2 & H3). exists bg, mm. split; [done|]. split; [done|].
    apply (HH (fun j z => s_sf z = mm j)); [done|]. rewrite E. by apply H3.
Qed.

Definition upd (L : lbody) (i : nat) (y : slot) : lbody :=
  mk_lbody (lb_perm L) (<[i := y]> (lb_sl L)) (lb_bg L) (lb_bud L) (lb_nx L) (lb_pv L).
Definition updp (L : lbody) (v : N) : lbody := mk_lbody v (lb_sl L) (lb_bg L) (lb_bud L) (lb_nx L) (lb_pv L).

Section Prims.
Context (m0 m : mem) (p q vp vq : N) (Hpq : p <> q) (L LQ : lbody) (HV : LV m0 m p q vp vq L LQ).

Lemma lw_ld {R} (f : leaf -> option R) r (Q : R -> mem -> Prop) :
  (forall l, l_ver l = vp -> leaf_rel (bags m) l L -> f l = Some r) -> Q r m -> wp (leaf_ld p f) m Q.
Proof.
  intros H HQ. destruct (lv_p _ _ _ _ _ _ _ _ HV) as (l & E1 & E2 & E3).
  eapply wp_atomic; [|exact HQ]. cbn beta. by rewrite E1, (H l E2 E3).
Qed.
Lemma lw_ikey i x (Q : N -> mem -> Prop) : lb_sl L !! i = Some x -> Q (s_ik x) m -> wp (ikey p i) m Q.
Proof. intros Hx. apply lw_ld. intros l _ H. rewrite (lr_ik _ _ _ H). change (map s_ik (lb_sl L)) with (s_ik <$> lb_sl L). by rewrite list_lookup_fmap, Hx. Qed.
Lemma lw_keylenx i x (Q : N -> mem -> Prop) : lb_sl L !! i = Some x -> Q (s_kx x) m -> wp (keylenx p i) m Q.
Proof. intros Hx. apply lw_ld. intros l _ H. rewrite (lr_kx _ _ _ H). change (map s_kx (lb_sl L)) with (s_kx <$> lb_sl L). by rewrite list_lookup_fmap, Hx. Qed.
Lemma lw_perm (Q : N -> mem -> Prop) : Q (lb_perm L) m -> wp (permutation p) m Q.
Proof. apply lw_ld. intros l _ H. by rewrite (lr_perm _ _ _ H). Qed.
Lemma lw_ksuf_ptr (Q : N -> mem -> Prop) : Q (lb_bg L) m -> wp (ksuf_ptr p) m Q.
Proof. apply lw_ld. intros l _ H. by rewrite (lr_bg _ _ _ H). Qed.
Lemma lw_version (Q : N -> mem -> Prop) : Q vp m -> wp (version p) m Q.
Proof.
  intros HQ. destruct (lv_p _ _ _ _ _ _ _ _ HV) as (l & E1 & E2 & E3).
  eapply wp_atomic; [|exact HQ]. unfold rd_ver. rewrite E1, E2. done.
Qed.
Lemma lw_flag f (Q : bool -> mem -> Prop) : Q (f vp) m -> wp (flag p f) m Q.
Proof. intros HQ. unfold flag. apply wp_bind, lw_version, wp_ret. done. Qed.

Lemma lw_up {R} (f : leaf -> option (R * leaf)) r vp' L' (Q : R -> mem -> Prop) :
  (forall l, l_ver l = vp -> leaf_rel (bags m) l L -> exists l', f l = Some (r, l') /\ l_ver l' = vp' /\ leaf_rel (bags m) l' L') ->
  lb_bg L' = lb_bg L ->
  (forall m', LV m0 m' p q vp' vq L' LQ -> Q r m') -> wp (leaf_up p f) m Q.
Proof.
  intros H Hb HQ. pose proof HV as []. destruct lv_p0 as (l & E1 & E2 & E3). destruct (H l E2 E3) as (l' & F1 & F2 & F3).
  eapply wp_atomic; [cbn beta; rewrite E1, F1; done|]. apply HQ. split; try done; cbn.
  - exists l'. by rewrite lookup_insert.
  - rewrite lookup_insert_ne by done. done.
  - by rewrite Hb.
  - intros a Ha1 Ha2. rewrite lookup_insert_ne by done. auto.
Qed.
Lemma upd_rel l l' i x y : lb_sl L !! i = Some x -> leaf_rel (bags m) l L -> s_sf y = s_sf x ->
  l_perm l' = l_perm l -> l_ksuf l' = l_ksuf l -> l_next l' = l_next l -> l_prev l' = l_prev l ->
  l_ikey l' = map s_ik (<[i := y]> (lb_sl L)) -> l_klx l' = map s_kx (<[i := y]> (lb_sl L)) -> l_val l' = map s_ptr (<[i := y]> (lb_sl L)) ->
  leaf_rel (bags m) l' (upd L i y).
Proof.
  intros Hx [] E E1 E2 E3 E4 E5 E6 E7. split; cbn; try done; try congruence.
  - by rewrite insert_length.
  - by eapply bag_rel_set.
Qed.
Lemma set_map f i x y v : lb_sl L !! i = Some x -> f y = v -> list_set (map f (lb_sl L)) i v = Some (map f (<[i := y]> (lb_sl L))).
Proof.
  intros Hx <-. unfold list_set. change (map f (lb_sl L)) with (f <$> lb_sl L). rewrite list_lookup_fmap, Hx. cbn.
  f_equal. symmetry. apply list_fmap_insert.
Qed.
Lemma lw_set_ikey i x v (Q : unit -> mem -> Prop) : lb_sl L !! i = Some x ->
  (forall m', LV m0 m' p q vp vq (upd L i (mk_slot v (s_kx x) (s_ptr x) (s_sf x))) LQ -> Q tt m') -> wp (set_ikey p i v) m Q.
Proof.
  intros Hx. apply lw_up; [|done]. intros l Hv H. rewrite (lr_ik _ _ _ H), (set_map s_ik i x (mk_slot v (s_kx x) (s_ptr x) (s_sf x)) v Hx eq_refl).
  eexists. split; [done|]. split; [done|]. eapply upd_rel; [exact Hx|exact H|done..| |]; cbn.
  - rewrite (map_set s_kx _ _ _ _ Hx) by done. apply H.
  - rewrite (map_set s_ptr _ _ _ _ Hx) by done. apply H.
Qed.
Lemma lw_set_keylenx i x v (Q : unit -> mem -> Prop) : lb_sl L !! i = Some x ->
  (forall m', LV m0 m' p q vp vq (upd L i (mk_slot (s_ik x) v (s_ptr x) (s_sf x))) LQ -> Q tt m') -> wp (set_keylenx p i v) m Q.
Proof.
  intros Hx. apply lw_up; [|done]. intros l Hv H. rewrite (lr_kx _ _ _ H), (set_map s_kx i x (mk_slot (s_ik x) v (s_ptr x) (s_sf x)) v Hx eq_refl).
  eexists. split; [done|]. split; [done|]. eapply upd_rel; [exact Hx|exact H|done..| |done|]; cbn.
  - rewrite (map_set s_ik _ _ _ _ Hx) by done. apply H.
  - rewrite (map_set s_ptr _ _ _ _ Hx) by done. apply H.
Qed.
Lemma lw_set_val i x v (Q : unit -> mem -> Prop) : lb_sl L !! i = Some x ->
  (forall m', LV m0 m' p q vp vq (upd L i (mk_slot (s_ik x) (s_kx x) v (s_sf x))) LQ -> Q tt m') -> wp (set_val_ptr p i v) m Q.
Proof.
  intros Hx. apply lw_up; [|done]. intros l Hv H. rewrite (lr_val _ _ _ H), (set_map s_ptr i x (mk_slot (s_ik x) (s_kx x) v (s_sf x)) v Hx eq_refl).
  eexists. split; [done|]. split; [done|]. eapply upd_rel; [exact Hx|exact H|done..| | |done]; cbn.
  - rewrite (map_set s_ik _ _ _ _ Hx) by done. apply H.
  - rewrite (map_set s_kx _ _ _ _ Hx) by done. apply H.
Qed.
Lemma lw_take_val i x (Q : N -> mem -> Prop) : lb_sl L !! i = Some x ->
  (forall m', LV m0 m' p q vp vq (upd L i (mk_slot (s_ik x) (s_kx x) 0 (s_sf x))) LQ -> Q (s_ptr x) m') -> wp (take_val_ptr p i) m Q.
Proof.
  intros Hx. apply lw_up; [|done]. intros l Hv H. rewrite (lr_val _ _ _ H).
  change (map s_ptr (lb_sl L) !! i) with ((s_ptr <$> lb_sl L) !! i). rewrite list_lookup_fmap, Hx. cbn [fmap option_fmap option_map mbind option_bind].
  rewrite (set_map s_ptr i x (mk_slot (s_ik x) (s_kx x) 0 (s_sf x)) 0 Hx eq_refl).
  eexists. split; [done|]. split; [done|]. eapply upd_rel; [exact Hx|exact H|done..| | |done]; cbn.
  - rewrite (map_set s_ik _ _ _ _ Hx) by done. apply H.
  - rewrite (map_set s_kx _ _ _ _ Hx) by done. apply H.
Qed.
Lemma lw_set_perm v (Q : unit -> mem -> Prop) :
  (forall m', LV m0 m' p q vp vq (updp L v) LQ -> Q tt m') -> wp (set_permutation p v) m Q.
Proof. apply lw_up; [|done]. intros l Hv []. eexists. split; [done|]. split; [done|]. by split. Qed.
Lemma lw_cas_perm v (Q : bool -> mem -> Prop) :
  (forall m', LV m0 m' p q vp vq (updp L v) LQ -> Q true m') -> wp (cas_permutation p (lb_perm L) v) m Q.
Proof.
  apply lw_up; [|done]. intros l Hv []. rewrite lr_perm, N.eqb_refl. eexists. split; [done|]. split; [done|]. by split.
Qed.
Lemma lw_ver v (Q : unit -> mem -> Prop) :
  (forall m', LV m0 m' p q v vq L LQ -> Q tt m') -> wp (leaf_up p (fun l => Some (tt, with_ver v l))) m Q.
Proof. apply lw_up; [|done]. intros l Hv []. eexists. split; [done|]. split; [done|]. by split. Qed.

Lemma lw_ksuf i x (Q : option bytes -> mem -> Prop) : lb_sl L !! i = Some x ->
  Q (if (s_kx x =? KSUF_KEYLENX)%N then s_sf x else None) m -> wp (ksuf p i) m Q.
Proof.
  intros Hx HQ. unfold ksuf. apply wp_bind. eapply lw_keylenx; [done|].
  destruct (N.eqb_spec (s_kx x) KSUF_KEYLENX); [|done].
  apply wp_bind, lw_ksuf_ptr. destruct (lv_p _ _ _ _ _ _ _ _ HV) as (l & H1 & H2 & H4).
  pose proof (lr_bag _ _ _ H4) as HB. unfold bag_rel in HB.
  destruct (N.eqb_spec (lb_bg L) 0) as [Hz|Hz].
  - rewrite decide_True in HB by done. rewrite (HB i x Hx) in HQ. done.
  - rewrite decide_False in HB by done. destruct HB as (bg & mm & E1 & E2 & E3).
    eapply wp_atomic; [|exact HQ]. cbn beta. rewrite E1.
    rewrite (bag_get_inv 24 _ _ _ i E2); [by rewrite <- (E3 i x)|].
    rewrite <- (lr_len _ _ _ H4). by eapply lookup_lt_Some.
Qed.

(** the storage for one slot changed, to bag [b] at its address *)
Definition sufd (b bud : N) (i : nat) (x : slot) (o : option bytes) : lbody :=
  mk_lbody (lb_perm L) (<[i := mk_slot (s_ik x) (s_kx x) (s_ptr x) o]> (lb_sl L)) b bud (lb_nx L) (lb_pv L).
Lemma sufd_rel bgs l i x o b bud bg mm : lb_sl L !! i = Some x -> leaf_rel (bags m) l L -> b <> 0%N -> bgs !! b = Some bg ->
  (forall j z, lb_sl L !! j = Some z -> s_sf z = mm j) ->
  bag_inv 24 bud bg (fun t => if Nat.eqb t i then o else mm t) ->
  leaf_rel bgs (with_ksuf b l) (sufd b bud i x o).
Proof.
  intros Hx [] Hb Hbg Hmm Hinv. split; cbn; try done.
  - rewrite (map_set s_ik _ _ _ _ Hx) by done. done.
  - rewrite (map_set s_kx _ _ _ _ Hx) by done. done.
  - rewrite (map_set s_ptr _ _ _ _ Hx) by done. done.
  - by rewrite insert_length.
  - unfold bag_rel. rewrite decide_False by done. eexists _, _. split; [done|]. split; [exact Hinv|]. cbn.
    intros j z Hj. destruct (decide (j = i)) as [->|Hn].
    + rewrite list_lookup_insert in Hj by (by eapply lookup_lt_Some). injection Hj as <-. by rewrite Nat.eqb_refl.
    + rewrite list_lookup_insert_ne in Hj by done. destruct (Nat.eqb_spec j i); [done|]. by apply Hmm.
Qed.
(** a new bag, the old one retired *)
Lemma LV_new_bag i x o bud bg mm l rt : lb_sl L !! i = Some x -> heap m !! p = Some (NLeaf l) -> l_ver l = vp -> leaf_rel (bags m) l L ->
  (forall j z, lb_sl L !! j = Some z -> s_sf z = mm j) ->
  bag_inv 24 bud bg (fun t => if Nat.eqb t i then o else mm t) ->
  LV m0 (mk_mem (<[p := NLeaf (with_ksuf (nxt m) l)]> (heap m)) (<[nxt m := bg]> (bags m)) (vals m) (root m) (cnt m) (nxt m + 2) rt (tracked m))
     p q vp vq (sufd (nxt m) bud i x o) LQ.
Proof.
  intros Hx E1 E2 E3 Hmm Hinv. pose proof HV as [_ Hq Hne (F1 & F2 & F3) Ho Hva]. destruct Hq as (lq & G1 & G2 & G3).
  assert (Hnq : lb_bg LQ <> nxt m).
  { intros Hc. destruct (rel_bag_some _ _ _ G3); [lia|]. rewrite F3 in H by lia. done. }
  split; cbn.
  - rewrite lookup_insert. eexists. split; [done|]. split; [done|]. eapply sufd_rel; try done; [lia|by rewrite lookup_insert].
  - rewrite lookup_insert_ne by done. exists lq. split; [done|]. split; [done|]. eapply rel_bags; [done|].
    intros _. by rewrite lookup_insert_ne.
  - done.
  - split; [cbn; lia|]. cbn. split; [rewrite lookup_insert_ne by lia; done|]. intros a Ha. rewrite lookup_insert_ne by lia. apply F3. lia.
  - intros a Ha1 Ha2. rewrite lookup_insert_ne by done. auto.
  - done.
  - done.
Qed.
Lemma LV_inplace i x o bud bg mm : lb_sl L !! i = Some x -> lb_bg L <> 0%N ->
  (forall j z, lb_sl L !! j = Some z -> s_sf z = mm j) ->
  bag_inv 24 bud bg (fun t => if Nat.eqb t i then o else mm t) ->
  LV m0 (mwith_bags (<[lb_bg L := bg]> (bags m)) m) p q vp vq (sufd (lb_bg L) bud i x o) LQ.
Proof.
  intros Hx Hz Hmm Hinv. pose proof HV as [(l & E1 & E2 & E3) Hq Hne (F1 & F2 & F3) Ho Hva]. destruct Hq as (lq & G1 & G2 & G3).
  destruct (rel_bag_some _ _ _ E3 Hz) as [bg0 Hbg0].
  split; cbn; try done.
  - exists l. split; [done|]. split; [done|].
    replace l with (with_ksuf (lb_bg L) l) by (destruct E3; destruct l; cbn in *; by subst).
    eapply sufd_rel; try done. by rewrite lookup_insert.
  - exists lq. split; [done|]. split; [done|]. eapply rel_bags; [done|].
    intros Hq0. rewrite lookup_insert_ne; [done|]. intros Hc. by apply Hz, Hne.
  - split; [done|]. cbn. split; [by rewrite lookup_insert_ne|].
    intros a Ha. destruct (decide (a = lb_bg L)) as [->|]; [rewrite F3 in Hbg0 by done; done|]. rewrite lookup_insert_ne by done. auto.
Qed.
Lemma sl_lt i x : lb_sl L !! i = Some x -> i < 24.
Proof.
  intros Hx. destruct (lv_p _ _ _ _ _ _ _ _ HV) as (l & H1 & H2 & H4). rewrite <- (lr_len _ _ _ H4). by eapply lookup_lt_Some.
Qed.
End Prims.

Section Suffix.
Context (m0 m : mem) (p q vp vq : N) (Hpq : p <> q) (L LQ : lbody) (HV : LV m0 m p q vp vq L LQ).
Context (i : nat) (x : slot) (Hx : lb_sl L !! i = Some x).
Lemma lw_assign_ksuf suf (Q : unit -> mem -> Prop) :
  (N.of_nat (length suf) <= 65535)%N -> (lb_bud L + N.of_nat (length suf) < U32_MAX)%N ->
  (forall b m', LV m0 m' p q vp vq (mk_lbody (lb_perm L)
       (<[i := mk_slot (s_ik x) KSUF_KEYLENX (s_ptr x) (Some suf)]> (lb_sl L)) b
       (lb_bud L + N.of_nat (length suf)) (lb_nx L) (lb_pv L)) LQ -> Q tt m') ->
  wp (assign_ksuf p i suf) m Q.
Proof.
  intros Hsl Hbd HQ. unfold assign_ksuf. apply wp_bind. eapply lw_ksuf_ptr; [done|].
  pose proof (sl_lt _ _ _ _ _ _ _ _ HV i x Hx) as Hi.
  assert (Hfin : forall m' b, LV m0 m' p q vp vq (sufd L b (lb_bud L + N.of_nat (length suf)) i x (Some suf)) LQ ->
    wp (set_keylenx p i KSUF_KEYLENX) m' Q).
  { intros m' b HS'. eapply lw_set_keylenx; [exact Hpq|exact HS'| |].
    - cbn. apply list_lookup_insert. by eapply lookup_lt_Some.
    - intros m2 HS2. apply (HQ b). unfold upd, sufd in HS2. cbn in HS2. rewrite list_insert_insert in HS2. exact HS2. }
  destruct (lv_p _ _ _ _ _ _ _ _ HV) as (l & H1 & H2 & H4).
  pose proof (lr_bag _ _ _ H4) as HB. unfold bag_rel in HB.
  destruct (N.eqb_spec (lb_bg L) 0) as [Hz|Hz].
  - rewrite decide_True in HB by done. apply wp_bind, wp_ret.
    destruct (bag_assign_spec (lb_bud L) (bag_new WIDTH) (fun _ => None) i suf) as (b' & E1 & E2); [apply bag_new_inv|done..|].
    apply wp_bind. rewrite E1. apply wp_ret. apply wp_bind. eapply wp_atomic; [done|].
    apply wp_bind. eapply wp_atomic; [cbn; rewrite H1; done|]. apply wp_bind, wp_ret.
    eapply (Hfin _ (nxt m)). refine (LV_new_bag m0 m p q vp vq Hpq L LQ HV i x (Some suf) _ b' (fun _ => None) l _ Hx H1 H2 H4 HB E2).
  - rewrite decide_False in HB by done. destruct HB as (bg & mm & B1 & B2 & B3).
    destruct (bag_try_spec _ _ _ i suf B2 Hi Hsl Hbd) as (ok & b' & E1 & E2).
    apply wp_bind. eapply wp_atomic; [cbn beta; rewrite B1, E1; done|].
    destruct ok.
    + eapply (Hfin _ (lb_bg L)). eapply LV_inplace; done.
    + assert (b' = bg) as ->.
      { unfold bag_try_assign in E1. repeat case_match; congruence. }
      destruct (bag_assign_spec _ _ _ i suf (clone_inv _ _ _ _ B2) Hi Hsl Hbd) as (b2 & F1 & F2).
      apply wp_bind. eapply wp_atomic; [cbn; rewrite lookup_insert, F1; done|].
      apply wp_bind. eapply wp_atomic; [done|].
      apply wp_bind. eapply wp_atomic; [cbn; rewrite H1; done|].
      apply wp_bind. eapply wp_atomic; [done|].
      eapply (Hfin _ (nxt m)). rewrite (insert_id (bags m)) by done.
      refine (LV_new_bag m0 m p q vp vq Hpq L LQ HV i x (Some suf) _ b2 mm l _ Hx H1 H2 H4 B3 F2).
Qed.
Lemma lw_clear_ksuf (Q : unit -> mem -> Prop) :
  (forall b m', LV m0 m' p q vp vq (mk_lbody (lb_perm L)
       (<[i := mk_slot (s_ik x) 0 (s_ptr x) None]> (lb_sl L)) b
       (lb_bud L) (lb_nx L) (lb_pv L)) LQ -> Q tt m') ->
  wp (clear_ksuf p i) m Q.
Proof.
  intros HQ. unfold clear_ksuf. apply wp_bind. eapply lw_ksuf_ptr; [done|].
  pose proof (sl_lt _ _ _ _ _ _ _ _ HV i x Hx) as Hi.
  assert (Hfin : forall m' b, LV m0 m' p q vp vq (sufd L b (lb_bud L) i x None) LQ ->
    wp (set_keylenx p i 0) m' Q).
  { intros m' b HS'. eapply lw_set_keylenx; [exact Hpq|exact HS'| |].
    - cbn. apply list_lookup_insert. by eapply lookup_lt_Some.
    - intros m2 HS2. apply (HQ b). unfold upd, sufd in HS2. cbn in HS2. rewrite list_insert_insert in HS2. exact HS2. }
  destruct (lv_p _ _ _ _ _ _ _ _ HV) as (l & H1 & H2 & H4).
  pose proof (lr_bag _ _ _ H4) as HB. unfold bag_rel in HB.
  destruct (N.eqb_spec (lb_bg L) 0) as [Hz|Hz].
  - rewrite decide_True in HB by done. eapply (Hfin _ (lb_bg L)).
    replace (sufd L (lb_bg L) (lb_bud L) i x None) with L; [done|].
    unfold sufd. replace (mk_slot _ _ _ _) with x; [rewrite list_insert_id by done; by destruct L|].
    pose proof (HB i x Hx). destruct x; cbn in *. by subst.
  - rewrite decide_False in HB by done. destruct HB as (bg & mm & B1 & B2 & B3).
    destruct (bag_clear_spec _ _ _ i (clone_inv _ _ _ _ B2) Hi) as (b2 & F1 & F2).
    apply wp_bind. eapply wp_atomic; [cbn; rewrite B1, F1; done|].
    apply wp_bind. eapply wp_atomic; [done|].
    apply wp_bind. eapply wp_atomic; [cbn; rewrite H1; done|].
    apply wp_bind. eapply wp_atomic; [done|].
    eapply (Hfin _ (nxt m)).
    refine (LV_new_bag m0 m p q vp vq Hpq L LQ HV i x None _ b2 mm l _ Hx H1 H2 H4 B3 F2).
Qed.
End Suffix.

(** ** the entries, from the slots *)
Definition eform (x : slot) : SpecNode.entry := (s_ik x, s_kx x, if (s_kx x =? 64)%N then s_sf x else None, s_ptr x).
Lemma entries_es m p l L : heap m !! p = Some (NLeaf l) -> leaf_rel (bags m) l L -> bags m !! 0%N = None ->
  p_wf P24 (lb_perm L) -> entries m p = map eform (es L).
Proof.
  intros Hp HR H0 Hw. unfold entries. rewrite Hp, (lr_perm _ _ _ HR), <- (ids_active _ Hw). unfold es, ids.
  assert (Hlt : forall i, i ∈ active_slots (lb_perm L) -> i < 24) by (intros; by eapply ids_lt).
  induction (active_slots (lb_perm L)) as [|i r IH]; [done|]. cbn [map omap list_omap].
  assert (Hi : i < 24) by (apply Hlt; left). destruct (lookup_lt_is_Some_2 (lb_sl L) i) as [x Hx]; [by rewrite (lr_len _ _ _ HR)|].
  assert (entry_of m l i = Some (eform (ent L i))) as ->.
  { assert (ent L i = x) as -> by (unfold ent; by apply nth_lookup_Some).
    unfold entry_of. rewrite (lr_ik _ _ _ HR), (lr_kx _ _ _ HR), (lr_val _ _ _ HR).
    change (map s_ik (lb_sl L)) with (s_ik <$> lb_sl L). change (map s_kx (lb_sl L)) with (s_kx <$> lb_sl L).
    change (map s_ptr (lb_sl L)) with (s_ptr <$> lb_sl L). rewrite !list_lookup_fmap, Hx. cbn. unfold eform, suffix_of.
    destruct (s_kx x =? 64)%N; [|done]. rewrite (lr_bg _ _ _ HR). pose proof (lr_bag _ _ _ HR) as HB. unfold bag_rel in HB. case_decide as Hz.
    - rewrite Hz, H0. by rewrite (HB i x Hx).
    - destruct HB as (bg & mm & B1 & B2 & B3). rewrite B1, (bag_get_inv 24 _ _ _ i B2 Hi). by rewrite (B3 i x Hx). }
  cbn [fmap]. f_equal. apply IH. intros j Hj. apply Hlt. by right.
Qed.
Lemma run_suffix_len w : forall ops b mm b' mm', Forall (op_in_range w) ops ->
  (forall s x, mm s = Some x -> (N.of_nat (length x) <= 65535)%N) -> bag_run b mm ops = Ok (b', mm') ->
  forall s x, mm' s = Some x -> (N.of_nat (length x) <= 65535)%N.
Proof.
  induction ops as [|o ops IH]; intros b mm b' mm' Hr H; cbn [bag_run].
  - intros [= <- <-]. done.
  - apply Forall_cons in Hr as [Ho Hr]. destruct (bag_run1 b o) as [[ok b1]|]; [|done]. apply IH; [done|].
    intros s x. destruct o; cbn in *.
    + case_match; [intros [= <-]; apply Ho|apply H].
    + destruct ok; [case_match; [intros [= <-]; apply Ho|apply H]|apply H].
    + case_match; [done|apply H].
    + case_bool_decide; [apply H|done].
    + apply H.
Qed.
(** a well-formed leaf has a description by slots *)
Lemma leaf_slots m l : is_leaf_node m l -> exists L, leaf_rel (bags m) l L /\ p_wf P24 (lb_perm L) /\
  forall j x s, lb_sl L !! j = Some x -> s_sf x = Some s -> (N.of_nat (length s) <= 65535)%N.
Proof.
  intros (H1 & H2 & H3 & H4 & H5).
  assert (exists mm bud, (l_ksuf l = 0%N -> forall s, mm s = None) /\
    (l_ksuf l <> 0%N -> exists bg, bags m !! l_ksuf l = Some bg /\ bag_inv 24 bud bg mm) /\
    (forall s x, mm s = Some x -> (N.of_nat (length x) <= 65535)%N)) as (mm & bud & M1 & M2 & M3).
  { destruct (decide (l_ksuf l = 0%N)) as [Hz|Hz].
    - exists (fun _ => None), 0%N. split; [done|]. split; [done|]. done.
    - destruct H5 as [?|(b & cap & ops & mm & B1 & B2 & B3 & B4)]; [done|].
      destruct (run_inv 24 ops 0 _ _ (bag_new_inv 24 cap 0) B2) as (b' & m' & E1 & E2); [done|].
      rewrite E1 in B4. injection B4 as -> ->. exists mm, (0 + bytes_written ops)%N. split; [done|]. split; [eauto|].
      eapply run_suffix_len; [exact B2| |exact E1]. done. }
  pose (sl := map (fun i => mk_slot (nth i (l_ikey l) 0%N) (nth i (l_klx l) 0%N) (nth i (l_val l) 0%N) (mm i)) (seq 0 24)).
  assert (Hnth : forall (a : list N), length a = 24 -> map (fun i => nth i a 0%N) (seq 0 24) = a).
  { intros a Ha. apply list_eq. intros i. change (((fun i => nth i a 0%N) <$> seq 0 24) !! i = a !! i). rewrite list_lookup_fmap.
    destruct (decide (i < 24)).
    - rewrite lookup_seq_lt by done. cbn. destruct (lookup_lt_is_Some_2 a i) as [z Hz]; [lia|]. rewrite Hz. f_equal. by apply nth_lookup_Some.
    - rewrite (lookup_ge_None_2 (seq 0 24)) by (rewrite seq_length; lia). cbn. symmetry. apply lookup_ge_None. lia. }
  assert (Hsl : forall i x, sl !! i = Some x -> s_sf x = mm i).
  { intros i x Hi. unfold sl in Hi. change (map ?f ?q) with (f <$> q) in Hi. rewrite list_lookup_fmap in Hi.
    destruct (seq 0 24 !! i) as [j|] eqn:E; [|done]. apply lookup_seq in E as [-> _]. injection Hi as <-. done. }
  exists (mk_lbody (l_perm l) sl (l_ksuf l) bud (l_next l) (l_prev l)). split; [|split; [by apply perm_word_wf|]].
  - split; cbn [lb_perm lb_sl lb_bg lb_nx lb_pv lb_bud]; try done; unfold sl; rewrite ?map_map; cbn [s_ik s_kx s_ptr]; rewrite ?Hnth by done; try done.
    fold sl. unfold bag_rel. case_decide as Hz.
    + intros i x Hi. rewrite (Hsl i x Hi). by apply M1.
    + destruct (M2 Hz) as (bg & B1 & B2). exists bg, mm. split; [done|]. split; [done|]. exact Hsl.
  - intros j x s Hx Hs. cbn in Hx. rewrite (Hsl j x Hx) in Hs. by eapply M3.
Qed.

(** ** moving the entries (leaf24.rs:1292-1320) *)
Section Move.
Context (m0 : mem) (p q vp vq : N) (Hne : p <> q) (L : lbody) (pf : N).
Context (Hw : p_wf P24 (lb_perm L)) (Hlen24 : length (lb_sl L) = 24).
Context (Hsf : forall j x s, lb_sl L !! j = Some x -> s_sf x = Some s -> (N.of_nat (length s) <= 65535)%N).
Context (pos : nat).
Local Notation PL sl bg := (mk_lbody pf sl bg (lb_bud L) (lb_nx L) (lb_pv L)).
Local Notation QL sl bg bud := (mk_lbody perm_empty sl bg bud 0 0).
Definition norm_sf (e : slot) : slot := mk_slot (s_ik e) (s_kx e) (s_ptr e) (if (s_kx e =? 64)%N then s_sf e else None).
Definition rslots (i : nat) : list slot := take i (drop pos (map norm_sf (es L))) ++ replicate (24 - i) slot0.
Definition lslots (i : nat) (sl : list slot) : Prop := length sl = 24 /\
  forall t, t ∉ take i (drop pos (ids L)) -> sl !! t = lb_sl L !! t.
Definition lmoving (i : nat) (m : mem) : Prop := exists slp bgp bgq bud,
  LV m0 m p q vp vq (PL slp bgp) (QL (rslots i) bgq bud) /\
  lslots i slp /\ (bud <= 65535 * N.of_nat i)%N.
Lemma ent_at i : i < 24 -> lb_sl L !! i = Some (ent L i).
Proof. intros Hi. unfold ent. destruct (nth_lookup_or_length (lb_sl L) i slot0) as [E|E]; [exact E|]. lia. Qed.
Lemma ids_es j os : ids L !! j = Some os -> os < 24 /\ es L !! j = Some (ent L os) /\ perm_get (lb_perm L) j = os /\ lb_sl L !! os = Some (ent L os).
Proof.
  intros Hj. assert (os < 24) by (eapply ids_lt; [exact Hw|]; by eapply elem_of_list_lookup_2). split; [done|]. split; [|split; [|by apply ent_at]].
  - unfold es. by rewrite list_lookup_fmap, Hj.
  - unfold ids, active_slots in Hj. rewrite list_lookup_fmap in Hj.
    destruct (seq 0 (perm_size (lb_perm L)) !! j) eqn:E; [|done]. apply lookup_seq in E as [-> _]. by injection Hj.
Qed.
Lemma U32_24 n : (n <= 65535 * 24 + 65535)%N -> (n < U32_MAX)%N.
Proof. intros H. eapply N.le_lt_trans; [exact H|]. done. Qed.

Lemma lw_move_entry i m : pos + i < length (ids L) -> i < 24 -> lmoving i m ->
  wp (move_entry p q (lb_perm L) pos i) m (fun _ m' => lmoving (i + 1) m').
Proof.
  intros Hi Hi24 (slp & bgp & bgq & bud & HS & [Hlen Hleft] & Hbud).
  destruct (lookup_lt_is_Some_2 (ids L) (pos + i) Hi) as [os Hos].
  destruct (ids_es _ _ Hos) as (Hlt & He & Eos & Hsl). set (e := ent L os) in *.
  assert (Hnot : os ∉ take i (drop pos (ids L))).
  { intros Hin. apply elem_of_take in Hin as (j & Hj & Hji). rewrite lookup_drop in Hj.
    pose proof (NoDup_lookup _ _ _ _ (ids_nodup _ Hw) Hj Hos). lia. }
  assert (Hy : slp !! os = Some e) by (by rewrite Hleft).
  unfold move_entry. rewrite Eos. cbv zeta.
  apply wp_bind. eapply lw_ikey; [exact HS|exact Hy|].
  apply wp_bind. eapply lw_keylenx; [exact HS|exact Hy|].
  assert (Hle : length (es L) = length (ids L)) by (unfold es; by rewrite map_length).
  assert (Hln : length (take i (drop pos (map norm_sf (es L)))) = i) by (rewrite take_length, drop_length, map_length; lia).
  assert (Hr0 : rslots i = take i (drop pos (map norm_sf (es L))) ++ slot0 :: replicate (24 - (i + 1)) slot0).
  { unfold rslots. f_equal. replace (24 - i) with (Datatypes.S (24 - (i + 1))) by lia. done. }
  assert (Hr1 : forall x, <[i := x]> (rslots i) = (take i (drop pos (map norm_sf (es L))) ++ [x]) ++ replicate (24 - (i + 1)) slot0).
  { intros x. rewrite Hr0. by apply insert_mid. }
  assert (Hri : rslots (i + 1) = <[i := norm_sf e]> (rslots i)).
  { rewrite Hr1. unfold rslots. f_equal. replace (i + 1) with (Datatypes.S i) by lia. apply take_S_r. rewrite lookup_drop.
    change (map norm_sf (es L)) with (norm_sf <$> es L). by rewrite list_lookup_fmap, He. }
  assert (Hq0 : forall x, <[i := x]> (rslots i) !! i = Some x).
  { intros x. apply list_lookup_insert. rewrite Hr0, app_length, Hln. cbn. lia. }
  assert (Hqi : rslots i !! i = Some slot0).
  { rewrite Hr0, lookup_app_r by lia. by rewrite Hln, Nat.sub_diag. }
  apply wp_bind. eapply lw_set_ikey; [|apply LV_sym, HS|exact Hqi|]; [done|]. intros m1 H1. unfold upd in H1. cbn in H1.
  apply wp_bind. eapply lw_set_keylenx; [|exact H1|apply Hq0|]; [done|]. intros m2 H2. unfold upd in H2. cbn in H2. rewrite list_insert_insert in H2.
  apply wp_bind. eapply lw_take_val; [|apply LV_sym, H2|exact Hy|]; [done|]. intros m3 H3. unfold upd in H3. cbn in H3.
  apply wp_bind. eapply lw_set_val; [|apply LV_sym, H3|apply Hq0|]; [done|]. intros m4 H4. unfold upd in H4. cbn in H4. rewrite list_insert_insert in H4.
  assert (Hleft' : forall y, lslots (i + 1) (<[os := y]> slp)).
  { intros y. split; [by rewrite insert_length|]. intros t Ht. replace (i + 1) with (Datatypes.S i) in Ht by lia.
    rewrite (take_S_r _ i os) in Ht by (by rewrite lookup_drop). rewrite elem_of_app, elem_of_list_singleton in Ht.
    rewrite list_lookup_insert_ne by (intros ->; tauto). apply Hleft. tauto. }
  assert (Hslp : forall y, <[os := y]> slp !! os = Some y) by (intros; apply list_lookup_insert; lia).
  destruct (N.eqb_spec (s_kx e) KSUF_KEYLENX) as [E64|E64].
  - apply wp_bind. eapply lw_ksuf; [apply LV_sym, H4|apply Hslp|]. cbn. rewrite E64, N.eqb_refl.
    assert (Hne' : norm_sf e = mk_slot (s_ik e) 64 (s_ptr e) (s_sf e)) by (unfold norm_sf; rewrite E64; done).
    assert (Hclear : forall bgq bud m', (bud <= 65535 * N.of_nat (i + 1))%N ->
      LV m0 m' q p vq vp (QL (<[i := mk_slot (s_ik e) 64 (s_ptr e) (s_sf e)]> (rslots i)) bgq bud) (PL (<[os := mk_slot (s_ik e) (s_kx e) 0 (s_sf e)]> slp) bgp) ->
      wp (clear_ksuf p os) m' (fun _ m' => lmoving (i + 1) m')).
    { intros bgq' bud' m' Hb HV. eapply lw_clear_ksuf; [exact Hne|apply LV_sym, HV|apply Hslp|].
      intros b6 m6 H6. cbn in H6. rewrite list_insert_insert in H6. exists (<[os := mk_slot (s_ik e) 0 0 None]> slp), b6, bgq', bud'.
      split; [rewrite Hri, Hne'; exact H6|]. split; [apply Hleft'|done]. }
    apply wp_bind. destruct (s_sf e) as [suf|] eqn:Es.
    + pose proof (Hsf _ _ _ Hsl Es) as Hl.
      eapply lw_assign_ksuf; [|exact H4|apply Hq0|done| |]; [done| |].
      { cbn. apply U32_24. lia. }
      intros b5 m5 H5. cbn in H5. rewrite list_insert_insert in H5.
      apply (Hclear b5 (bud + N.of_nat (length suf))%N); [lia|exact H5].
    + apply wp_ret. apply (Hclear bgq bud); [lia|]. rewrite E64 in H4 at 1. exact H4.
  - apply wp_ret. assert (Hne' : norm_sf e = mk_slot (s_ik e) (s_kx e) (s_ptr e) None).
    { unfold norm_sf. destruct (N.eqb_spec (s_kx e) 64); [done|]. done. }
    eexists _, bgp, bgq, bud. split; [rewrite Hri, Hne'; apply LV_sym, H4|]. split; [apply Hleft'|lia].
Qed.
End Move.

(** ** leaf24.rs:1246-1353 *)
Lemma eform_norm e : eform (norm_sf e) = eform e.
Proof. unfold eform, norm_sf. cbn. by destruct (s_kx e =? 64)%N. Qed.
Lemma split_entries F m p q l pos : 0 < F -> p <> q ->
  heap m !! p = Some (NLeaf l) -> heap m !! q = Some (NLeaf leaf_new) ->
  is_leaf_node m l -> allocator_fresh m -> v_is_locked (l_ver l) = true -> v_is_splitting (l_ver l) = true ->
  0 < pos < length (entries m p) ->
  exists sk m', run (split_into_preallocated F p q pos) m = Ok (sk, m') /\
    entries m' p = take pos (entries m p) /\ entries m' q = drop pos (entries m p) /\
    (exists e, entries m p !! pos = Some e /\ e.1.1.1 = sk) /\ run (ikey_bound q) m' = Ok (sk, m') /\
    (forall a, a <> p -> a <> q -> heap m' !! a = heap m !! a) /\ vals m' = vals m.
Proof.
  intros HF Hne Hp Hq Hl Hfr Hlk Hsp Hpos. destruct (leaf_slots m l Hl) as (L & HR & Hw & Hsf).
  assert (Hent : entries m p = map eform (es L)) by exact (entries_es m p l L Hp HR (proj1 (proj2 Hfr)) Hw).
  assert (Hes : length (es L) = perm_size (lb_perm L)) by apply es_size.
  assert (Hids : length (ids L) = perm_size (lb_perm L)) by apply ids_len.
  pose proof (ids_size _ Hw) as H24. change (active_slots (lb_perm L)) with (ids L) in H24.
  rewrite Hent, map_length, Hes in Hpos.
  pose proof (lr_len _ _ _ HR) as Hsl24.
  assert (HQ0 : leaf_rel (bags m) leaf_new (mk_lbody perm_empty (rslots L pos 0) 0 0 0 0)).
  { split; try done. unfold bag_rel. rewrite decide_True by done. intros i x Hx. unfold rslots in Hx. cbn [take app lb_sl] in Hx.
    apply lookup_replicate in Hx as [-> _]. done. }
  assert (HV0 : LV m m p q (l_ver l) (l_ver leaf_new) L (mk_lbody perm_empty (rslots L pos 0) 0 0 0 0)).
  { split; try done; eauto. }
  assert (wp (split_into_preallocated F p q pos) m (fun sk m' =>
    entries m' p = take pos (entries m p) /\ entries m' q = drop pos (entries m p) /\
    (exists e, entries m p !! pos = Some e /\ e.1.1.1 = sk) /\ run (ikey_bound q) m' = Ok (sk, m') /\
    (forall a, a <> p -> a <> q -> heap m' !! a = heap m !! a) /\ vals m' = vals m)) as HW.
  { unfold split_into_preallocated.
    apply wp_bind. eapply lw_version; [exact HV0|]. rewrite Hlk.
    apply wp_bind. eapply lw_ver; [|apply LV_sym, HV0|]; [done|]. intros m1 H1. apply LV_sym in H1.
    apply wp_bind. unfold freeze_permutation.
    apply wp_bind. eapply lw_flag; [exact H1|]. apply wp_bind. eapply lw_flag; [exact H1|]. rewrite Hlk, Hsp. cbn [andb].
    destruct F as [|F]; [lia|]. cbn [freeze_loop]. apply wp_bind. eapply lw_perm; [exact H1|].
    rewrite (ids_not_frozen _ Hw). apply wp_bind. eapply lw_cas_perm; [exact Hne|exact H1|]. intros m2 H2. apply wp_ret.
    cbv zeta. destruct (Nat.ltb_spec 0 pos); [|lia]. destruct (Nat.ltb_spec pos (perm_size (lb_perm L))); [|lia]. cbn [andb].
    apply wp_bind. eapply (wp_for_seq (lmoving m p q (l_ver l) (v_new_for_split (l_ver l)) L (freeze_raw (lb_perm L)) pos) _ _ 0).
    - exists (lb_sl L), (lb_bg L), 0%N, 0%N. split; [exact H2|]. split; [|lia]. done.
    - intros i m' Hi HJ. eapply lw_move_entry; [done|done|done|done|lia|lia|exact HJ].
    - intros m3 (slp & bgp & bgq & bud & H3 & [Hlen Hleft] & Hbud). cbn [Nat.add] in *. set (k := perm_size (lb_perm L) - pos) in *.
      apply wp_bind. eapply lw_set_perm; [|apply LV_sym, H3|]; [done|]. intros m4 H4. unfold updp in H4. cbn in H4.
      apply wp_bind. eapply lw_set_perm; [|apply LV_sym, H4|]; [done|]. intros m5 H5. unfold updp in H5. cbn in H5.
      destruct (sorted_ids k ltac:(lia)) as [Hws Hss].
      assert (Er : rslots L pos k = drop pos (map norm_sf (es L)) ++ replicate (24 - k) slot0).
      { unfold rslots. f_equal. apply take_ge. rewrite drop_length, map_length. lia. }
      destruct (lookup_lt_is_Some_2 (es L) pos) as [e He]; [lia|].
      assert (Hq0 : rslots L pos k !! 0 = Some (norm_sf e)).
      { rewrite Er. rewrite lookup_app_l by (rewrite drop_length, map_length; lia). rewrite lookup_drop, Nat.add_0_r.
        change (map norm_sf (es L)) with (norm_sf <$> es L). by rewrite list_lookup_fmap, He. }
      assert (E0 : perm_get (perm_make_sorted k) 0 = 0).
      { assert (Hx : active_slots (perm_make_sorted k) !! 0 = Some 0) by (rewrite Hss; apply lookup_seq; lia).
        unfold active_slots in Hx. rewrite list_lookup_fmap in Hx. destruct (seq 0 (perm_size (perm_make_sorted k)) !! 0) eqn:E; [|done].
        apply lookup_seq in E as [-> _]. by injection Hx. }
      rewrite E0. eapply lw_ikey; [apply LV_sym, H5|exact Hq0|]. cbn [s_ik norm_sf].
      pose proof H5 as [(lp & P1 & P2 & P3) (lq & Q1 & Q2 & Q3) _ (F1 & F2 & F3) Ho Hva].
      destruct (set_size_law_holds P24 P24_ok (lb_perm L) pos (proj2 (perm_word_wf P24 _) Hw)) as (W1 & W2 & W3); [change (pW P24) with 24; lia|].
      apply perm_word_wf in W1.
      assert (Hia : active_slots (perm_set_size (lb_perm L) pos) = take pos (ids L)).
      { rewrite ids_active by done. unfold active, perm_set_size. rewrite W2, W3. unfold ids. rewrite ids_active by done. unfold active.
        rewrite take_take. f_equal. unfold perm_size in Hpos. lia. }
      ands.
      + rewrite (entries_es m5 p lp _ P1 P3 F2 W1), Hent. rewrite firstn_map. f_equal.
        unfold es, ids at 1. cbn [lb_perm]. rewrite Hia, firstn_map. apply map_ext_in. intros i Hi'. apply elem_of_list_In in Hi'.
        unfold ent. cbn [lb_sl].
        assert (Ei : slp !! i = lb_sl L !! i).
        { apply Hleft. intros Hin. apply elem_of_take in Hi' as (j & Hj & Hjp). apply elem_of_take in Hin as (j' & Hj' & _). rewrite lookup_drop in Hj'.
          pose proof (NoDup_lookup _ _ _ _ (ids_nodup _ Hw) Hj Hj'). lia. }
        assert (i < 24). { eapply ids_lt; [exact Hw|]. apply elem_of_take in Hi' as (j & Hj & _). by eapply elem_of_list_lookup_2. }
        destruct (lookup_lt_is_Some_2 (lb_sl L) i) as [z Hz]; [lia|].
        rewrite (nth_lookup_Some (lb_sl L) i slot0 z Hz). apply nth_lookup_Some. congruence.
      + rewrite (entries_es m5 q lq _ Q1 Q3 F2 Hws), Hent. rewrite skipn_map.
        assert (map eform (drop pos (es L)) = map eform (drop pos (map norm_sf (es L)))) as ->.
        { change (map norm_sf (es L)) with (norm_sf <$> es L). rewrite <- fmap_drop. change (norm_sf <$> drop pos (es L)) with (map norm_sf (drop pos (es L))).
          rewrite map_map. apply map_ext. intros z. by rewrite eform_norm. }
        f_equal. unfold es at 1, ids. cbn [lb_perm]. rewrite Hss. apply list_eq. intros i.
        change (map ?f ?q) with (f <$> q). rewrite list_lookup_fmap. destruct (decide (i < k)) as [Hik|Hik].
        * rewrite lookup_seq_lt by done. cbn. unfold ent. cbn [lb_sl].
          destruct (lookup_lt_is_Some_2 (drop pos (norm_sf <$> es L)) i) as [z Hz]; [rewrite drop_length, fmap_length; lia|].
          rewrite Hz. f_equal. apply nth_lookup_Some. rewrite Er. change (map norm_sf (es L)) with (norm_sf <$> es L). by apply lookup_app_l_Some.
        * rewrite (lookup_ge_None_2 (seq 0 k)) by (rewrite seq_length; lia). cbn. symmetry. apply lookup_ge_None. rewrite drop_length, fmap_length. lia.
      + exists (eform e). rewrite Hent. change (map eform (es L)) with (eform <$> es L). rewrite list_lookup_fmap, He. done.
      + assert (wp (ikey_bound q) m5 (fun r m' => r = s_ik e /\ m' = m5)) as Hb by (eapply lw_ikey; [apply LV_sym, H5|exact Hq0|]; done).
        apply wp_run in Hb as (r & m6 & E & -> & ->). exact E.
      + exact Ho.
      + exact Hva. }
  apply wp_run in HW as (sk & m' & E & HH). eauto 10.
Qed.

(** ** leaf24.rs:1185-1244: the choice of the split position *)
Section Point.
Context (fx : bool) (m : mem) (p : N) (l : leaf) (ik : N).
Context (Hp : heap m !! p = Some (NLeaf l)) (Hl : is_leaf_node m l).
Definition kat (j : nat) : N := nth (perm_get (l_perm l) j) (l_ikey l) 0%N.
Lemma get_lt j : j < perm_size (l_perm l) -> perm_get (l_perm l) j < 24.
Proof.
  intros Hj. destruct Hl as (_ & _ & _ & Hw & _). apply perm_word_wf in Hw. eapply ids_lt; [exact Hw|].
  unfold active_slots. apply elem_of_list_fmap. exists j. split; [done|]. apply elem_of_seq. lia.
Qed.
Lemma pw_ikey j (Q : N -> mem -> Prop) : j < perm_size (l_perm l) -> Q (kat j) m -> wp (ikey p (perm_get (l_perm l) j)) m Q.
Proof.
  intros Hj HQ. eapply wp_atomic; [|exact HQ]. cbn beta. rewrite Hp. pose proof (get_lt j Hj). destruct Hl as (H1 & _).
  destruct (lookup_lt_is_Some_2 (l_ikey l) (perm_get (l_perm l) j)) as [x Hx]; [lia|]. rewrite Hx. unfold kat.
  by rewrite (nth_lookup_Some _ _ 0%N x Hx).
Qed.
Local Notation size := (perm_size (l_perm l)).
Lemma pw_down : forall n pos, pos <= n -> pos < size -> ((ik < kat pos)%N \/ (kat pos < ik)%N /\ fx = true) ->
  wp (adjust_split fx n p (l_perm l) ik size pos) m (fun r m' => m' = m /\ r <= size).
Proof.
  induction n as [|n IH]; intros pos Hn Hs Hc; cbn [adjust_split]; destruct (Nat.ltb_spec 0 pos), (Nat.ltb_spec pos size); cbn [andb];
    try lia; try (apply wp_ret; split; [done|lia]).
  apply wp_bind, pw_ikey; [lia|]. apply wp_bind, pw_ikey; [lia|].
  destruct (N.eqb_spec (kat (pos - 1)) (kat pos)) as [E|E]; [|apply wp_ret; split; [done|lia]].
  rewrite E. destruct (N.compare_spec ik (kat pos)).
  - lia.
  - apply IH; [lia|lia|]. by rewrite E.
  - destruct fx eqn:Ef; [|apply wp_ret; split; [done|lia]]. rewrite <- Ef in *. apply IH; [lia|lia|]. rewrite E. right. done.
Qed.
Lemma pw_up : forall n pos, size - pos <= n -> 0 < pos <= size -> ik = kat (pos - 1) ->
  wp (adjust_split fx n p (l_perm l) ik size pos) m (fun r m' => m' = m /\ r <= size).
Proof.
  induction n as [|n IH]; intros pos Hn Hs Hc; cbn [adjust_split]; destruct (Nat.ltb_spec 0 pos), (Nat.ltb_spec pos size); cbn [andb];
    try lia; try (apply wp_ret; split; [done|lia]).
  apply wp_bind, pw_ikey; [lia|]. apply wp_bind, pw_ikey; [lia|].
  destruct (N.eqb_spec (kat (pos - 1)) (kat pos)) as [E|E]; [|apply wp_ret; split; [done|lia]].
  rewrite <- Hc, N.compare_refl. apply IH; [lia|lia|]. rewrite Hc. replace (pos + 1 - 1) with pos by lia. done.
Qed.
Lemma entries_len : length (entries m p) = size.
Proof.
  destruct (leaf_slots m l Hl) as (L & HR & Hw & _). unfold entries. rewrite Hp.
  rewrite <- (lr_perm _ _ _ HR) in Hw. rewrite <- (ids_active _ Hw), <- (ids_len (l_perm l)).
  assert (Hlt : forall i, i ∈ active_slots (l_perm l) -> i < 24) by (intros; by eapply ids_lt).
  destruct Hl as (H1 & H2 & H3 & _).
  induction (active_slots (l_perm l)) as [|i r IH]; [done|]. cbn [omap list_omap].
  assert (Hi : i < 24) by (apply Hlt; left).
  destruct (lookup_lt_is_Some_2 (l_ikey l) i) as [x Hx]; [lia|]. destruct (lookup_lt_is_Some_2 (l_klx l) i) as [y Hy]; [lia|].
  destruct (lookup_lt_is_Some_2 (l_val l) i) as [z Hz]; [lia|]. unfold entry_of at 1. rewrite Hx, Hy, Hz. cbn. f_equal.
  apply IH. intros j Hj. apply Hlt. by right.
Qed.
Lemma split_point_ok : exists r, run (calculate_split_point fx p ik) m = Ok (r, m) /\
  forall pos, r = Some pos -> 0 < pos < length (entries m p).
Proof.
  rewrite entries_len.
  assert (wp (calculate_split_point fx p ik) m (fun r m' => m' = m /\ forall pos, r = Some pos -> 0 < pos < size)) as HW.
  { unfold calculate_split_point. apply wp_bind. eapply wp_atomic; [cbn beta; rewrite Hp; done|]. cbv zeta.
    destruct (Nat.eqb_spec size 0) as [|Hz]; cbn [orb]; [by apply wp_ret|].
    destruct (Nat.eqb_spec (size / 2) 0) as [|Hh]; [by apply wp_ret|].
    assert (Hhalf : size / 2 < size) by (apply Nat.div_lt; lia). apply wp_bind. set (h := size / 2) in *.
    apply (wp_mono _ _ (fun r m' => m' = m /\ r <= size)).
    - destruct size as [|n] eqn:En; [done|]. rewrite <- En in *. rewrite En at 1. cbn [adjust_split].
      destruct (Nat.ltb_spec 0 h); [|lia]. destruct (Nat.ltb_spec h size); [|lia]. cbn [andb].
      apply wp_bind, pw_ikey; [lia|]. apply wp_bind, pw_ikey; [lia|].
      destruct (N.eqb_spec (kat (h - 1)) (kat h)) as [E|E]; [|apply wp_ret; split; [done|lia]].
      destruct (N.compare_spec ik (kat (h - 1))) as [Hc|Hc|Hc].
      + apply pw_up; [lia|lia|]. replace (h + 1 - 1) with h by lia. congruence.
      + apply pw_down; [lia|lia|]. left. done.
      + destruct fx eqn:Ef; [|apply wp_ret; split; [done|lia]]. rewrite <- Ef in *. apply pw_down; [lia|lia|]. right. done.
    - intros r m' [-> Hr]. destruct (Nat.eqb_spec r 0); cbn [orb]; [by apply wp_ret|].
      destruct (Nat.leb_spec size r); [by apply wp_ret|]. apply wp_bind, pw_ikey; [lia|]. apply wp_ret. split; [done|]. intros pos [= <-]. lia. }
  apply wp_run in HW as (r & m' & E & -> & HH). eauto.
Qed.
End Point.
