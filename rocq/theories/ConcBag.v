(** Concurrent executions on the whole tree: the suffix bag of a locked leaf. *)
From Verif Require Import Base Perm PermFacts PermList PermLaws SpecPerm Key SpecKey KeyFacts Prog Version VersionFacts Mem Tree
  SpecTree TreeState SpecLin Suffix SpecSuffix SuffixFacts Conc ConcStep ConcRules ConcRead ConcPar ConcMem ConcOwn.
From Verif Require LinInsert.

(** ** bags others do not touch *)
Definition steady (i : nat) (w : world) (b : N) : Prop := b = 0%N \/ exists p, wbh w !! b = Some p /\ wown w !! p = Some i /\ guarded i w b.
Lemma no_bag0 w : Inv w -> bags (wm w) !! 0%N = None.
Proof.
  intros I. destruct (bags (wm w) !! 0%N) as [bg|] eqn:E; [|done]. assert (is_Some (wvl w !! 0%N)) as [x Hx].
  { apply (iv_vals _ I). right. by eexists. }
  by destruct (iv_hdl _ I 0%N x Hx).
Qed.
Lemma steady_rely i w w1 b : Inv w -> Inv w1 -> i ∈ wrun w -> Rely i w w1 -> steady i w b -> bags (wm w1) !! b = bags (wm w) !! b.
Proof.
  intros I I1 Hr R [->|(p & H1 & H2 & H3)]; [by rewrite !no_bag0|].
  destruct (bag_there w b p I (guarded_some _ _ _ H3) H1) as [bg Hbg].
  apply (rl_grd _ _ _ R Hr) in H3. pose proof (mo_home _ _ (rl_mono _ _ _ R) _ _ H1) as H1'.
  destruct (bag_there w1 b p I1 (guarded_some _ _ _ H3) H1') as [bg' Hbg']. rewrite Hbg, Hbg'. f_equal. by apply (rl_bag _ _ _ R b p).
Qed.
Lemma at_steady i σ w p l : At i σ w -> nl σ !! p = Some (NLeaf l) -> steady i w (l_ksuf l).
Proof.
  intros A Hp. destruct (decide (l_ksuf l = 0%N)) as [|Hz]; [by left|]. right. exists p.
  pose proof (at_leaf_ok _ _ _ _ _ A Hp) as Hok. split; [by apply (lo_ksuf _ _ _ Hok)|]. split; [apply (at_own _ _ _ A); by eexists|].
  unfold guarded. by rewrite (lo_val _ _ _ Hok 24 _ (lptrs_24 _ (proj2 (proj2 (lo_len _ _ _ Hok)))) Hz).
Qed.
Lemma at_steady_held i σ w p n b : At i σ w -> b ∈ hs σ -> wbh w !! b = Some p -> nl σ !! p = Some n -> steady i w b.
Proof.
  intros A Hb Hh Hp. right. exists p. split; [done|]. split; [apply (at_own _ _ _ A); by eexists|].
  unfold guarded. apply (at_hold _ _ _ A) in Hb. by rewrite Hb.
Qed.
Lemma sfx_rely i σ w w1 p l s : At i σ w -> nl σ !! p = Some (NLeaf l) -> Rely i w w1 -> Inv w1 -> sfx w1 l s = sfx w l s.
Proof. intros A Hp R I1. unfold sfx. rewrite (steady_rely i w w1); try done; [apply A|apply A|by eapply at_steady]. Qed.
(** a step that does not write bag [b] *)
Definition bag_frame {A} (f : mem -> res (A * mem)) (b : N) : Prop :=
  forall m r m', f m = Ok (r, m') -> (b < nxt m)%N -> bags m' !! b = bags m !! b.
Lemma steady_lt i w b : Inv w -> steady i w b -> (b < nxt (wm w))%N.
Proof. intros I [->|(p & H & _)]; [apply (iv_nxt _ I)|]. by apply (iv_bnew _ I) in H as [? _]. Qed.
Lemma steady_step i w w1 b : i ∈ wrun w -> Rely i w w1 -> steady i w b -> steady i w1 b.
Proof.
  intros Hr R [->|(p & H1 & H2 & H3)]; [by left|]. right. exists p. split; [by apply (rl_mono _ _ _ R)|]. split; [by apply (rl_own _ _ _ R)|]. by apply (rl_grd _ _ _ R).
Qed.
Lemma cwp_same {A} i (f : mem -> res (A * mem)) w (Q : A -> world -> Prop) (Bs : N -> Prop) : Inv w -> i ∈ wrun w ->
  (forall b, Bs b -> steady i w b /\ bag_frame f b) ->
  cwp i (atomic f) w (fun r w' => (forall b, Bs b -> bags (wm w') !! b = bags (wm w) !! b) -> Q r w') -> cwp i (atomic f) w Q.
Proof.
  intros I Hr Hs H. cbn in *. intros w1 HR HI Hm. destruct (H w1 HR HI Hm) as (r & w2 & H1 & H2 & H3 & H4).
  exists r, w2. split; [done|]. split; [done|]. split; [done|]. apply H4. intros b Hb. destruct (Hs b Hb) as [S1 S2].
  rewrite (S2 _ _ _ H1) by (eapply steady_lt; [done|by eapply steady_step]). by apply (steady_rely i).
Qed.
(** the bags of the locked leaves are as before / except that of [p] *)
Definition same_bags (nl : gmap N node) (w w' : world) : Prop := forall q l, nl !! q = Some (NLeaf l) -> bags (wm w') !! l_ksuf l = bags (wm w) !! l_ksuf l.
Definition other_bags (p : N) (nl : gmap N node) (w w' : world) : Prop := forall q l, q <> p -> nl !! q = Some (NLeaf l) -> bags (wm w') !! l_ksuf l = bags (wm w) !! l_ksuf l.
Lemma same_other p nl w w' : same_bags nl w w' -> other_bags p nl w w'.
Proof. intros H q l _. apply H. Qed.
Lemma other_trans p n nl w w1 w2 : other_bags p nl w w1 -> other_bags p (<[p := n]> nl) w1 w2 -> other_bags p nl w w2.
Proof. intros H1 H2 q l Hq Hl. rewrite (H2 q l Hq) by (by rewrite lookup_insert_ne). exact (H1 q l Hq Hl). Qed.
Lemma other_trans' p nl w w1 w2 : other_bags p nl w w1 -> other_bags p nl w1 w2 -> other_bags p nl w w2.
Proof. intros H1 H2 q l Hq Hl. rewrite (H2 q l Hq Hl). exact (H1 q l Hq Hl). Qed.
Lemma same_rely i σ w w1 : At i σ w -> Rely i w w1 -> Inv w1 -> same_bags (nl σ) w w1.
Proof. intros A R I q l Hq. apply (steady_rely i); try done; [apply A|apply A|by eapply at_steady]. Qed.
Lemma cwp_same_at {A} i σ (f : mem -> res (A * mem)) w (Q : A -> world -> Prop) : At i σ w -> (forall b, bag_frame f b) ->
  cwp i (atomic f) w (fun r w' => same_bags (nl σ) w w' -> Q r w') -> cwp i (atomic f) w Q.
Proof.
  intros A0 Hf H. apply (cwp_same i f w Q (fun b => exists q l, nl σ !! q = Some (NLeaf l) /\ l_ksuf l = b)); [apply A0|apply A0| |].
  - intros b (q & l & Hq & <-). split; [by eapply at_steady|done].
  - eapply cwp_mono; [exact H|]. cbn. intros r w' H1 H2. apply H1. intros q l Hq. apply H2. by exists q, l.
Qed.
Lemma frame_leaf_up {R} p (f : leaf -> option (R * leaf)) b : bag_frame (fun m => match heap m !! p with
  | Some (NLeaf l) => match f l with Some (r, l') => Ok (r, mwith_heap (<[p := NLeaf l']> (heap m)) m) | None => Er Panic end
  | _ => Er UB end) b.
Proof. intros m r m' E _. destruct (heap m !! p) as [[l|]|]; [|done..]. destruct (f l) as [[r0 l']|]; [|done]. by injection E as <- <-. Qed.

(** ** writing a field of a locked leaf, with what is known of the bags *)
Lemma cwp_wleaf_r {A} i nl hs un ns pr pe tp zs w p l l2 f (r : A) (Q : A -> world -> Prop) :
  At i (L nl hs un ns pr pe tp zs) w -> nl !! p = Some (NLeaf l) -> p ∉ ns ->
  (p ∈ pr \/ v_is_locked (l_ver l) = true) -> l_ver l2 = l_ver l ->
  (forall pv pa, f (with_prev pv (with_parent pa l)) = Some (r, with_prev pv (with_parent pa l2))) ->
  (forall w1, Rely i w w1 -> same_bags nl w w1 -> At i (L nl hs un ns pr pe tp zs) w1 -> leaf_ok w1 p l -> LStep w1 p l l2) ->
  (forall w', At i (L (<[p := NLeaf l2]> nl) hs un ns pr pe tp zs) w' -> Mono w w' -> same_bags nl w w' -> Q r w') ->
  cwp i (leaf_up p f) w Q.
Proof.
  intros A0 Hp Hns Hlk Hv Hf HS HQ. unfold leaf_up. eapply (cwp_same_at i (L nl hs un ns pr pe tp zs)); [exact A0|intros b; apply frame_leaf_up|].
  eapply (cwp_up_r _ _ _ _ _ _ _ _ _ _ _ _ (NLeaf l2) false r); [done|done|done|by apply leaf_up_rep| |].
  - intros w1 R1 A1. cbn. rewrite Hv. split; [|split; [|done]].
    + apply HS; [done| |done|by apply (at_leaf_ok _ _ _ _ _ A1)]. by apply (same_rely i _ _ _ A0 R1), A1.
    + intros [H|]; [|done]. by destruct Hlk.
  - intros w' A1 M1 _ Hb. by apply HQ.
Qed.

(** ** reading the bag *)
Lemma cwp_bag_ld {A} i σ w p l bg (g : bag -> res A) (r : A) (Q : A -> world -> Prop) : At i σ w -> nl σ !! p = Some (NLeaf l) ->
  bags (wm w) !! l_ksuf l = Some bg -> (room w -> g bg = Ok r) ->
  (forall w', At i σ w' -> Rely i w w' -> same_bags (nl σ) w w' -> Q r w') -> cwp i (bag_ld (l_ksuf l) g) w Q.
Proof.
  intros A0 Hp Hb Hg HQ. apply cwp_step_room. intros w1 R1 I1 Hm1. pose proof (at_rely _ _ _ _ R1 I1 A0) as A1.
  assert (same_bags (nl σ) w w1) as Hsb by (by apply (same_rely i σ)).
  rewrite (Hsb p l Hp), Hb. assert (room w) as Hm.
  { intros (k & v & Hk & Hl). pose proof (bnd_mono w w1 (mo_tag _ _ (rl_mono _ _ _ R1))). assert (bnd w1 + 300 < U32_MAX)%N; [|lia].
    apply Hm1. exists k, v. split; [by apply R1|done]. }
  rewrite (Hg Hm). exists r, (tick w1). split; [done|]. split; [by apply tick_inv|]. split; [by apply tick_guar|].
  assert (Rely i w (tick w1)) as R2 by (eapply rely_trans; [done|apply tick_rely]).
  apply HQ; [apply (at_rely i σ w); [done|by apply tick_inv|done]|done|exact Hsb].
Qed.
Lemma own_bag i σ w p l : At i σ w -> nl σ !! p = Some (NLeaf l) -> l_ksuf l <> 0%N -> exists bg mm,
  bags (wm w) !! l_ksuf l = Some bg /\ bag_inv 24 (bnd w) bg mm /\ wbh w !! l_ksuf l = Some p.
Proof.
  intros A0 Hp Hz. pose proof (at_leaf_ok _ _ _ _ _ A0 Hp) as Hok. pose proof (lo_ksuf _ _ _ Hok Hz) as Hh.
  pose proof (lo_val _ _ _ Hok 24 _ (lptrs_24 _ (proj2 (proj2 (lo_len _ _ _ Hok)))) Hz) as Hv.
  destruct (bag_there w (l_ksuf l) p (at_inv _ _ _ A0)) as [bg Hbg]; [by eexists|done|].
  destruct (iv_bags _ (at_inv _ _ _ A0) _ _ Hbg) as (_ & mm & Hmm). by exists bg, mm.
Qed.
Lemma bsfx_inv bound bg mm s : bag_inv 24 bound bg mm -> s < 24 -> bsfx bg s = mm s.
Proof. intros H Hs. unfold bsfx. by rewrite (bag_get_inv _ _ _ _ s H Hs). Qed.
(** the suffix of a slot *)
Lemma cwp_ksuf i σ w p l s (Q : option bytes -> world -> Prop) : At i σ w -> nl σ !! p = Some (NLeaf l) -> s < 24 ->
  l_klx l !! s = Some KSUF_KEYLENX ->
  (forall w', At i σ w' -> Rely i w w' -> same_bags (nl σ) w w' -> Q (sfx w l s) w') -> cwp i (ksuf p s) w Q.
Proof.
  intros A0 Hp Hs Hk HQ. unfold ksuf. apply cwp_bind. eapply (cwp_rleaf _ σ _ _ _ _ KSUF_KEYLENX); [done|done|intros; exact Hk|]. intros w1 A1 R1.
  rewrite N.eqb_refl. apply cwp_bind. eapply (cwp_rleaf _ σ _ _ _ _ (l_ksuf l)); [done|done|done|]. intros w2 A2 R2.
  assert (Rely i w w2) as R by (by eapply rely_trans). pose proof (same_rely i σ w w2 A0 R (at_inv _ _ _ A2)) as Hsb.
  assert (sfx w2 l s = sfx w l s) as Es by (by eapply sfx_rely; [..|apply A2]).
  destruct (N.eqb_spec (l_ksuf l) 0) as [E|Hz].
  - apply cwp_ret. assert (sfx w l s = None) as E'.
    { unfold sfx. rewrite E. by rewrite (no_bag0 w (at_inv _ _ _ A0)). }
    rewrite <- E'. by apply HQ.
  - destruct (own_bag i σ w2 p l A2 Hp Hz) as (bg & mm & Hbg & Hmm & _).
    eapply (cwp_bag_ld i σ w2 p l bg _ (sfx w l s)); [done|done|done| |].
    + intros _. rewrite <- Es. unfold sfx. rewrite Hbg. unfold bsfx. by rewrite (bag_get_inv _ _ _ _ s Hmm Hs).
    + intros w3 A3 R3 Hsb3. apply HQ; [done|by eapply rely_trans|]. intros q lq Hq. rewrite (Hsb3 q lq Hq). exact (Hsb q lq Hq).
Qed.

(** ** writing into the bag of a locked leaf *)
Lemma leaf_ok_bag w w2 q l : hp w2 = hp w -> wpub w2 = wpub w -> wseq w2 = wseq w -> wvl w2 = wvl w -> wtag w2 = wtag w -> wbh w2 = wbh w ->
  (is_frozen (l_perm l) = false -> forall s, s ∈ actv l -> sfx w2 l s = sfx w l s) -> leaf_ok w q l -> leaf_ok w2 q l.
Proof.
  intros E1 E2 E3 E4 E5 E6 Hs [B1 B2 B3 B4 B5 B6 B7 B8 B9 B10 B11]. split; rewrite ?E3, ?E4, ?E5, ?E6; try done.
  - destruct B4 as [?|[? ?]]; [by left|right]. rewrite E2. split; [done|]. unfold lev. by rewrite E1.
  - intros Hf s Hin. destruct (B11 Hf s Hin) as (k & v & h & D1 & D2 & D3 & D4 & D5). exists k, v, h. rewrite E5. split; [done|]. split; [done|].
    split; [done|]. split; [done|]. intros H8. rewrite Hs by done. by apply D5.
Qed.
Lemma cwp_bag_at {A} i nl hs un ns pr pe tp zs w p l s bg bg2 mm2 (g : bag -> res (A * bag)) (r : A) (Q : A -> world -> Prop) :
  At i (L nl hs un ns pr pe tp zs) w -> nl !! p = Some (NLeaf l) -> bags (wm w) !! l_ksuf l = Some bg -> l_ksuf l <> 0%N ->
  (room w -> g bg = Ok (r, bg2) /\ bag_inv 24 (bnd w) bg2 mm2) -> (is_frozen (l_perm l) = false -> s ∉ actv l) -> (forall s', s' <> s -> s' < 24 -> mm2 s' = bsfx bg s') ->
  (forall w', At i (L nl hs un ns pr pe tp zs) w' -> Mono w w' -> bags (wm w') !! l_ksuf l = Some bg2 -> other_bags p nl w w' -> Q r w') ->
  cwp i (bag_at (l_ksuf l) g) w Q.
Proof.
  intros A0 Hn Hbg Hz Hg Hs Hmm HQ. apply cwp_step_room. intros w1 R1 I1 Hm1. pose proof (at_rely _ _ _ _ R1 I1 A0) as A1. pose proof (rl_mono _ _ _ R1) as M1.
  pose proof (same_rely i _ w w1 A0 R1 I1) as Hsb. pose proof (Hsb p l Hn) as E1. rewrite Hbg in E1.
  pose proof (bnd_mono w w1 (mo_tag _ _ M1)) as Hbm. destruct Hg as [Hg Hi2].
  { intros (k & v & Hk & Hlk). assert (bnd w1 + 300 < U32_MAX)%N; [|lia]. apply Hm1. exists k, v. split; [by apply R1|done]. }
  set (b := l_ksuf l) in *. set (w2 := mk_w (mwith_bags (<[b := bg2]> (bags (wm w1))) (wm w1)) (wown w1) (wpub w1) (wnas w1) (wseq w1)
     (wvl w1) (wtag w1) (wbh w1) (wunt w1) (wcalled w1) (wclk w1 + 1) (wrun w1) (wblk w1)).
  rewrite E1, Hg. destruct (own_bag i _ w1 p l A1 Hn Hz) as (bg' & mm & Eb & Hmm1 & Hh). fold b in Eb, Hh.
  assert (Hlk : forall b', bags (wm w2) !! b' = if decide (b' = b) then Some bg2 else bags (wm w1) !! b').
  { intros b'. cbn. case_decide; subst; [by rewrite lookup_insert|by rewrite lookup_insert_ne]. }
  destruct (at_here _ _ _ _ _ A1 Hn) as (Hown & pv & pa & Hp).
  pose proof (at_leaf_ok _ _ _ _ _ A1 Hn) as Hokl.
  assert (Hkeep : forall s', is_frozen (l_perm l) = false -> s' ∈ actv l -> bsfx bg2 s' = bsfx bg s').
  { intros s' Hf Hin. assert (s' < 24) as H24 by (by apply (actv_lt l s' (lo_perm _ _ _ Hokl Hf))). rewrite (bsfx_inv _ _ _ s' Hi2 H24).
    apply Hmm; [|done]. intros ->. by apply (Hs Hf). }
  assert (Hsx : forall q lq, hp w1 !! q = Some (NLeaf lq) -> is_frozen (l_perm lq) = false -> forall s', s' ∈ actv lq -> sfx w2 lq s' = sfx w1 lq s').
  { intros q lq Hq Hf s' Hin. unfold sfx. rewrite Hlk. case_decide as Hd; [|done]. rewrite Hd, E1.
    pose proof (proj2 (iv_node _ I1 q _ Hq)) as Hokq. rewrite <- Hd in Hh. rewrite (lo_ksuf _ _ _ Hokq) in Hh by congruence. injection Hh as ->.
    rewrite Hp in Hq. cbn in Hq. injection Hq as <-. by apply Hkeep. }
  assert (I2 : Inv w2).
  { split; try (exact (iv_nxt _ I1) || exact (iv_addr _ I1) || exact (iv_own _ I1) || exact (iv_pub _ I1) || exact (iv_lock _ I1) || exact (iv_priv _ I1) || exact (iv_nas _ I1) || exact (iv_root _ I1) || exact (iv_keys _ I1) || exact (iv_bnew _ I1) || exact (iv_same _ I1) || exact (iv_tag _ I1) || exact (iv_fresh _ I1) || exact (iv_called _ I1) || exact (iv_hdl _ I1) || exact (iv_slot _ I1) || exact (iv_ret _ I1) || exact (iv_trk _ I1)).
    - intros q n H. destruct (iv_node _ I1 q n H) as [H1 H2]. split; [done|]. destruct n as [lq|x].
      + apply (leaf_ok_bag w1); try done. intros Hf. by apply (Hsx q).
      + destruct H2 as [C1 C2 C3 C4]. by split.
    - intros q n H Ho. apply (node_good_aux w1); try done. by apply (iv_good _ I1).
    - intros h. etrans; [apply (iv_vals _ I1 h)|]. rewrite Hlk. case_decide as Hd; [|done]. rewrite Hd, E1. split; (intros [?|?]; [by left|right; by eexists]).
    - intros b' bg'' . rewrite Hlk. case_decide as Hd.
      + intros [= <-]. subst b'. split; [by eexists|]. exists mm2. eapply inv_mono; [exact Hi2|exact Hbm].
      + apply (iv_bags _ I1). }
  assert (G2 : Guar i w1 w2).
  { split; try done; [|by left|]. 2:{ cbn. destruct (iv_ret _ I1) as (_ & -> & _). by rewrite Nat.sub_diag. }
    intros j Hj. split; try done.
    - split; try done.
      + cbn. lia.
      + intros b' q H. rewrite Hlk. case_decide as Hd; [|done]. rewrite Hd, E1. by eexists.
      + intros q n n' H H'. unfold hp in *. cbn in H'. congruence.
      + intros q lq H. exists lq. split; [done|]. cbn. split; [lia|]. done.
      + intros b' q bg0 bg0' lq lq' H H1 H2 H3 H4 _ Hsp s' Hin. rewrite Hlk in H2. case_decide as Hd; [|congruence].
        rewrite Hd in *. injection H2 as <-. rewrite E1 in H1. injection H1 as <-. rewrite Hh in H. injection H as <-.
        rewrite Hp in H3. cbn in H3. injection H3 as <-. unfold hp in *. cbn in H4. rewrite Hp in H4. cbn in H4. injection H4 as <-.
        apply Hkeep; [|exact Hin]. by apply (lo_frz _ _ _ Hokl).
    - intros c n n' H H'. unfold hp in *. cbn in H'. congruence.
    - intros c n' H H'. unfold hp in *. cbn in H'. congruence.
    - intros b' q bg0 bg0' H Ho H1 H2. rewrite Hlk in H2. case_decide as Hd; [|congruence]. subst b'. congruence. }
  exists r, w2. split; [done|]. split; [done|]. split; [done|].
  apply HQ; [|eapply mono_trans; [exact M1|by eapply guar_mono]|rewrite Hlk; by rewrite decide_True|].
  - split; cbn [Conc.nl Conc.hs Conc.un Conc.ns Conc.pr Conc.pe Conc.tp Conc.zs]; try (exact I2 || apply A1).
  - intros q lq Hne Hq. rewrite Hlk. rewrite decide_False; [exact (Hsb q lq Hq)|]. intros Hd.
    pose proof (at_leaf_ok _ _ _ _ _ A1 Hq) as Hokq. pose proof (lo_ksuf _ _ _ Hokq) as H'. rewrite Hd in H'. specialize (H' Hz). congruence.
Qed.

(** ** replacing the bag *)
Lemma lstep_fill w p l l2 s : leaf_ok w p l -> (is_frozen (l_perm l) = false -> s ∉ actv l) -> l_ver l2 = l_ver l -> l_perm l2 = l_perm l -> l_val l2 = l_val l ->
  l_ksuf l2 = l_ksuf l -> l_next l2 = l_next l -> length (l_ikey l2) = 24 -> length (l_klx l2) = 24 ->
  (forall s x, l_klx l2 !! s = Some x -> (x <= 8)%N \/ x = KSUF_KEYLENX) ->
  (forall s', s' <> s -> l_ikey l2 !! s' = l_ikey l !! s' /\ l_klx l2 !! s' = l_klx l !! s') -> LStep w p l l2.
Proof.
  intros [B1 B2 B3 B4 B5 B6 B7 B8 B9 B10 B11] Hs E1 E2 E3 E4 E5 E6 E7 E8 E9. unfold spl, actv in *.
  split; unfold spl, actv; rewrite ?E1, ?E2, ?E3, ?E4, ?E5; try done.
  - split; [done|]. split; [done|]. apply B1.
  - intros H s' Hs'. assert (s' <> s) as Hne by (intros ->; by apply (Hs H)). destruct (E9 s' Hne) as [F1 F2].
    eapply (slot_ok_eq w); [..|by apply (B11 H)]; try done. by rewrite E3.
  - intros H. split; [done|]. intros s' Hs'. split; [done|]. apply E9. intros ->. by apply (Hs (B10 H)).
Qed.
Lemma klx_insert (l : list N) s0 y : (y <= 8)%N \/ y = KSUF_KEYLENX -> (forall s x, l !! s = Some x -> (x <= 8)%N \/ x = KSUF_KEYLENX) ->
  forall s x, <[s0 := y]> l !! s = Some x -> (x <= 8)%N \/ x = KSUF_KEYLENX.
Proof. intros Hy H s x Hx. apply list_lookup_insert_Some in Hx as [(_ & <- & _)|[_ Hx]]; [done|by eapply H]. Qed.
Lemma with_ksuf_id l : with_ksuf (l_ksuf l) l = l.
Proof. by destruct l. Qed.
Lemma cwp_set_klx i nl hs un ns pr pe tp zs w p l s x (Q : unit -> world -> Prop) :
  At i (L nl hs un ns pr pe tp zs) w -> nl !! p = Some (NLeaf l) -> p ∉ ns -> (p ∈ pr \/ v_is_locked (l_ver l) = true) -> s < 24 ->
  (is_frozen (l_perm l) = false -> s ∉ actv l) -> (x <= 8)%N \/ x = KSUF_KEYLENX ->
  (forall w', At i (L (<[p := NLeaf (with_klx (<[s := x]> (l_klx l)) l)]> nl) hs un ns pr pe tp zs) w' -> Mono w w' -> same_bags nl w w' -> Q tt w') ->
  cwp i (set_keylenx p s x) w Q.
Proof.
  intros A0 Hp Hns Hlk Hs Hq Hx HQ. destruct (lo_len _ _ _ (at_leaf_ok _ _ _ _ _ A0 Hp)) as (L1 & L2 & L3).
  eapply (cwp_wleaf_r i nl hs un ns pr pe tp zs w p l (with_klx (<[s := x]> (l_klx l)) l)); [done|done|done|done|done| | |exact HQ].
  - intros pv pa. cbn [with_prev with_parent l_klx]. rewrite LinInsert.list_set_at by lia. done.
  - intros w1 _ _ _ Hok. apply (lstep_fill _ _ _ _ s); try done.
    + by cbn; rewrite insert_length.
    + cbn. apply klx_insert; [done|]. apply Hok.
    + intros s' Hne. cbn. by rewrite list_lookup_insert_ne.
Qed.
Definition replaced (l : leaf) (b : N) (s : nat) (x : N) : leaf := with_klx (<[s := x]> (l_klx l)) (with_ksuf b l).
Lemma frame_retire g b : bag_frame (fun m => Ok (tt, mwith_retired (g :: retired m) m)) b.
Proof. intros m r m' [= <- <-] _. done. Qed.
Lemma cwp_new_bag i nl hs un ns pr pe tp zs w p l s x nb mm (R : P unit) (Q : unit -> world -> Prop) :
  At i (L nl hs un ns pr pe tp zs) w -> nl !! p = Some (NLeaf l) -> p ∉ ns -> (p ∈ pr \/ v_is_locked (l_ver l) = true) -> s < 24 ->
  (is_frozen (l_perm l) = false -> s ∉ actv l) -> (x <= 8)%N \/ x = KSUF_KEYLENX ->
  bag_inv 24 (bnd w) nb mm -> (forall s', s' <> s -> s' < 24 -> mm s' = sfx w l s') ->
  (l_ksuf l = 0%N -> R = Ret tt) -> (l_ksuf l <> 0%N -> R = retire (GBag (l_ksuf l))) ->
  (forall w' b, At i (L (<[p := NLeaf (replaced l b s x)]> nl) hs un ns pr pe tp zs) w' -> Mono w w' -> bags (wm w') !! b = Some nb -> other_bags p nl w w' -> Q tt w') ->
  cwp i (np <- alloc_bag nb ;; set_ksuf_ptr p np ;;; R ;;; set_keylenx p s x) w Q.
Proof.
  intros A0 Hp Hns Hlk Hs Hq Hx Hi Hmm HR0 HR1 HQ. apply cwp_bind.
  eapply (cwp_same_at i); [exact A0| |].
  { intros b m r m' [= <- <-] Hlt. cbn. rewrite lookup_insert_ne; [done|lia]. }
  eapply (cwp_alloc_bag i nl hs un ns pr pe tp zs w p nb mm); [done|done|]. intros np w1 A1 M1 Hh1 Hb1 Hnz Hnh Hsb1. cbn [Conc.nl] in Hsb1.
  destruct (lo_len _ _ _ (at_leaf_ok _ _ _ _ _ A1 Hp)) as (L1 & L2 & L3).
  apply cwp_bind. unfold set_ksuf_ptr, leaf_up.
  set (l2 := with_ksuf np l).
  assert (Hsp : set_ptr 24 np l = l2) by done.
  eapply (cwp_same i _ w1 _ (fun b => b = np \/ exists q lq, nl !! q = Some (NLeaf lq) /\ l_ksuf lq = b)); [apply A1|apply A1| |].
  { intros b Hb. split.
    2:{ intros m r m' E _. destruct (heap m !! p) as [[]|]; [by injection E as <- <-|done..]. }
    destruct Hb as [->|(q & lq & Hq' & <-)].
    - eapply (at_steady_held i _ _ p (NLeaf l)); [exact A1| |done|done]. apply elem_of_union_l. by apply elem_of_singleton.
    - by eapply (at_steady _ _ _ q); [exact A1|]. }
  eapply (cwp_swapg i nl ({[np]} ∪ hs) un ns pr pe tp zs w1 p l 24 np (l_ksuf l)); [done|done|by apply lptrs_24| | | | |].
  { right. apply elem_of_union_l. by apply elem_of_singleton. }
  { intros _. cbn. done. }
  { rewrite Hsp. intros m pv pa E. rewrite E. cbn [rep]. done. }
  { rewrite Hsp. intros w2 R2 A2 Hf s' Hin _. pose proof (at_leaf_ok _ _ _ _ _ A2 Hp) as Hok.
    assert (s' < 24) as H24 by (by apply (actv_lt l s' (lo_perm _ _ _ Hok Hf))).
    destruct (lo_tag _ _ _ Hok Hf s' Hin) as (k & v & h & D1 & D2 & D3 & D4 & D5). exists k, v, h.
    split; [done|]. split; [done|]. split; [done|]. split; [done|]. intros H8. rewrite <- (D5 H8).
    assert (bags (wm w2) !! np = Some nb) as Hb2.
    { rewrite (steady_rely i w1 w2); [done|apply A1|apply A2|apply A1|done|].
      eapply (at_steady_held i _ _ p (NLeaf l)); [exact A1| |done|done]. apply elem_of_union_l. by apply elem_of_singleton. }
    rewrite (sfx_rely i _ w1 w2 p l s' A1 Hp R2 (at_inv _ _ _ A2)).
    unfold sfx at 1. cbn [l2 with_ksuf l_ksuf]. rewrite Hb2. rewrite (bsfx_inv _ _ _ s' Hi H24).
    rewrite Hmm; [|intros ->; by apply (Hq Hf)|done]. unfold sfx. by rewrite (Hsb1 p l Hp). }
  rewrite Hsp. intros w2 A2 M2 Hk2.
  assert (Hb2 : bags (wm w2) !! np = Some nb) by (rewrite Hk2; [done|by left]).
  assert (Ho2 : other_bags p nl w w2).
  { intros q lq Hne Hlq. rewrite Hk2 by (right; by exists q, lq). by apply (Hsb1 q lq). }
  assert (Hrest : forall w3, At i (L (<[p := NLeaf l2]> nl) hs un ns pr pe tp zs) w3 -> Mono w2 w3 -> same_bags (<[p := NLeaf l2]> nl) w2 w3 ->
    cwp i (set_keylenx p s x) w3 Q).
  { intros w3 A3 M3 Hsb3. eapply (cwp_set_klx i (<[p := NLeaf l2]> nl) hs un ns pr pe tp zs w3 p l2 s x); [done|apply lookup_insert|done|done|done|done|done|].
    intros w4 A4 M4 Hsb4. rewrite insert_insert in A4. apply (HQ w4 np).
    - exact A4.
    - eapply mono_trans; [exact M1|]. eapply mono_trans; [exact M2|]. by eapply mono_trans.
    - etrans; [exact (Hsb4 p l2 (lookup_insert _ _ _))|]. etrans; [exact (Hsb3 p l2 (lookup_insert _ _ _))|]. exact Hb2.
    - eapply other_trans; [exact Ho2|]. eapply other_trans'; apply same_other; [exact Hsb3|exact Hsb4]. }
  destruct (decide (l_ksuf l = 0%N)) as [Ez|Ez].
  - rewrite (HR0 Ez). apply cwp_bind, cwp_ret. rewrite Ez in A2. assert (hmove np 0 ({[np]} ∪ hs) = hs) as E.
    { unfold hmove. rewrite decide_True by done. set_solver. }
    rewrite E in A2. apply Hrest; [done|apply mono_refl|]. intros q lq _. done.
  - rewrite (HR1 Ez). apply cwp_bind. unfold retire. eapply (cwp_same_at i); [exact A2|intros b; apply frame_retire|].
    destruct (own_bag i _ w1 p l A1 Hp Ez) as (bg0 & mm0 & Hbg0 & _ & Hbh0).
    assert (Hnho : l_ksuf l ∉ hs).
    { intros H. pose proof (lo_val _ _ _ (at_leaf_ok _ _ _ _ _ A0 Hp) 24 _ (lptrs_24 _ L3) Ez) as E. apply (at_hold _ _ _ A0) in H. congruence. }
    eapply (cwp_retire i _ _ _ _ _ _ _ _ w2 (GBag (l_ksuf l))); [exact A2| | |].
    + cbn. unfold hmove. rewrite decide_False by done. apply elem_of_union_r. by apply elem_of_singleton.
    + cbn. exists p. by apply (mo_home _ _ M2).
    + intros w3 A3 M3 Hsb3. cbn [gaddr] in A3. assert (hmove np (l_ksuf l) ({[np]} ∪ hs) ∖ {[l_ksuf l]} = hs) as E.
      { unfold hmove. rewrite decide_False by done. apply set_eq. intros y. clear -Hnho Hnh. rewrite elem_of_difference, elem_of_union, elem_of_difference, elem_of_union, !elem_of_singleton.
        split; [tauto|]. intros Hy. split; [left; split; [by right|]|]; by intros ->. }
      rewrite E in A3. by apply Hrest.
Qed.

Lemma assign_inv bound bg m s suf : bag_inv 24 bound bg m -> s < 24 -> length suf <= 248 -> (bound + 248 < U32_MAX)%N ->
  exists nb, bag_assign bg s suf = Ok nb /\ bag_inv 24 (bound + 248) nb (fun t => if Nat.eqb t s then Some suf else m t).
Proof.
  intros H Hs Hl Hb. assert (bytes_written [BAssign s suf] = N.of_nat (length suf)) as E by (unfold bytes_written; cbn; lia).
  destruct (run1_inv 24 bound bg m (BAssign s suf) H) as (ok & b' & E1 & E2); [cbn; lia|lia|].
  cbn [bag_run1 smap_run1] in *. destruct (bag_assign bg s suf) as [nb|]; [|done]. cbn in E1. injection E1 as <- <-.
  exists nb. split; [done|]. eapply inv_mono; [exact E2|lia].
Qed.
Lemma try_inv bound bg m s suf : bag_inv 24 bound bg m -> s < 24 -> length suf <= 248 -> (bound + 248 < U32_MAX)%N ->
  exists ok nb, bag_try_assign bg s suf = Ok (ok, nb) /\ bag_inv 24 (bound + 248) nb (if ok then fun t => if Nat.eqb t s then Some suf else m t else m) /\ (ok = false -> nb = bg).
Proof.
  intros H Hs Hl Hb. assert (bytes_written [BTry s suf] = N.of_nat (length suf)) as E by (unfold bytes_written; cbn; lia).
  destruct (run1_inv 24 bound bg m (BTry s suf) H) as (ok & b' & E1 & E2); [cbn; lia|lia|].
  cbn [bag_run1 smap_run1] in *. exists ok, b'. split; [done|]. split; [eapply inv_mono; [exact E2|lia]|].
  intros ->. clear -E1. unfold bag_try_assign in E1. repeat case_match; congruence.
Qed.
Lemma clear_inv bound bg m s : bag_inv 24 bound bg m -> s < 24 -> (bound < U32_MAX)%N ->
  exists nb, bag_clear bg s = Ok nb /\ bag_inv 24 bound nb (fun t => if Nat.eqb t s then None else m t).
Proof.
  intros H Hs Hb. assert (bytes_written [BClear s] = 0%N) as E by done.
  destruct (run1_inv 24 bound bg m (BClear s) H) as (ok & b' & E1 & E2); [cbn; lia|lia|].
  cbn [bag_run1 smap_run1] in *. destruct (bag_clear bg s) as [nb|]; [|done]. cbn in E1. injection E1 as <- <-.
  exists nb. split; [done|]. eapply inv_mono; [exact E2|lia].
Qed.
Lemma sfx_bag w l bg s : bags (wm w) !! l_ksuf l = Some bg -> sfx w l s = bsfx bg s.
Proof. intros E. unfold sfx. by rewrite E. Qed.
Lemma U32_big : (6000 < U32_MAX)%N.
Proof. done. Qed.

Lemma longs_mono w w' : Mono w w' -> longs w -> longs w'.
Proof. intros M (k & v & H & Hl). exists k, v. split; [by apply M|done]. Qed.
(** the suffix [suf] is stored for the unused slot [s] *)
Lemma cwp_assign_ksuf i nl hs un ns pr pe tp zs w p l s suf β (Q : unit -> world -> Prop) :
  At i (L nl hs un ns pr pe tp zs) w -> nl !! p = Some (NLeaf l) -> p ∉ ns -> (p ∈ pr \/ v_is_locked (l_ver l) = true) -> s < 24 ->
  (is_frozen (l_perm l) = false -> s ∉ actv l) -> length suf <= 248 -> (β + 248 <= bnd w)%N ->
  (forall bg, bags (wm w) !! l_ksuf l = Some bg -> exists mm, bag_inv 24 β bg mm) ->
  (forall w' b nb mm, At i (L (<[p := NLeaf (replaced l b s KSUF_KEYLENX)]> nl) hs un ns pr pe tp zs) w' -> Mono w w' ->
     bags (wm w') !! b = Some nb -> bag_inv 24 (β + 248) nb mm -> mm s = Some suf -> (forall s', s' <> s -> s' < 24 -> mm s' = sfx w l s') ->
     other_bags p nl w w' -> Q tt w') ->
  longs w -> cwp i (assign_ksuf p s suf) w Q.
Proof.
  intros A0 Hp Hns Hlk Hs Hq Hl Hβ Hold HQ Hlg. unfold assign_ksuf. apply cwp_bind.
  eapply (cwp_rleaf _ _ _ _ _ _ (l_ksuf l)); [exact A0|done|done|]. intros w1 A1 R1. pose proof (rl_mono _ _ _ R1) as M1.
  pose proof (same_rely i _ w w1 A0 R1 (at_inv _ _ _ A1)) as Hsb1. cbn [Conc.nl] in Hsb1.
  pose proof (bnd_mono w w1 (mo_tag _ _ M1)) as Hbm.
  destruct (N.eqb_spec (l_ksuf l) 0) as [Ez|Ez].
  - apply cwp_bind, cwp_ret. pose proof (bag_new_inv 24 256 0) as Hnew.
    assert (bag_inv 24 0 (bag_new WIDTH) (fun _ => None)) as Hnw by apply bag_new_inv.
    destruct (assign_inv 0 _ _ s suf Hnw Hs Hl) as (nb & Enb & Hnb); [pose proof U32_big; lia|]. rewrite Enb. apply cwp_bind, cwp_ret.
    assert (Hnone : forall s', sfx w l s' = None).
    { intros s'. unfold sfx. rewrite Ez. by rewrite (no_bag0 w (at_inv _ _ _ A0)). }
    assert (Hmm : forall s', s' <> s -> s' < 24 -> (fun t => if Nat.eqb t s then Some suf else None) s' = sfx w l s').
    { intros s' Hne _. cbn. rewrite (proj2 (Nat.eqb_neq s' s)) by done. by rewrite Hnone. }
    eapply (cwp_new_bag i nl hs un ns pr pe tp zs w1 p l s KSUF_KEYLENX nb); [done|done|done|done|done|done|by right| | |done|done|].
    + eapply inv_mono; [exact Hnb|lia].
    + intros s' Hne H24. etrans; [exact (Hmm s' Hne H24)|]. unfold sfx. by rewrite (Hsb1 p l Hp).
    + intros w2 b A2 M2 Hb2 Ho2. eapply (HQ w2 b nb); [done|by eapply mono_trans|done|eapply inv_mono; [exact Hnb|lia]| |exact Hmm|].
      * cbn. by rewrite Nat.eqb_refl.
      * eapply other_trans'; [by apply same_other|done].
  - destruct (own_bag i _ w p l A0 Hp Ez) as (bg & mm0 & Hbg & _ & Hh). destruct (Hold bg Hbg) as [mm Hmm].
    assert (Hsx : forall s', s' < 24 -> sfx w l s' = mm s') by (intros s' H'; rewrite (sfx_bag _ _ _ _ Hbg); by apply (bsfx_inv β)).
    destruct (decide (β + 248 < U32_MAX)%N) as [HU|HU].
    2:{ apply cwp_bind. apply cwp_step_room. intros w2 R2 _ Hm. destruct HU. pose proof (bnd_mono w1 w2 (mo_tag _ _ (rl_mono _ _ _ R2))).
        assert (bnd w2 + 300 < U32_MAX)%N; [|lia]. apply Hm. eapply longs_mono; [apply R2|]. by eapply longs_mono. }
    destruct (try_inv β bg mm s suf Hmm Hs Hl HU) as (ok & bg2 & Etry & Hi2 & Hfail).
    assert (Hoth : forall s', s' <> s -> (if ok then fun t => if Nat.eqb t s then Some suf else mm t else mm) s' = mm s').
    { intros s' Hne. destruct ok; [|done]. by rewrite (proj2 (Nat.eqb_neq s' s)). }
    apply cwp_bind. eapply (cwp_bag_at i nl hs un ns pr pe tp zs w1 p l s bg bg2); [done|done|by rewrite (Hsb1 p l Hp)|done| |done| |].
    + intros _. split; [exact Etry|]. eapply inv_mono; [exact Hi2|lia].
    + intros s' Hne H24. rewrite Hoth by done. symmetry. by apply (bsfx_inv β).
    + intros w2 A2 M2 Hb2 Ho2. assert (Mono w w2) as M02 by (by eapply mono_trans).
      assert (other_bags p nl w w2) as Ho02 by (eapply other_trans'; [by apply same_other|done]).
      destruct ok.
      * eapply (cwp_set_klx i nl hs un ns pr pe tp zs w2 p l s); [done|done|done|done|done|done|by right|].
        intros w3 A3 M3 Hsb3. eapply (HQ w3 (l_ksuf l) bg2).
        -- unfold replaced. by rewrite with_ksuf_id.
        -- by eapply mono_trans.
        -- by rewrite (Hsb3 p l Hp).
        -- exact Hi2.
        -- cbn. by rewrite Nat.eqb_refl.
        -- intros s' Hne H24. cbv beta. rewrite (proj2 (Nat.eqb_neq s' s)) by done. by rewrite Hsx.
        -- eapply other_trans'; [exact Ho02|by apply same_other].
      * rewrite (Hfail eq_refl) in *. destruct (assign_inv β (bag_clone bg) mm s suf (clone_inv _ _ _ _ Hmm) Hs Hl HU) as (nb & Enb & Hnb).
        apply cwp_bind. eapply (cwp_bag_ld i _ w2 p l bg _ nb); [exact A2|done|done|by intros _|].
        intros w3 A3 R3 Hsb3. cbn [Conc.nl] in Hsb3. pose proof (bnd_mono w2 w3 (mo_tag _ _ (rl_mono _ _ _ R3))). pose proof (bnd_mono w1 w2 (mo_tag _ _ M2)).
        assert (Hmm' : forall s', s' <> s -> s' < 24 -> (fun t => if Nat.eqb t s then Some suf else mm t) s' = sfx w l s').
        { intros s' Hne H24. cbv beta. rewrite (proj2 (Nat.eqb_neq s' s)) by done. by rewrite Hsx. }
        eapply (cwp_new_bag i nl hs un ns pr pe tp zs w3 p l s KSUF_KEYLENX nb); [done|done|done|done|done|done|by right| | |done|done|].
        -- eapply inv_mono; [exact Hnb|lia].
        -- intros s' Hne H24. etrans; [exact (Hmm' s' Hne H24)|]. rewrite (sfx_bag w l bg) by done. rewrite (sfx_bag w3 l bg); [done|]. by rewrite (Hsb3 p l Hp).
        -- intros w4 b A4 M4 Hb4 Ho4. eapply (HQ w4 b nb); [done| |done|exact Hnb| |exact Hmm'|].
           ++ eapply mono_trans; [exact M02|]. eapply mono_trans; [apply R3|exact M4].
           ++ cbn. by rewrite Nat.eqb_refl.
           ++ eapply other_trans'; [exact Ho02|]. eapply other_trans'; [by apply same_other|exact Ho4].
Qed.
(** the suffix of slot [s] is removed *)
Lemma cwp_clear_ksuf i nl hs un ns pr pe tp zs w p l s (Q : unit -> world -> Prop) :
  At i (L nl hs un ns pr pe tp zs) w -> nl !! p = Some (NLeaf l) -> p ∉ ns -> (p ∈ pr \/ v_is_locked (l_ver l) = true) -> s < 24 ->
  (is_frozen (l_perm l) = false -> s ∉ actv l) ->
  (forall w' b, At i (L (<[p := NLeaf (replaced l b s 0)]> nl) hs un ns pr pe tp zs) w' -> Mono w w' ->
     (forall s', s' <> s -> s' < 24 -> sfx w' (replaced l b s 0) s' = sfx w l s') -> other_bags p nl w w' -> Q tt w') ->
  longs w -> cwp i (clear_ksuf p s) w Q.
Proof.
  intros A0 Hp Hns Hlk Hs Hq HQ Hlg. unfold clear_ksuf. apply cwp_bind.
  eapply (cwp_rleaf _ _ _ _ _ _ (l_ksuf l)); [exact A0|done|done|]. intros w1 A1 R1. pose proof (rl_mono _ _ _ R1) as M1.
  pose proof (same_rely i _ w w1 A0 R1 (at_inv _ _ _ A1)) as Hsb1. cbn [Conc.nl] in Hsb1.
  destruct (N.eqb_spec (l_ksuf l) 0) as [Ez|Ez].
  - eapply (cwp_set_klx i nl hs un ns pr pe tp zs w1 p l s); [done|done|done|done|done|done|left; lia|].
    intros w2 A2 M2 Hsb2. eapply (HQ w2 (l_ksuf l)).
    + unfold replaced. by rewrite with_ksuf_id.
    + by eapply mono_trans.
    + intros s' _ _. unfold sfx. cbn [replaced with_klx with_ksuf l_ksuf]. rewrite (Hsb2 p l Hp). by rewrite (Hsb1 p l Hp).
    + eapply other_trans'; apply same_other; done.
  - destruct (own_bag i _ w1 p l A1 Hp Ez) as (bg & mm & Hbg & Hmm & Hh).
    assert (Hsx : forall s', s' < 24 -> sfx w l s' = mm s').
    { intros s' H'. rewrite <- (bsfx_inv _ _ _ s' Hmm H'). apply sfx_bag. by rewrite <- (Hsb1 p l Hp). }
    destruct (decide (bnd w1 < U32_MAX)%N) as [HU|HU].
    2:{ apply cwp_bind. apply cwp_step_room. intros w2 R2 _ Hm. destruct HU. pose proof (bnd_mono w1 w2 (mo_tag _ _ (rl_mono _ _ _ R2))).
        assert (bnd w2 + 300 < U32_MAX)%N; [|lia]. apply Hm. eapply longs_mono; [apply R2|]. by eapply longs_mono. }
    destruct (clear_inv (bnd w1) (bag_clone bg) mm s (clone_inv _ _ _ _ Hmm) Hs HU) as (nb & Enb & Hnb).
    apply cwp_bind. eapply (cwp_bag_ld i _ w1 p l bg _ nb); [exact A1|done|done|by intros _|].
    intros w3 A3 R3 Hsb3. cbn [Conc.nl] in Hsb3. pose proof (bnd_mono w1 w3 (mo_tag _ _ (rl_mono _ _ _ R3))).
    assert (Hmm' : forall s', s' <> s -> s' < 24 -> (fun t => if Nat.eqb t s then None else mm t) s' = sfx w l s').
    { intros s' Hne H24. cbv beta. rewrite (proj2 (Nat.eqb_neq s' s)) by done. by rewrite Hsx. }
    eapply (cwp_new_bag i nl hs un ns pr pe tp zs w3 p l s 0 nb); [done|done|done|done|done|done|left; lia| | |done|done|].
    + eapply inv_mono; [exact Hnb|lia].
    + intros s' Hne H24. etrans; [exact (Hmm' s' Hne H24)|]. unfold sfx. rewrite (Hsb3 p l Hp). by rewrite (Hsb1 p l Hp).
    + intros w4 b A4 M4 Hb4 Ho4. eapply (HQ w4 b); [done| | |].
      * eapply mono_trans; [exact M1|]. eapply mono_trans; [apply R3|exact M4].
      * intros s' Hne H24. rewrite (sfx_bag w4 (replaced l b s 0) nb) by done. rewrite (bsfx_inv _ _ _ s' Hnb H24). by apply Hmm'.
      * eapply other_trans'; [by apply same_other|]. eapply other_trans'; [by apply same_other|exact Ho4].
Qed.
