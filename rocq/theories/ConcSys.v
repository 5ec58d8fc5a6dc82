(** Concurrent executions on the whole tree: from the calls to the whole system. *)
From Verif Require Import Base Perm PermFacts PermList PermLaws SpecPerm Key SpecKey KeyFacts Prog Version VersionFacts Mem Tree
  SpecTree TreeState TreeRead TreeSplit TreeTop SpecLin SpecConc ConcVar ConcVal Suffix SpecSuffix SuffixFacts Conc ConcRead ConcBag ConcIns ConcSplit.

(** thread [i] holds nothing *)
Record free (i : nat) (w : world) : Prop := {
  fr_own : forall p, wown w !! p <> Some i;
  fr_hold : forall h, wvl w !! h <> Some (VHold i);
  fr_unt : forall p, wunt w !! p <> Some i }.
Lemma free_rely i w w' : Rely i w w' -> free i w -> free i w'.
Proof.
  intros R [A B C]. split.
  - intros p H. apply (A p). by apply R.
  - intros h H. apply (B h). by apply R.
  - intros p H. apply (C p). by apply R.
Qed.
Lemma at_free i w : At i idle w -> free i w.
Proof.
  intros A. split.
  - intros p H. apply (at_own _ _ _ A) in H as [n H]. done.
  - intros h H. by apply (at_hold _ _ _ A) in H.
  - intros p H. by apply (at_unt _ _ _ A) in H.
Qed.
Lemma free_at i w : Inv w -> i ∈ wrun w -> free i w -> At i idle w.
Proof.
  intros I R [A B C]. split; try done; cbn.
  - intros p. split; [intros H; by destruct (A p)|intros [n H]; done].
  - intros h. split; [intros H; by destruct (B h)|intros H; by apply elem_of_empty in H].
  - intros p. split; [intros H; by destruct (C p)|intros H; by apply elem_of_empty in H].
  - intros q. split; [intros [_ H]; by destruct (A q)|intros H; by apply elem_of_empty in H].
Qed.

(** what a call that was made at time [t] may answer *)
Definition ret_ok (o : op) (t : N) (a : ans) (w : world) : Prop :=
  match o, a with
  | Insert k v, AIns None => True
  | Insert k v, AIns (Some ov) => (k, ov) ∈ wcalled w
  | Get k, AGet r | GetRef k, AGet r => forall v, r = Some v -> (wclk w < t + 2 ^ 19)%N -> (k, v) ∈ wcalled w
  | Len, ALen _ => True
  | _, _ => False
  end.
Definition fin (i : nat) (o : op) (t : N) (a : ans) (w : world) : Prop := free i w /\ ret_ok o t a w.
Lemma ret_mono o t a w w' : Mono w w' -> ret_ok o t a w -> ret_ok o t a w'.
Proof.
  intros M. pose proof (mo_clk _ _ M). destruct o, a as [[ov|]| |r| |]; cbn; try done; intros H1.
  - by apply M.
  - intros v E H2. apply M, H1; [done|lia].
  - intros v E H2. apply M, H1; [done|lia].
Qed.
Lemma fin_rely i o t a w w' : Rely i w w' -> fin i o t a w -> fin i o t a w'.
Proof. intros R [A B]. split; [by eapply free_rely|]. eapply ret_mono; [apply R|done]. Qed.
Lemma cwp_rely i (p : P ans) o t w w' : Rely i w w' -> cwp i p w (fin i o t) -> cwp i p w' (fin i o t).
Proof.
  intros HR. destruct p as [a|e|R f k]; cbn.
  - by apply fin_rely.
  - done.
  - intros H w1 HR1 HI1 Hm1. apply (H w1); [by eapply rely_trans|done|done].
Qed.
Lemma cwp_call i o F w : conc_op o -> Inv w -> i ∈ wrun w -> free i w ->
  match o with Insert k v => (k, v) ∈ wcalled w | _ => True end ->
  cwp i (call insert_v F o) w (fin i o (wclk w)).
Proof.
  intros [Hl Hk] HI Hr Hf Hc. destruct o as [k v|k|k| |]; cbn [call].
  - destruct Hl as [Hl Hb]. apply cwp_bind. unfold insert_v. rewrite key_new_ok by done.
    apply cwp_bind. apply (reads_root i w (fun r w' => exists k, vis w' r k)); [intros; by eexists|].
    intros r w1 HR1 HI1 Hv.
    eapply cwp_mono; [apply (cwp_insert_loop i k v F Hb (splits_ok i F)); [|by apply HR1|done]|].
    + eapply at_rely; [done|done|]. by apply free_at.
    + intros [old|] w2 [A1 A2]; [|done]. apply cwp_ret. split; [by apply at_free|]. by destruct old.
  - destruct Hl as [Hl Hb]. apply cwp_bind. apply (reads_get i k F w Hb Hl HI Hr).
    intros r w1 HR1 HI1 Hd. apply cwp_ret. split; [by eapply free_rely|]. exact Hd.
  - destruct Hl as [Hl Hb]. apply cwp_bind. eapply cwp_peq; [apply get_ref_peq|]. apply (reads_get i k F w Hb Hl HI Hr).
    intros r w1 HR1 HI1 Hd. apply cwp_ret. split; [by eapply free_rely|]. exact Hd.
  - apply cwp_bind. apply (reads_load i _ w (fun _ _ => True)); [intros; by eexists|].
    intros r w1 HR1 HI1 _. apply cwp_ret. split; [by eapply free_rely|done].
  - done.
Qed.

(** ** changes by which no node is affected *)
Record same (w w' : world) : Prop := {
  sm_heap : heap (wm w') = heap (wm w); sm_root : root (wm w') = root (wm w); sm_nxt : nxt (wm w') = nxt (wm w);
  sm_bags : forall b bg, bags (wm w') !! b = Some bg -> bags (wm w) !! b = Some bg;
  sm_kept : forall b p s, wvl w !! b = Some (VSlot p s) -> bags (wm w') !! b = bags (wm w) !! b;
  sm_trk : tracked (wm w') = tracked (wm w);
  sm_own : wown w' = wown w; sm_pub : wpub w' = wpub w; sm_nas : wnas w' = wnas w; sm_seq : wseq w' = wseq w;
  sm_tag : wtag w' = wtag w; sm_bh : wbh w' = wbh w; sm_unt : wunt w' = wunt w;
  sm_slot : forall h p s, wvl w' !! h = Some (VSlot p s) <-> wvl w !! h = Some (VSlot p s);
  sm_called : forall x, x ∈ wcalled w -> x ∈ wcalled w';
  sm_clk : (wclk w <= wclk w')%N }.
Lemma same_hp w w' : same w w' -> hp w' = hp w.
Proof. intros S. apply S. Qed.
Lemma same_ptr w w' n x : same w w' -> ptr_ok w n x -> ptr_ok w' n x.
Proof. intros S. unfold ptr_ok, lev, hp. by rewrite (sm_heap _ _ S), (sm_pub _ _ S). Qed.
Lemma same_node w w' p n : same w w' -> Inv w -> node_ok w p n -> node_ok w' p n.
Proof.
  intros S I [H1 H2]. split; [by eapply same_ptr|]. destruct n as [l|x].
  - destruct H2 as [B1 B2 B3 B4 B5 B6 B7 B8 B9 B10 B11]. split; try done.
    + by rewrite (sm_bh _ _ S).
    + by eapply same_ptr.
    + by rewrite (sm_seq _ _ S).
    + intros s h A B. rewrite (sm_slot _ _ S). by apply B8.
    + by rewrite (sm_tag _ _ S).
    + intros Hf s Hs. destruct (B11 Hf s Hs) as (k & v & h & K1 & K2 & K3 & K4 & K5). exists k, v, h. rewrite (sm_tag _ _ S).
      repeat (split; [done|]). intros H8. rewrite <- (K5 H8). unfold sfx. destruct (N.eq_dec (l_ksuf l) 0) as [E|E].
      * rewrite E, (no_bag0 _ I). destruct (bags (wm w') !! 0%N) as [bg|] eqn:E0; [|done]. apply (sm_bags _ _ S) in E0. by rewrite (no_bag0 _ I) in E0.
      * rewrite (sm_kept _ _ S _ p 24); [done|]. apply B8; [|done]. apply lptrs_24, B1.
  - destruct H2; split; try done. intros c Hc. eapply same_ptr; [done|]. by apply io_child.
Qed.
Lemma same_good w w' p n : same w w' -> node_good w p n -> node_good w' p n.
Proof.
  intros S. unfold node_good, inode_good, pareq. by rewrite (sm_root _ _ S), (same_hp _ _ S).
Qed.
Lemma same_inv w w' : same w w' -> Inv w ->
  (forall h, is_Some (wvl w' !! h) <-> is_Some (vals (wm w') !! h) \/ is_Some (bags (wm w') !! h)) ->
  (forall h v, vals (wm w') !! h = Some v -> vals (wm w) !! h = Some v) ->
  (forall k v, (k, v) ∈ wcalled w' -> length k <= 256 /\ is_bytes k) ->
  (forall k v k' v', (k, v) ∈ wcalled w' -> (k', v') ∈ wcalled w' -> kik k = kik k' -> kklx k = kklx k' -> k = k') ->
  (NoDup (gaddr <$> retired (wm w')) /\ length (wblk w') = length (retired (wm w')) /\
    (forall g, g ∈ retired (wm w') -> gkind w' g) /\
    forall h B, wvl w' !! h = Some (VRet B) <-> exists j, (gaddr <$> retired (wm w')) !! j = Some h /\ wblk w' !! j = Some B) ->
  Inv w'.
Proof.
  intros S I Hvl Hv Hk Hsm Hr. pose proof (same_hp _ _ S) as Eh. split; rewrite ?Eh.
  - rewrite (sm_nxt _ _ S). apply I.
  - rewrite (sm_nxt _ _ S). apply I.
  - intros p n H. eapply same_node; [done|done|]. by apply I.
  - intros p n H. rewrite (sm_own _ _ S). intros Ho. eapply same_good; [done|]. by apply I.
  - rewrite (sm_own _ _ S). apply I.
  - rewrite (sm_pub _ _ S). apply I.
  - rewrite (sm_pub _ _ S), (sm_nas _ _ S), (sm_own _ _ S). apply I.
  - rewrite (sm_pub _ _ S), (sm_own _ _ S). apply I.
  - rewrite (sm_nas _ _ S), (sm_own _ _ S). apply I.
  - rewrite (sm_root _ _ S), (sm_pub _ _ S). apply I.
  - done.
  - intros h x H. assert (is_Some (wvl w !! h)) as [y Hy].
    { apply (iv_vals _ I). destruct (proj1 (Hvl h)) as [[v Hx]|[bg Hx]]; [by eexists|left|right]; [apply Hv in Hx|apply (sm_bags _ _ S) in Hx]; by eexists. }
    by eapply (iv_hdl _ I).
  - intros h v H. rewrite (sm_tag _ _ S). apply (iv_tag _ I). by apply Hv.
  - rewrite (sm_tag _ _ S), (sm_nxt _ _ S). apply I.
  - intros h x. rewrite (sm_tag _ _ S). intros H. apply (sm_called _ _ S). by eapply (iv_called _ I).
  - done.
  - done.
  - intros h p s. rewrite (sm_slot _ _ S). apply I.
  - done.
  - intros b bg H. rewrite (sm_bh _ _ S). unfold bnd. rewrite (sm_tag _ _ S). apply (iv_bags _ I). by apply (sm_bags _ _ S).
  - rewrite (sm_bh _ _ S), (sm_nxt _ _ S), (sm_tag _ _ S). apply I.
  - rewrite (sm_trk _ _ S), (sm_unt _ _ S). apply I.
Qed.
Lemma same_mono w w' : same w w' -> Mono w w'.
Proof.
  intros S. pose proof (same_hp _ _ S) as Eh. split.
  - intros p n. unfold lev. by rewrite Eh.
  - intros p. by rewrite (sm_pub _ _ S).
  - intros p. by rewrite (sm_nas _ _ S).
  - intros h x. by rewrite (sm_tag _ _ S).
  - apply S.
  - apply S.
  - intros b p. by rewrite (sm_bh _ _ S).
  - intros b p _ [bg H]. exists bg. by apply (sm_bags _ _ S).
  - intros p n n' H H'. rewrite Eh in H'. congruence.
  - intros p l H. exists l. rewrite Eh, (sm_seq _ _ S). split; [done|]. split; [lia|]. done.
  - intros b p bg bg' l l' _ H1 H2 _ _ _ _ s _. apply (sm_bags _ _ S) in H2. congruence.
Qed.
Lemma same_rely i w w' : same w w' -> (i ∈ wrun w -> i ∈ wrun w') ->
  (forall h, wvl w !! h = Some (VHold i) <-> wvl w' !! h = Some (VHold i)) ->
  (i ∈ wrun w -> forall h, guarded i w h -> guarded i w' h) -> Rely i w w'.
Proof.
  intros S Hr Hh Hg. pose proof (same_hp _ _ S) as Eh. split; try done.
  - by apply same_mono.
  - intros p. by rewrite (sm_own _ _ S).
  - intros p _. by rewrite Eh.
  - intros c n n' H H'. rewrite Eh in H'. congruence.
  - intros c n' H H'. rewrite Eh in H'. congruence.
  - intros H. by rewrite (sm_root _ _ S) in H.
  - intros q _. by rewrite (sm_nas _ _ S).
  - intros q _. by rewrite (sm_pub _ _ S).
  - intros p. by rewrite (sm_unt _ _ S).
  - intros b p bg bg' _ _ H1 H2. apply (sm_bags _ _ S) in H2. congruence.
Qed.

(** a call begins *)
Definition w_call (o : op) (W : list nat) (w : world) : world :=
  mk_w (wm w) (wown w) (wpub w) (wnas w) (wseq w) (wvl w) (wtag w) (wbh w) (wunt w)
    (match o with Insert k v => (k, v) :: wcalled w | _ => wcalled w end) (wclk w + 1) W (wblk w).
Lemma call_same o W w : same w (w_call o W w).
Proof.
  split; try done.
  - cbn. intros x Hx. destruct o; try done. by right.
  - cbn. lia.
Qed.
Lemma call_inv o W w : conc_op o -> Inv w ->
  (forall k v k' v', o = Insert k v -> (k', v') ∈ wcalled w -> kik k = kik k' -> kklx k = kklx k' -> k = k') -> Inv (w_call o W w).
Proof.
  intros Ho I Hsm. eapply same_inv; [apply call_same|done|apply I|done| | |apply I].
  - intros k v. destruct Ho as [Ho1 Ho2]. destruct o; try apply I. cbn [w_call wcalled]. rewrite elem_of_cons.
    intros [[= -> ->]|H]; [|by eapply I]. done.
  - intros k v k' v'. destruct o as [k0 v0| | | |]; try apply I. cbn [w_call wcalled]. rewrite !elem_of_cons.
    intros [[= -> ->]|H] [[= -> ->]|H']; [done|by eapply Hsm| |by eapply I]. intros E1 E2. symmetry. by eapply Hsm.
Qed.

(** a call ends *)
Definition unblock (i : nat) (x : vplace) : vplace := match x with VRet B => VRet (without i B) | _ => x end.
Definition w_ret (i : nat) (W : list nat) (w : world) : world :=
  mk_w (wm w) (wown w) (wpub w) (wnas w) (wseq w) (unblock i <$> wvl w) (wtag w) (wbh w) (wunt w)
    (wcalled w) (wclk w + 1) W (map (without i) (wblk w)).
Lemma ret_same i W w : same w (w_ret i W w).
Proof.
  split; try done; cbn; [|lia]. intros h p s. rewrite lookup_fmap. destruct (wvl w !! h) as [[]|]; cbn; split; congruence.
Qed.
Lemma without_ne i j l : j <> i -> j ∈ l -> j ∈ without i l.
Proof.
  intros Hne H. unfold without. rewrite elem_of_list_In. apply filter_In. rewrite <- elem_of_list_In. split; [done|].
  by apply negb_true_iff, Nat.eqb_neq.
Qed.
Lemma without_sub i j l : j ∈ without i l -> j ∈ l /\ j <> i.
Proof.
  unfold without. rewrite elem_of_list_In, filter_In, <- elem_of_list_In. intros [H E]. split; [done|].
  by apply negb_true_iff, Nat.eqb_neq in E.
Qed.
Lemma ret_inv i W w : Inv w -> Inv (w_ret i W w).
Proof.
  intros I. eapply same_inv; [apply ret_same|done| |done|apply I|apply I|].
  - intros h. cbn. rewrite lookup_fmap. rewrite <- (iv_vals _ I). by rewrite fmap_is_Some.
  - destruct (iv_ret _ I) as (R1 & R2 & R3 & R4). split; [done|]. cbn. rewrite fmap_length. split; [done|]. split; [done|].
    intros h B. rewrite lookup_fmap. split.
    + destruct (wvl w !! h) as [[p s|k|B']|] eqn:E; cbn; intros [= <-]. apply R4 in E as (j & E1 & E2).
      exists j. split; [done|]. by rewrite list_lookup_fmap, E2.
    + intros (j & E1 & E2). rewrite list_lookup_fmap in E2. destruct (wblk w !! j) as [B'|] eqn:E3; [|done]. cbn in E2. injection E2 as <-.
      assert (wvl w !! h = Some (VRet B')) as -> by (apply R4; by exists j). done.
Qed.
Lemma ret_rely i j W w : j <> i -> (j ∈ wrun w -> j ∈ W) -> Rely j w (w_ret i W w).
Proof.
  intros Hne HW. apply same_rely; [apply ret_same|done|..].
  - intros h. cbn. rewrite lookup_fmap. destruct (wvl w !! h) as [[]|]; cbn; split; congruence.
  - intros _ h. unfold guarded. cbn. rewrite lookup_fmap. destruct (wvl w !! h) as [[| |B]|]; cbn; try done. by apply without_ne.
Qed.

(** the collector frees a value or bag *)
Definition w_col (m' : mem) (j : nat) (h : N) (w : world) : world :=
  mk_w m' (wown w) (wpub w) (wnas w) (wseq w) (delete h (wvl w)) (wtag w) (wbh w) (wunt w)
    (wcalled w) (wclk w + 1) (wrun w) (delete j (wblk w)).
Lemma delete_both {A B} (xs : list A) (ys : list B) j x y :
  (exists n, delete j xs !! n = Some x /\ delete j ys !! n = Some y) <-> exists n, n <> j /\ xs !! n = Some x /\ ys !! n = Some y.
Proof.
  split.
  - intros (n & H1 & H2). destruct (decide (n < j)).
    + rewrite lookup_delete_lt in H1 by done. rewrite lookup_delete_lt in H2 by done. exists n. split; [lia|done].
    + rewrite lookup_delete_ge in H1 by lia. rewrite lookup_delete_ge in H2 by lia. exists (S n). split; [lia|done].
  - intros (n & Hn & H1 & H2). destruct (decide (n < j)).
    + exists n. rewrite lookup_delete_lt by done. by rewrite lookup_delete_lt.
    + exists (pred n). rewrite lookup_delete_ge by lia. rewrite lookup_delete_ge by lia. by replace (S (pred n)) with n by lia.
Qed.
Lemma delete_elem {A} (l : list A) j x : x ∈ delete j l -> x ∈ l.
Proof.
  rewrite delete_take_drop, elem_of_app. rewrite <- (take_drop j l) at 3. rewrite elem_of_app. intros [H|H]; [by left|right].
  rewrite <- drop_drop, Nat.add_comm in H || rewrite <- Nat.add_1_r in H. 
  apply elem_of_list_lookup_1 in H as [n H]. rewrite lookup_drop in H. apply elem_of_list_lookup. exists (S n). rewrite lookup_drop.
  replace (j + S n) with (j + 1 + n) by lia. done.
Qed.
Lemma delete_nodup {A} (l : list A) j : NoDup l -> NoDup (delete j l).
Proof.
  intros H. apply NoDup_alt. intros a b x Ha Hb.
  assert (forall n, delete j l !! n = Some x -> l !! (if decide (n < j) then n else S n) = Some x) as E.
  { intros n Hn. case_decide; [by rewrite lookup_delete_lt in Hn|by rewrite lookup_delete_ge in Hn by lia]. }
  pose proof (NoDup_lookup _ _ _ _ H (E a Ha) (E b Hb)). repeat case_decide; lia.
Qed.
Lemma kinds_apart w h b : Inv w -> is_Some (wtag w !! h) -> is_Some (wbh w !! b) -> h <> b.
Proof. intros I [x Hx] [p Hp] ->. apply (iv_bnew _ I) in Hp as [_ Hp]. congruence. Qed.
Lemma bag_or_val w h : Inv w -> is_Some (vals (wm w) !! h) -> bags (wm w) !! h = None.
Proof.
  intros I [v Hv]. destruct (bags (wm w) !! h) as [bg|] eqn:E; [|done]. apply (iv_bags _ I) in E as [E _]. apply (iv_tag _ I) in Hv as [k Hk].
  destruct (kinds_apart w h h I); [by eexists|done|done].
Qed.
Lemma fmap_delete {A B} (f : A -> B) (l : list A) j : f <$> delete j l = delete j (f <$> l).
Proof. revert j. induction l as [|x l IH]; intros [|j]; cbn; try done. f_equal. apply IH. Qed.
Lemma col_ok w j g : Inv w -> retired (wm w) !! j = Some g -> wblk w !! j = Some [] ->
  exists m', reclaim1 g (mwith_retired (delete j (retired (wm w))) (wm w)) = Ok m' /\
    Inv (w_col m' j (gaddr g) w) /\ forall i, Rely i w (w_col m' j (gaddr g) w).
Proof.
  intros I Hj Hb. destruct (iv_ret _ I) as (R1 & R2 & R3 & R4). set (h := gaddr g).
  assert ((gaddr <$> retired (wm w)) !! j = Some h) as Hj' by (by rewrite list_lookup_fmap, Hj).
  assert (wvl w !! h = Some (VRet [])) as Eh by (apply R4; by exists j).
  assert (is_Some (vals (wm w) !! h) \/ is_Some (bags (wm w) !! h)) as Hvb by (apply (iv_vals _ I); by eexists).
  assert (gkind w g) as Hgk by (apply R3; by eapply elem_of_list_lookup_2).
  assert (exists m', reclaim1 g (mwith_retired (delete j (retired (wm w))) (wm w)) = Ok m' /\
    heap m' = heap (wm w) /\ root m' = root (wm w) /\ nxt m' = nxt (wm w) /\ tracked m' = tracked (wm w) /\ retired m' = delete j (retired (wm w)) /\
    (forall h' v, vals m' !! h' = Some v -> vals (wm w) !! h' = Some v) /\ (forall b bg, bags m' !! b = Some bg -> bags (wm w) !! b = Some bg) /\
    vals m' !! h = None /\ bags m' !! h = None /\ (forall h', h' <> h -> vals m' !! h' = vals (wm w) !! h' /\ bags m' !! h' = bags (wm w) !! h'))
    as (m' & Em & C1 & C2 & C3 & C4 & C5 & C6 & C7 & C8 & C9 & C10).
  { destruct g as [h0|b]; cbn [gaddr gkind reclaim1 vals bags mwith_retired] in *; subst h.
    - destruct Hvb as [[v Hv]|[bg Hbg]].
      2:{ apply (iv_bags _ I) in Hbg as [Hbg _]. by destruct (kinds_apart w h0 h0 I). }
      rewrite Hv. eexists. split; [done|]. cbn. repeat (split; [done|]).
      split; [by intros h' v' [_ ?]%lookup_delete_Some|]. split; [done|]. split; [apply lookup_delete|].
      split; [apply (bag_or_val _ _ I); by eexists|]. intros h' Hne. by rewrite lookup_delete_ne.
    - destruct Hvb as [[v Hv]|[bg Hbg]].
      { apply (iv_tag _ I) in Hv as [k Hk]. destruct (kinds_apart w b b I); [by eexists|done|done]. }
      rewrite Hbg. eexists. split; [done|]. cbn. repeat (split; [done|]).
      split; [by intros h' v' [_ ?]%lookup_delete_Some|]. split.
      { destruct (vals (wm w) !! b) as [v|] eqn:Ev; [|done]. assert (bags (wm w) !! b = None) by (apply (bag_or_val _ _ I); by eexists). congruence. }
      split; [apply lookup_delete|]. intros h' Hne. by rewrite lookup_delete_ne. }
  exists m'. split; [done|]. set (w' := w_col m' j h w). assert (same w w') as S.
  { split; try done; cbn; [| |lia].
    - intros b p s Hs. apply C10. intros ->. congruence.
    - intros h' p s. destruct (decide (h' = h)) as [->|Hne].
      + rewrite lookup_delete, Eh. done.
      + by rewrite lookup_delete_ne. }
  split.
  - eapply same_inv; [done|done| |exact C6|apply I|apply I|].
    + intros h'. subst w'. cbn. destruct (decide (h' = h)) as [->|Hne]; [rewrite lookup_delete, C8, C9; split; [by intros []|by intros [[]|[]]]|].
      rewrite lookup_delete_ne by done. destruct (C10 h' Hne) as [-> ->]. apply I.
    + cbn. rewrite C5, fmap_delete. split; [by apply delete_nodup|].
      assert (j < length (retired (wm w))) as Hlt by (by eapply lookup_lt_Some).
      split; [rewrite !length_delete by (apply lookup_lt_is_Some_2; lia); lia|].
      split; [intros g' Hg; apply (R3 g'); by eapply delete_elem|].
      intros h' B. rewrite delete_both. destruct (decide (h' = h)) as [->|Hne].
      * rewrite lookup_delete. split; [done|]. intros (n & Hn & H1 & _). destruct Hn. by eapply (NoDup_lookup (gaddr <$> retired (wm w))).
      * rewrite lookup_delete_ne by done. rewrite R4. split.
        -- intros (n & H1 & H2). exists n. split; [|done]. intros ->. congruence.
        -- intros (n & _ & H). by exists n.
  - intros i. apply same_rely; [done|done|..].
    + intros h'. cbn. destruct (decide (h' = h)) as [->|Hne]; [rewrite lookup_delete, Eh; done|]. by rewrite lookup_delete_ne.
    + intros _ h'. unfold guarded. cbn. destruct (decide (h' = h)) as [->|Hne]; [rewrite Eh; by intros ?%elem_of_nil|]. by rewrite lookup_delete_ne.
Qed.

(** ** the threads inside a call *)
Lemma elem_holders thr j : j ∈ holders thr <-> exists p ops, thr !! j = Some (TRun p, ops).
Proof.
  unfold holders. rewrite elem_of_list_In, filter_In, in_seq. split.
  - intros [_ H]. destruct (thr !! j) as [[[|p] ops]|]; try done. by exists p, ops.
  - intros (p & ops & H). rewrite H. split; [|done]. apply lookup_lt_Some in H. lia.
Qed.
Lemma holders_same thr i p ops q ops' : thr !! i = Some (TRun p, ops) -> holders (<[i := (TRun q, ops')]> thr) = holders thr.
Proof.
  intros H. unfold holders. rewrite insert_length. apply filter_ext. intros j. destruct (decide (j = i)) as [->|Hne].
  - rewrite list_lookup_insert by (by eapply lookup_lt_Some). by rewrite H.
  - by rewrite list_lookup_insert_ne.
Qed.
Lemma holders_other thr i x j : j <> i -> j ∈ holders (<[i := x]> thr) <-> j ∈ holders thr.
Proof. intros H. rewrite !elem_holders. by rewrite list_lookup_insert_ne. Qed.

(** ** histories *)
Definition ans_ok (o : op) (t t' : N) (a : ans) (h : list (N * event)) : Prop :=
  match o, a with
  | Insert k v, AIns None => True
  | Insert k v, AIns (Some ov) => asked k ov h
  | Get k, AGet r | GetRef k, AGet r => forall v, r = Some v -> (t' < t + 2 ^ 19)%N -> asked k v h
  | Len, ALen _ => True
  | _, _ => False
  end.
Definition hist_ok (h : list (N * event)) : Prop := forall h1 t i a h2, h = h1 ++ (t, ERet i a) :: h2 ->
  exists t1 o, last_at i h1 = Some (t1, ECall i o) /\ ans_ok o t1 t a h1.
Lemma snoc_mid {A} (h h1 h2 : list A) x e : h ++ [e] = h1 ++ x :: h2 -> (h1 = h /\ x = e) \/ exists h2', h = h1 ++ x :: h2'.
Proof.
  destruct h2 as [|y h2 _] using rev_ind; intros E.
  - apply app_inj_tail in E as [-> ->]. by left.
  - right. rewrite app_comm_cons, app_assoc in E. apply app_inj_tail in E as [-> _]. by exists h2.
Qed.
Lemma last_at_snoc i h e : last_at i (h ++ [e]) = if decide (event_of e.2 = i) then Some e else last_at i h.
Proof.
  unfold last_at. rewrite filter_app, filter_cons. case_decide; [by rewrite filter_nil, last_snoc|]. by rewrite filter_nil, app_nil_r.
Qed.
Lemma hist_call h t i o : hist_ok h -> hist_ok (h ++ [(t, ECall i o)]).
Proof. intros H h1 t' j a h2 E. apply snoc_mid in E as [[_ E]|[h2' E]]; [done|]. by eapply H. Qed.
Lemma hist_ret h t i a t1 o : hist_ok h -> last_at i h = Some (t1, ECall i o) -> ans_ok o t1 t a h -> hist_ok (h ++ [(t, ERet i a)]).
Proof.
  intros H Hl Ha h1 t' j a' h2 E. apply snoc_mid in E as [[-> E]|[h2' E]]; [|by eapply H].
  injection E as -> -> ->. by exists t1, o.
Qed.
Lemma asked_app k v h h' : asked k v h -> asked k v (h ++ h').
Proof. intros (t & i & H). exists t, i. apply elem_of_app. by left. Qed.

(** ** how many values there may be *)
Lemma inserts_app l l' : inserts (l ++ l') = inserts l ++ inserts l'.
Proof. apply omap_app. Qed.
Lemma inserts_elem ops k v : (k, v) ∈ inserts ops <-> Insert k v ∈ ops.
Proof.
  unfold inserts. rewrite elem_of_list_omap. split.
  - intros (o & Ho & E). destruct o; try done. by injection E as -> ->.
  - intros H. by exists (Insert k v).
Qed.
Definition todo (thr : list (tstate * list op)) : nat := length (inserts (concat (map snd thr))).
Lemma todo_set thr i t ops t' ops' : thr !! i = Some (t, ops) ->
  todo (<[i := (t', ops')]> thr) + length (inserts ops) = todo thr + length (inserts ops').
Proof.
  unfold todo. revert i. induction thr as [|[t0 o0] thr IH]; intros [|i] H; try done; cbn; rewrite !inserts_app, !app_length.
  - injection H as -> ->. lia.
  - rewrite <- !Nat.add_assoc. f_equal. exact (IH i H).
Qed.
Definition sumf (f : nat -> nat) (n : nat) : nat := sum_list_with f (seq 0 n).
Lemma sumf_set f g n i : i < n -> (forall j, j <> i -> g j = f j) -> sumf g n + f i = sumf f n + g i.
Proof.
  unfold sumf. intros Hi Hg. assert (forall a m, (i < a \/ a + m <= i -> sum_list_with g (seq a m) = sum_list_with f (seq a m)) /\
    (a <= i < a + m -> sum_list_with g (seq a m) + f i = sum_list_with f (seq a m) + g i)) as H; [|apply (H 0 n); lia].
  intros a m. revert a. induction m as [|m IH]; intros a; cbn; [split; [done|lia]|]. destruct (IH (S a)) as [H1 H2]. split.
  - intros H. rewrite H1 by lia. rewrite Hg by lia. done.
  - intros H. destruct (decide (a = i)) as [->|Hne].
    + rewrite H1 by lia. lia.
    + rewrite Hg by done. assert (S a <= i < S a + m) as H' by lia. specialize (H2 H'). lia.
Qed.
(** each thread may bring the values its calls still have to insert, and one more in an
    insertion that has not brought its value *)
Definition budget (f : nat -> nat) (thr : list (tstate * list op)) : Prop :=
  forall i p ops, thr !! i = Some (TRun p, ops) -> exists v d, go v d p told /\ (mine d = false -> v <> None -> 1 <= f i).
Lemma tags_quiet i w w' : Guar i w w' -> vals (wm w') = vals (wm w) -> size (wtag w') <= size (wtag w).
Proof.
  intros G E. rewrite <- !size_dom. apply subseteq_size. intros h. rewrite !elem_of_dom. intros H.
  destruct (gu_tag _ _ _ G h H) as [?|[H1 H2]]; [done|]. rewrite E, H1 in H2. by destruct H2.
Qed.
Lemma tags_brings i w w' h x : Guar i w w' -> vals (wm w') = <[h := x]> (vals (wm w)) -> size (wtag w') <= S (size (wtag w)).
Proof.
  intros G E. rewrite <- !size_dom. etrans; [apply (subseteq_size _ ({[h]} ∪ dom (wtag w)))|].
  - intros h'. rewrite elem_of_union, elem_of_singleton, !elem_of_dom. intros H.
    destruct (gu_tag _ _ _ G h' H) as [?|[H1 H2]]; [by right|]. left. rewrite E in H2. destruct (decide (h' = h)) as [|Hne]; [done|].
    rewrite lookup_insert_ne in H2 by done. rewrite H1 in H2. by destruct H2.
  - rewrite size_union_alt, size_singleton. pose proof (subseteq_size (dom (wtag w) ∖ {[h]}) (dom (wtag w)) ltac:(set_solver)). lia.
Qed.

(** ** the invariant of the system *)
Lemma long_take (a b : bytes) : is_bytes a -> is_bytes b -> 8 < length a -> 8 < length b -> kik a = kik b -> take 8 a = take 8 b.
Proof.
  intros Ha Hb H1 H2 Hk. pose proof (ikey_len_inj a b 0 0 Ha Hb ltac:(lia) ltac:(lia) Hk) as Ht. rewrite !current_len_pos in Ht. cbn [Nat.mul] in Ht.
  change (drop 0 a) with a in Ht. change (drop 0 b) with b in Ht. apply Ht. lia.
Qed.
Section Sys.
Context (scripts : list (list op)) (Hcalls : conc_calls scripts).
Definition thread_ok (h : list (N * event)) (w : world) (i : nat) (t : tstate) (ops : list op) : Prop :=
  (forall o, o ∈ ops -> o ∈ concat scripts) /\
  match t with
  | TIdle => free i w
  | TRun p => exists t1 o, last_at i h = Some (t1, ECall i o) /\ cwp i p w (fin i o t1)
  end.
Record SInv (c : csys) (h : list (N * event)) (w : world) : Prop := {
  si_mem : wm w = c_mem c; si_inv : Inv w; si_fault : c_fault c = false; si_clk : wclk w = c_time c;
  si_run : wrun w = holders (c_thr c); si_blk : wblk w = c_blk c;
  si_thr : forall i t ops, c_thr c !! i = Some (t, ops) -> thread_ok h w i t ops;
  si_dom : forall i, length (c_thr c) <= i -> free i w;
  si_called : forall k v, (k, v) ∈ wcalled w -> asked k v h;
  si_ins : forall k v, (k, v) ∈ wcalled w -> (k, v) ∈ inserts (concat scripts);
  si_cnt : exists f, budget f (c_thr c) /\ size (wtag w) + todo (c_thr c) + sumf f (length (c_thr c)) <= length (inserts (concat scripts));
  si_hist : hist_ok h;
  si_grd : forall B j, B ∈ wblk w -> j ∈ B -> j ∈ wrun w }.

Lemma sinv_room c h w : SInv c h w -> room w.
Proof.
  intros S (k & v & Hk & Hl). destruct (si_cnt _ _ _ S) as (f & _ & Hc). destruct Hcalls as (_ & _ & Hfit).
  assert (N.of_nat (length (inserts (concat scripts))) < 16000000)%N as H by (apply Hfit; exists k, v; split; [by apply (si_ins _ _ _ S)|done]).
  unfold bnd. pose proof U32_big. unfold U32_MAX. lia.
Qed.
Lemma calls_op o : o ∈ concat scripts -> conc_op o.
Proof. destruct Hcalls as [H _]. rewrite elem_of_list_In, in_concat. intros (ops & H1 & H2). apply elem_of_list_In in H1, H2.
  rewrite Forall_forall in H. specialize (H ops H1). rewrite Forall_forall in H. by apply H. Qed.
Lemma calls_same k v k' v' : (k, v) ∈ inserts (concat scripts) -> (k', v') ∈ inserts (concat scripts) -> kik k = kik k' -> kklx k = kklx k' -> k = k'.
Proof.
  intros H H' E1 E2. destruct (calls_op (Insert k v)) as [[Hk Hb] _]; [by apply inserts_elem|]. destruct (calls_op (Insert k' v')) as [[Hk' Hb'] _]; [by apply inserts_elem|].
  destruct (decide (8 < length k)) as [H8|H8]; [|apply key_same2; try done; lia].
  assert (8 < length k') as H8' by (unfold kklx, KSUF_KEYLENX in E2; destruct (Nat.leb_spec (length k) 8), (Nat.leb_spec (length k') 8); lia).
  destruct Hcalls as (_ & Hone & _). eapply Hone; try done. by apply long_take.
Qed.
Lemma thread_rely h h' w w' i t ops : Rely i w w' -> last_at i h' = last_at i h -> thread_ok h w i t ops -> thread_ok h' w' i t ops.
Proof.
  intros HR El [A B]. split; [done|]. destruct t as [|p].
  - by eapply free_rely.
  - destruct B as (t1 & o & B1 & B2). exists t1, o. rewrite El. split; [done|]. by eapply cwp_rely.
Qed.
Lemma fin_earlier i o t t' a w : (t' <= t)%N -> fin i o t a w -> fin i o t' a w.
Proof.
  intros Hle [A B]. split; [done|]. destruct o, a as [[ov|]| |r| |]; cbn in *; try done; intros v E H; apply B; try done; lia.
Qed.
(** thread [i] went from one state to another, the rest is as others may change it *)
Lemma sinv_step c h w i t ops t' ops' w' blk' h' :
  SInv c h w -> c_thr c !! i = Some (t, ops) -> Inv w' -> (forall j, j <> i -> Rely j w w') ->
  wclk w' = (wclk w + 1)%N -> wrun w' = holders (<[i := (t', ops')]> (c_thr c)) -> wblk w' = blk' ->
  (forall B j, B ∈ wblk w' -> j ∈ B -> j ∈ wrun w') ->
  (exists f, budget f (<[i := (t', ops')]> (c_thr c)) /\ size (wtag w') + todo (<[i := (t', ops')]> (c_thr c)) + sumf f (length (c_thr c)) <= length (inserts (concat scripts))) ->
  (forall k v, (k, v) ∈ wcalled w' -> (k, v) ∈ inserts (concat scripts)) ->
  thread_ok (h ++ h') w' i t' ops' -> (forall j, j <> i -> last_at j (h ++ h') = last_at j h) ->
  (forall k v, (k, v) ∈ wcalled w' -> asked k v (h ++ h')) -> hist_ok (h ++ h') ->
  SInv (mk_csys (wm w') (<[i := (t', ops')]> (c_thr c)) blk' (c_fault c) (c_time c + 1)) (h ++ h') w'.
Proof.
  intros S Hc HI' HR Ek Er Eb Hg Hbu Hin Ht Hl Hcl Hh. pose proof (lookup_lt_Some _ _ _ Hc) as Hi. split; cbn; try done.
  - apply S.
  - rewrite Ek. f_equal. apply S.
  - intros j t1 ops1 Hj. destruct (decide (j = i)) as [->|Hne].
    + rewrite list_lookup_insert in Hj by done. by injection Hj as <- <-.
    + rewrite list_lookup_insert_ne in Hj by done. eapply thread_rely; [by apply HR|by apply Hl|]. by apply S.
  - intros j. rewrite insert_length. intros Hj. eapply free_rely; [apply HR; lia|]. by apply S.
  - by rewrite insert_length.
Qed.

Lemma sinv_tick c h w : SInv c h w -> SInv (mk_csys (c_mem c) (c_thr c) (c_blk c) (c_fault c) (c_time c + 1)) h (tick w).
Proof.
  intros S. split; cbn; try apply S.
  - by apply tick_inv, S.
  - f_equal. apply S.
  - intros i t ops H. eapply thread_rely; [apply tick_rely|done|]. by apply S.
  - intros i H. eapply free_rely; [apply tick_rely|]. by apply S.
Qed.
Lemma blk_id w : Inv w -> replicate (length (retired (wm w)) - length (wblk w)) (wrun w) ++ wblk w = wblk w.
Proof. intros I. destruct (iv_ret _ I) as (_ & -> & _). by rewrite Nat.sub_diag. Qed.

Lemma budget_set f thr i t' ops' n : budget f thr ->
  (forall p, t' = TRun p -> exists v d, go v d p told /\ (mine d = false -> v <> None -> 1 <= n)) ->
  budget (fun j => if decide (j = i) then n else f j) (<[i := (t', ops')]> thr).
Proof.
  intros Hb Hi j p ops. destruct (decide (j = i)) as [->|Hne].
  - intros H. apply list_lookup_insert_Some in H as [(_ & [= -> ->] & _)|(? & _)]; [|done]. by apply Hi.
  - rewrite list_lookup_insert_ne by done. apply Hb.
Qed.
(** what the action [a] leaves alone: what other threads hold; tags are new only with the value *)
Definition moved (a : act) (w w' : world) : Prop :=
  (forall j h, a <> Thread j -> wvl w !! h = Some (VHold j) <-> wvl w' !! h = Some (VHold j)) /\
  (forall h, is_Some (wtag w' !! h) -> is_Some (wtag w !! h) \/ (vals (wm w) !! h = None /\ is_Some (vals (wm w') !! h))).
Lemma moved_tick a w : moved a w (tick w).
Proof. split; [done|]. intros h H. by left. Qed.
Lemma c_step_ok F a c h w : SInv c h w -> exists w', SInv (c_stepv F a c).1 (h ++ (c_stepv F a c).2) w' /\
  length (c_thr (c_stepv F a c).1) = length (c_thr c) /\ Mono w w' /\ moved a w w'.
Proof.
  intros HS. pose proof (si_inv _ _ _ HS) as HI. destruct a as [i|j]; cbn [c_stepv].
  - unfold sys_stepv. cbn [fst snd]. destruct (c_thr c !! i) as [[t ops]|] eqn:Hc; cycle 1.
    { exists (tick w). cbn. rewrite app_nil_r. split; [|split; [done|split; [apply (rl_mono i), tick_rely|apply moved_tick]]]. rewrite <- (si_run _ _ _ HS), <- (si_blk _ _ _ HS), <- (si_mem _ _ _ HS).
      rewrite blk_id by done. rewrite (si_mem _ _ _ HS), (si_blk _ _ _ HS). by apply sinv_tick. }
    pose proof (si_thr _ _ _ HS i t ops Hc) as [T1 T2]. pose proof (si_mem _ _ _ HS) as Hm.
    assert (forall (e : list (N * event)), e = [] -> exists w' : world, SInv (mk_csys (c_mem c) (c_thr c)
      (replicate (length (retired (c_mem c)) - length (c_blk c)) (holders (c_thr c)) ++ c_blk c) (c_fault c) (c_time c + 1)) (h ++ e) w' /\ length (c_thr c) = length (c_thr c) /\ Mono w w' /\ moved (Thread i) w w') as Hnone.
    { intros e ->. exists (tick w). rewrite app_nil_r. split; [|split; [done|split; [apply (rl_mono i), tick_rely|apply moved_tick]]]. rewrite <- (si_run _ _ _ HS), <- (si_blk _ _ _ HS), <- Hm.
      rewrite blk_id by done. rewrite Hm, (si_blk _ _ _ HS). by apply sinv_tick. }
    destruct t as [|[a|e|R f k]].
    + destruct ops as [|o ops]; [by apply Hnone|]. assert (o ∈ concat scripts) as Hoc by (apply T1; by left). pose proof (calls_op o Hoc) as Hg.
      assert (forall o, o ∈ ops -> o ∈ concat scripts) as T1' by (intros o' Ho'; apply T1; by right). clear T1. rename T1' into T1.
      cbn [fst snd map c_thr]. rewrite insert_length.
      set (W := holders (<[i := (TRun (call insert_v F o), ops)]> (c_thr c))).
      exists (w_call o W w). split; [|split; [done|split; [apply same_mono, call_same|split; [done|intros hh Hh; by left]]]]. rewrite <- (si_run _ _ _ HS), <- (si_blk _ _ _ HS), <- Hm. rewrite blk_id by done.
      assert (i ∈ W) as HiW. { apply elem_holders. exists (call insert_v F o), ops. apply list_lookup_insert. by eapply lookup_lt_Some. }
      assert (forall j, j ∈ wrun w -> j ∈ W) as HW.
      { intros j. rewrite (si_run _ _ _ HS). intros Hj. destruct (decide (j = i)) as [->|Hne]; [done|]. by apply holders_other. }
      assert (forall j, j <> i -> Rely j w (w_call o W w)) as HR.
      { intros j Hne. apply same_rely; [apply call_same|apply HW|done..]. }
      apply (sinv_step c h w i TIdle (o :: ops) _ _ (w_call o W w)); try done.
      * apply call_inv; [done|done|]. intros k v k' v' -> Hin. eapply calls_same; [by apply inserts_elem|by apply (si_ins _ _ _ HS)].
      * intros B j HB Hj. apply HW. by eapply (si_grd _ _ _ HS).
      * destruct (si_cnt _ _ _ HS) as (f & Hbu & Hcnt). set (n := length (inserts [o])).
        exists (fun j => if decide (j = i) then n else f j). split.
        -- apply budget_set; [done|]. intros p [= <-]. exists (own o), (D [] [] false None). split; [by apply go_call|]. intros _ Ho. unfold n. by destruct o.
        -- pose proof (todo_set _ _ _ _ (TRun (call insert_v F o)) ops Hc) as Ht. pose proof (sumf_set f (fun j => if decide (j = i) then n else f j) (length (c_thr c)) i) as Hs.
           cbn beta in Hs. rewrite decide_True in Hs by done. specialize (Hs (lookup_lt_Some _ _ _ Hc)). assert (length (inserts (o :: ops)) = n + length (inserts ops)) as En.
           { change (o :: ops) with ([o] ++ ops). by rewrite inserts_app, app_length. }
           cbn [wtag w_call]. assert (forall j, j <> i -> (if decide (j = i) then n else f j) = f j) as Hj by (intros j Hj; by rewrite decide_False).
           specialize (Hs Hj). lia.
      * intros k v. cbn. intros Hin. destruct o as [k0 v0| | | |]; try (by apply (si_ins _ _ _ HS)).
        apply elem_of_cons in Hin as [[= -> ->]|Hin]; [by apply inserts_elem|by apply (si_ins _ _ _ HS)].
      * split; [done|]. exists (c_time c), o. split; [by rewrite last_at_snoc, decide_True|].
        eapply cwp_mono; [apply cwp_call; [done| |done| |]|].
        -- apply call_inv; [done|done|]. intros k v k' v' -> Hin. eapply calls_same; [by apply inserts_elem|by apply (si_ins _ _ _ HS)].
        -- destruct T2 as [A B C]. by split.
        -- destruct o; try done. by left.
        -- intros a w1. apply fin_earlier. cbn. rewrite (si_clk _ _ _ HS). lia.
      * intros j Hne. by rewrite last_at_snoc, decide_False.
      * intros k v. cbn. intros Hin. assert ((k, v) ∈ wcalled w \/ o = Insert k v) as [Hin'| ->].
        { destruct o; try (by left). apply elem_of_cons in Hin as [[= -> ->]|?]; [by right|by left]. }
        -- apply asked_app. by apply (si_called _ _ _ HS).
        -- exists (c_time c), i. apply elem_of_app. right. by left.
      * apply hist_call, HS.
    + destruct T2 as (t1 & o & L1 & [Fr Ra]). cbn [fst snd map c_thr]. rewrite insert_length.
      set (W := holders (<[i := (TIdle, ops)]> (c_thr c))).
      exists (w_ret i W w). split; [|split; [done|split; [apply same_mono, ret_same|split; [|intros hh Hh; by left]]]]. all: cycle 1.
      { intros j hh Hne. cbn. rewrite lookup_fmap. destruct (wvl w !! hh) as [[]|]; cbn; split; congruence. }
      rewrite <- (si_run _ _ _ HS), <- (si_blk _ _ _ HS), <- Hm. rewrite blk_id by done.
      apply (sinv_step c h w i (TRun (Ret a)) ops _ _ (w_ret i W w)); try done.
      * by apply ret_inv.
      * intros j Hne. apply ret_rely; [done|]. rewrite (si_run _ _ _ HS). by apply holders_other.
      * intros B j HB Hj. cbn in HB. apply elem_of_list_fmap in HB as (B' & -> & HB'). apply without_sub in Hj as [Hj Hne].
        apply (holders_other _ i (TIdle, ops) j Hne). rewrite <- (si_run _ _ _ HS). by eapply (si_grd _ _ _ HS).
      * destruct (si_cnt _ _ _ HS) as (f & Hbu & Hcnt). exists f. split.
        -- intros j p ops'. destruct (decide (j = i)) as [->|Hne]; [|rewrite list_lookup_insert_ne by done; apply Hbu].
           intros H. apply list_lookup_insert_Some in H as [(_ & ? & _)|(? & _)]; done.
        -- pose proof (todo_set _ _ _ _ TIdle ops Hc). cbn [wtag w_ret]. lia.
      * intros k v. apply HS.
      * split; [done|]. destruct Fr as [A B C]. split; try done. intros hh. cbn. rewrite lookup_fmap.
        specialize (B hh). destruct (wvl w !! hh) as [[]|]; cbn; congruence.
      * intros j Hne. by rewrite last_at_snoc, decide_False.
      * intros k v H. apply asked_app. by apply (si_called _ _ _ HS).
      * eapply hist_ret; [apply HS|exact L1|]. pose proof (si_called _ _ _ HS) as Hcl. rewrite <- (si_clk _ _ _ HS).
        destruct o, a as [[ov|]| |r| |]; cbn in *; try done; [by apply Hcl|..]; intros v E H; by apply Hcl, Ra.
    + by apply Hnone.
    + destruct T2 as (t1 & o & L1 & T3). cbn in T3. destruct (T3 w (rely_refl i w) HI (sinv_room _ _ _ HS)) as (r & w2 & Hf & HI2 & HG & Hk).
      rewrite <- Hm. rewrite Hf. cbn [fst snd map c_thr]. rewrite insert_length. exists w2. split; [|split; [done|split; [by eapply guar_mono|]]]. all: cycle 1.
      { split; [|apply (gu_tag _ _ _ HG)]. intros j hh Hne. apply (rl_hold _ _ _ (gu_rely _ _ _ HG j ltac:(congruence))). }
      rewrite <- (si_run _ _ _ HS), <- (si_blk _ _ _ HS). rewrite <- (gu_blk _ _ _ HG).
      apply (sinv_step c h w i (TRun (Step f k)) ops _ _ w2); try done.
      * apply HG.
      * apply HG.
      * rewrite (gu_run _ _ _ HG), (si_run _ _ _ HS). by erewrite holders_same.
      * intros B j HB Hj. rewrite (gu_run _ _ _ HG). rewrite (gu_blk _ _ _ HG) in HB. apply elem_of_app in HB as [HB|HB].
        -- apply elem_of_replicate in HB as [-> _]. done.
        -- by eapply (si_grd _ _ _ HS).
      * destruct (si_cnt _ _ _ HS) as (ff & Hbu & Hcnt). pose proof (todo_set _ _ _ _ (TRun (k r)) ops Hc) as Ht.
        destruct (Hbu i _ _ Hc) as (v & d & Hgo & Hfi). cbn [go] in Hgo.
        assert (forall d', mine d' = mine d -> go v d' (k r) told -> size (wtag w2) <= size (wtag w) -> exists f0, budget f0 (<[i := (TRun (k r), ops)]> (c_thr c)) /\
          size (wtag w2) + todo (<[i := (TRun (k r), ops)]> (c_thr c)) + sumf f0 (length (c_thr c)) <= length (inserts (concat scripts))) as Hk0.
        { intros d' Ed Hg' Hsz. exists ff. split; [|lia]. intros j p ops'. destruct (decide (j = i)) as [->|Hne]; [|rewrite list_lookup_insert_ne by done; apply Hbu].
          intros H. apply list_lookup_insert_Some in H as [(_ & [= <- <-] & _)|(? & _)]; [|done]. exists v, d'. rewrite Ed. done. }
        destruct Hgo as [[H1 H2]|[(o' & H1 & H2)|[(h0 & o' & H1 & _ & _ & _ & H2)|[(x & Ev & Em & H1 & H2)|(h0 & x & _ & _ & H1 & H2)]]]].
        -- apply (Hk0 d); [done|apply H2|]. destruct (H1 _ _ _ Hf) as (Ev & _). by eapply tags_quiet.
        -- eapply Hk0; [|apply H2|]; [done|]. destruct (H1 _ _ _ Hf) as (Ev & _). eapply tags_quiet; [done|]. by rewrite Ev.
        -- eapply Hk0; [|apply H2|]; [done|]. destruct (H1 _ _ _ Hf) as (Ev & _). eapply tags_quiet; [done|]. by rewrite Ev.
        -- destruct (H1 _ _ _ Hf) as (E1 & _). pose proof (tags_brings i w w2 _ _ HG E1) as Hsz. assert (1 <= ff i) as Hfi' by (apply Hfi; [done|by rewrite Ev]).
           exists (fun j => if decide (j = i) then ff i - 1 else ff j). split.
           ++ apply budget_set; [done|]. intros p [= <-]. exists v, (D (seen d) (rd d) true (gone d)). split; [apply H2|]. done.
           ++ pose proof (sumf_set ff (fun j => if decide (j = i) then ff i - 1 else ff j) (length (c_thr c)) i (lookup_lt_Some _ _ _ Hc)) as Hs. cbn beta in Hs.
              rewrite (decide_True (P := i = i)) in Hs by done. assert (forall j, j <> i -> (if decide (j = i) then ff i - 1 else ff j) = ff j) as Hj by (intros j Hj; by rewrite decide_False).
              specialize (Hs Hj). lia.
        -- eapply Hk0; [|apply H2|]; [done|]. destruct (H1 _ _ _ Hf) as (Ev & _). by eapply tags_quiet.
      * intros k0 v0. rewrite (gu_called _ _ _ HG). apply HS.
      * rewrite app_nil_r. split; [done|]. by exists t1, o.
      * intros j _. by rewrite app_nil_r.
      * intros k' v'. rewrite (gu_called _ _ _ HG), app_nil_r. apply HS.
      * rewrite app_nil_r. apply HS.
  - assert (SInv (mk_csys (c_mem c) (c_thr c) (c_blk c) (c_fault c) (c_time c + 1)) (h ++ []) (tick w)) as Hnone.
    { rewrite app_nil_r. by apply sinv_tick. }
    assert (Mono w (tick w)) as Hmt by apply (rl_mono 0), tick_rely. pose proof (moved_tick (Collect j) w) as Hmv.
    destruct (retired (c_mem c) !! j) as [g|] eqn:Ej; [|by exists (tick w)].
    destruct (c_blk c !! j) as [[|x B]|] eqn:Eb; [|by exists (tick w)..].
    rewrite <- (si_mem _ _ _ HS) in *. rewrite <- (si_blk _ _ _ HS) in *.
    destruct (col_ok w j g HI Ej Eb) as (m' & -> & HI' & HR). cbn [fst snd]. rewrite app_nil_r.
    exists (w_col m' j (gaddr g) w). split; [|split; [done|split; [apply (rl_mono 0), HR|split; [|intros hh Hh; by left]]]]. all: cycle 1.
    { intros i hh _. apply (rl_hold _ _ _ (HR i)). }
    split; cbn; try done; try apply HS.
    + f_equal. apply HS.
    + intros i t ops Hc. eapply thread_rely; [apply HR|done|]. by apply HS.
    + intros i Hi. eapply free_rely; [apply HR|]. by apply HS.
    + intros B i HB Hi. eapply (si_grd _ _ _ HS); [by eapply delete_elem|done].
Qed.
Lemma c_run_ok F acts : forall c h w, SInv c h w -> exists w',
  SInv (c_runv F acts c).1 (h ++ (c_runv F acts c).2) w' /\ length (c_thr (c_runv F acts c).1) = length (c_thr c) /\ Mono w w'.
Proof.
  induction acts as [|a acts IH]; intros c h w HS; cbn [c_runv].
  - exists w. cbn. rewrite app_nil_r. split; [done|]. split; [done|apply mono_refl].
  - destruct (c_step_ok F a c h w HS) as (w1 & HS1 & HL1 & M1 & _). destruct (c_stepv F a c) as [c1 h1]. cbn [fst snd] in *.
    destruct (IH c1 (h ++ h1) w1 HS1) as (w2 & HS2 & HL2 & M2). destruct (c_runv F acts c1) as [c2 h2]. cbn [fst snd] in *. exists w2.
    rewrite app_assoc. split; [done|]. split; [congruence|by eapply mono_trans].
Qed.
End Sys.
