(** Concurrent executions: one step changes one node. *)
From Verif Require Import Base Perm PermFacts PermList PermLaws SpecPerm Key SpecKey KeyFacts Prog Version VersionFacts Mem Tree
  SpecTree TreeState SpecLin Conc.

Definition upd (w : world) (p : N) (n2 : node) (own2 : gmap N nat) (pub2 nas2 : gset N) (seq2 : N -> N) (vl2 : gmap N vplace) : world :=
  mk_w (mwith_heap (<[p := n2]> (hp w)) (wm w)) own2 pub2 nas2 seq2 vl2 (wtag w) (wbh w) (wunt w) (wcalled w) (wclk w + 1) (wrun w) (wblk w).

Record Upd (i : nat) (w : world) (p : N) (n n2 : node) own2 pub2 nas2 seq2 vl2 : Prop := {
  u_at : hp w !! p = Some n;
  u_lev : nlev n2 = nlev n;
  u_ok : node_ok (upd w p n2 own2 pub2 nas2 seq2 vl2) p n2;
  u_pub : forall x, x ∈ wpub w -> x ∈ pub2;
  u_pub' : forall x, x ∈ pub2 -> x ∈ wpub w \/ x = p;
  u_seq : forall x, x <> p -> seq2 x = wseq w x;
  u_leaf : forall l, n = NLeaf l -> exists l', n2 = NLeaf l' /\ (wseq w p <= seq2 p <= wseq w p + 64)%N /\
    (seq2 p = wseq w p -> spl l' = false -> spl l = false /\ forall s, s ∈ actv l -> s ∈ actv l' /\
       l_ikey l' !! s = l_ikey l !! s /\ l_klx l' !! s = l_klx l !! s);
  u_own : forall x, own2 !! x = wown w !! x \/ (x = p \/ x ∈ wnas w) /\
    (wown w !! x = None \/ wown w !! x = Some i) /\ (own2 !! x = None \/ own2 !! x = Some i);
  u_good : forall x n', <[p := n2]> (hp w) !! x = Some n' -> own2 !! x = None -> x = p \/ wown w !! x <> None ->
    node_good (upd w p n2 own2 pub2 nas2 seq2 vl2) x n';
  u_par : npar n2 <> npar n -> npar n2 <> 0%N /\ (npar n = 0%N -> wown w !! p = Some i) /\
    (npar n <> 0%N -> wown w !! npar n = Some i) /\ wown w !! npar n2 = Some i;
  u_strip : forall j, j <> i -> wown w !! p = Some j -> strip n2 = strip n;
  u_lock : forall x n', <[p := n2]> (hp w) !! x = Some n' -> x ∈ pub2 -> x ∉ nas2 -> x = p \/ x ∈ wnas w ->
    own2 !! x = None <-> v_is_locked (nver n') = false;
  u_priv : forall x, x ∉ pub2 -> is_Some (hp w !! x) -> own2 !! x <> None;
  u_nas : forall q, q ∈ nas2 -> exists j i0, own2 !! q = Some j /\ <[p := n2]> (hp w) !! q = Some (NInode i0) /\
    forall c n', <[p := n2]> (hp w) !! c = Some n' -> npar n' = q -> own2 !! c = Some j;
  u_nasm : forall x, x ∈ wpub w -> x ∉ wnas w -> x ∉ nas2;
  u_pubj : forall q, q ∈ pub2 -> q ∉ wpub w -> forall j, j <> i -> wown w !! q <> Some j;
  u_nasj : forall j q, j <> i -> wown w !! q = Some j -> q ∈ wnas w <-> q ∈ nas2;
  u_root : root (wm w) = p -> v_is_root (nver n2) = true /\ npar n2 = 0%N;
  u_vdom : forall h, is_Some (vl2 !! h) <-> is_Some (wvl w !! h);
  u_vslot : forall h x s, x <> p -> vl2 !! h = Some (VSlot x s) <-> wvl w !! h = Some (VSlot x s);
  u_vret : forall h B, vl2 !! h = Some (VRet B) <-> wvl w !! h = Some (VRet B);
  u_vhere : forall h s, vl2 !! h = Some (VSlot p s) -> exists l, n2 = NLeaf l /\ lptrs l !! s = Some h;
  u_vhold : forall j h, j <> i -> vl2 !! h = Some (VHold j) <-> wvl w !! h = Some (VHold j) }.

Section Upd.
Context (i : nat) (w : world) (p : N) (n n2 : node) (own2 : gmap N nat) (pub2 nas2 : gset N) (seq2 : N -> N) (vl2 : gmap N vplace).
Context (I : Inv w) (U : Upd i w p n n2 own2 pub2 nas2 seq2 vl2).
Let w2 := upd w p n2 own2 pub2 nas2 seq2 vl2.

Lemma upd_lev x k : lev w x = Some k -> lev w2 x = Some k.
Proof.
  unfold lev, w2, hp at 2. cbn. destruct (decide (x = p)) as [->|Hne].
  - rewrite (u_at _ _ _ _ _ _ _ _ _ _ U), lookup_insert. cbn. by rewrite (u_lev _ _ _ _ _ _ _ _ _ _ U).
  - by rewrite lookup_insert_ne.
Qed.
Lemma upd_ptr k x : ptr_ok w k x -> ptr_ok w2 k x.
Proof. intros [->|[H1 H2]]; [by left|]. right. split; [by apply (u_pub _ _ _ _ _ _ _ _ _ _ U)|by apply upd_lev]. Qed.
Lemma upd_hp x n' : hp w2 !! x = Some n' -> (x = p /\ n' = n2) \/ (x <> p /\ hp w !! x = Some n').
Proof.
  unfold w2, hp at 1. cbn. destruct (decide (x = p)) as [->|Hne].
  - rewrite lookup_insert. intros [= <-]. by left.
  - rewrite lookup_insert_ne by done. by right.
Qed.
Lemma upd_node x n' : x <> p -> node_ok w x n' -> node_ok w2 x n'.
Proof.
  intros Hne [H1 H2]. split; [by apply upd_ptr|]. destruct n' as [l|y].
  - destruct H2 as [A1 A2 A3 A4 A5 A6 A7 A8 A9 A10 A11]. split; try done.
    + by apply upd_ptr.
    + cbn. by rewrite (u_seq _ _ _ _ _ _ _ _ _ _ U) by done.
    + intros s h Hs Hh. cbn. apply (u_vslot _ _ _ _ _ _ _ _ _ _ U); [done|by apply A8].
  - destruct H2 as [A1 A2 A3 A4]. split; try done. intros c Hc. by apply upd_ptr, A4.
Qed.
Lemma upd_good x n' : x <> p -> hp w !! x = Some n' -> wown w !! x = None -> node_good w2 x n'.
Proof.
  intros Hne Hx Ho. destruct (iv_good _ I x n' Hx Ho) as [H1 H2]. split; [|done].
  destruct n' as [l|y]; [done|]. destruct H1 as (N1 & N2 & N3). split; [done|]. split; [done|].
  intros c nc Hc. destruct (upd_hp _ _ Hc) as [[-> ->]|[Hcp Hc']]; [|by apply N3].
  pose proof (u_at _ _ _ _ _ _ _ _ _ _ U) as Hp. rewrite <- (N3 _ _ Hp).
  destruct (decide (npar n2 = npar n)) as [->|Hd]; [done|].
  destruct (u_par _ _ _ _ _ _ _ _ _ _ U Hd) as (P1 & P2 & P3 & P4). pose proof (iv_addr _ I x _ Hx) as [Hx0 _].
  split; intros E; exfalso.
  - rewrite E in P4. congruence.
  - rewrite E in P3. rewrite P3 in Ho; [congruence|lia].
Qed.
Lemma upd_inv : Inv w2.
Proof.
  pose proof (u_at _ _ _ _ _ _ _ _ _ _ U) as Hp. split; try (exact (iv_nxt _ I) || exact (iv_ret _ I) || exact (iv_bags _ I) || exact (iv_bnew _ I) || exact (iv_same _ I) || exact (iv_fresh _ I) || exact (iv_called _ I) || exact (iv_keys _ I) || exact (iv_tag _ I)).
  - intros x n' H. apply upd_hp in H as [[-> ->]|[_ H]]; [exact (iv_addr _ I p n Hp)|exact (iv_addr _ I x n' H)].
  - intros x n' H. apply upd_hp in H as [[-> ->]|[Hne H]]; [apply U|]. apply upd_node; [done|]. by apply I.
  - intros x n' H Ho. pose proof H as H'. apply upd_hp in H as [[-> ->]|[Hne H]].
    + apply (u_good _ _ _ _ _ _ _ _ _ _ U); [done|done|by left].
    + destruct (wown w !! x) as [j|] eqn:E.
      * apply (u_good _ _ _ _ _ _ _ _ _ _ U); [done|done|right; congruence].
      * by apply upd_good.
  - intros x j H. cbn in H. assert (is_Some (hp w !! x)) as [y Hy].
    { destruct (u_own _ _ _ _ _ _ _ _ _ _ U x) as [E|([->|Hn] & _)].
      - apply (iv_own _ I x j). congruence.
      - by eexists.
      - destruct (iv_nas _ I x Hn) as (j' & i0 & _ & E & _). by eexists. }
    unfold w2, hp. cbn. destruct (decide (x = p)) as [->|]; [rewrite lookup_insert|rewrite lookup_insert_ne by done]; by eexists.
  - intros x H. unfold w2, hp. cbn. destruct (decide (x = p)) as [->|]; [rewrite lookup_insert; by eexists|rewrite lookup_insert_ne by done].
    destruct (u_pub' _ _ _ _ _ _ _ _ _ _ U x H) as [H'|?]; [by apply I|done].
  - intros x n' H H1 H2. pose proof H as H'. apply upd_hp in H as [[-> ->]|[Hne H]].
    + apply (u_lock _ _ _ _ _ _ _ _ _ _ U p); [done|done|done|by left].
    + destruct (decide (x ∈ wnas w)) as [Hn|Hn].
      * apply (u_lock _ _ _ _ _ _ _ _ _ _ U x); [done|done|done|by right].
      * destruct (u_own _ _ _ _ _ _ _ _ _ _ U x) as [E|([->|?] & _)]; [|done|done]. cbn. rewrite E.
        apply (iv_lock _ I); [done| |done]. destruct (u_pub' _ _ _ _ _ _ _ _ _ _ U x H1); done.
  - intros x n' H H1. apply (u_priv _ _ _ _ _ _ _ _ _ _ U); [done|]. apply upd_hp in H as [[-> ->]|[Hne H]]; by eexists.
  - intros q Hq. apply (u_nas _ _ _ _ _ _ _ _ _ _ U q Hq).
  - destruct (iv_root _ I) as (nr & H1 & H2 & H3 & H4). cbn. destruct (decide (root (wm w) = p)) as [E|E].
    + exists n2. rewrite E. unfold w2, hp. cbn. rewrite lookup_insert. split; [done|].
      split; [apply (u_pub _ _ _ _ _ _ _ _ _ _ U); congruence|]. by apply (u_root _ _ _ _ _ _ _ _ _ _ U).
    + exists nr. unfold w2, hp. cbn. rewrite lookup_insert_ne by done. split; [done|].
      split; [by apply (u_pub _ _ _ _ _ _ _ _ _ _ U)|done].
  - intros h. cbn. rewrite (u_vdom _ _ _ _ _ _ _ _ _ _ U). apply I.
  - intros h x H. cbn in H. destruct (proj1 (u_vdom _ _ _ _ _ _ _ _ _ _ U h)) as [y Hy]; [by eexists|]. by apply (iv_hdl _ I h y).
  - intros h x s H. cbn in H. destruct (decide (x = p)) as [->|Hne].
    + destruct (u_vhere _ _ _ _ _ _ _ _ _ _ U h s H) as (l & -> & Hl). exists l. split; [|done].
      unfold w2, hp. cbn. by rewrite lookup_insert.
    + apply (u_vslot _ _ _ _ _ _ _ _ _ _ U) in H; [|done]. destruct (iv_slot _ I h x s H) as (l & H1 & H2). exists l.
      split; [|done]. unfold w2, hp. cbn. by rewrite lookup_insert_ne.
  - destruct (iv_ret _ I) as (R1 & R2 & R3 & R4). split; [done|]. split; [done|]. split; [done|].
    intros h B. cbn. rewrite (u_vret _ _ _ _ _ _ _ _ _ _ U). apply R4.
  - destruct (iv_trk _ I) as (R1 & R2 & R3). split; [done|]. 
    assert (D : forall x, is_Some (hp w2 !! x) <-> is_Some (hp w !! x)).
    { intros x. unfold w2, hp at 1. cbn. destruct (decide (x = p)) as [->|]; [rewrite lookup_insert, Hp|rewrite lookup_insert_ne by done]; [|done].
      split; intros _; by eexists. }
    split.
    + intros x. rewrite D. apply R2.
    + intros x j H. apply D. by apply (R3 x j).
Qed.
Lemma upd_mono : Mono w w2.
Proof.
  pose proof (u_at _ _ _ _ _ _ _ _ _ _ U) as Hp. split; try done.
  - apply upd_lev.
  - apply (u_pub _ _ _ _ _ _ _ _ _ _ U).
  - apply (u_nasm _ _ _ _ _ _ _ _ _ _ U).
  - cbn. lia.
  - intros x n1 n' H1 H2 Hz. apply upd_hp in H2 as [[-> ->]|[Hne H2]]; [|congruence].
    assert (n1 = n) as -> by congruence. destruct (decide (npar n2 = npar n)) as [->|Hd]; [done|].
    by apply (u_par _ _ _ _ _ _ _ _ _ _ U) in Hd as [? _].
  - intros x l H. unfold w2, hp. cbn [wm upd mwith_heap heap wseq wclk]. destruct (decide (x = p)) as [->|Hne].
    + rewrite lookup_insert. destruct (u_leaf _ _ _ _ _ _ _ _ _ _ U l) as (l' & -> & H1 & H2); [congruence|].
      exists l'. split; [done|]. split; [lia|done].
    + rewrite lookup_insert_ne by done. exists l. split; [done|]. rewrite (u_seq _ _ _ _ _ _ _ _ _ _ U) by done.
      split; [lia|done].
  - intros b x bg bg' l l' _ H1 H2. cbn in H2. congruence.
Qed.
Lemma upd_guar : Guar i w w2.
Proof.
  pose proof (u_at _ _ _ _ _ _ _ _ _ _ U) as Hp. split; try done.
  2:{ by left. }
  2:{ cbn. destruct (iv_ret _ I) as (_ & -> & _). by rewrite Nat.sub_diag. }
  intros j Hj. split; try done.
  - apply upd_mono.
  - intros x. cbn. destruct (u_own _ _ _ _ _ _ _ _ _ _ U x) as [->|(_ & [->| ->] & [->| ->])]; [done|..]; split; congruence.
  - intros x H. unfold w2, hp at 1. cbn. destruct (decide (x = p)) as [->|Hne].
    + rewrite lookup_insert, Hp. cbn. f_equal. by apply (u_strip _ _ _ _ _ _ _ _ _ _ U j).
    + by rewrite lookup_insert_ne.
  - intros c n1 n' H1 H2 Hd. apply upd_hp in H2 as [[-> ->]|[Hne H2]]; [|congruence].
    assert (n1 = n) as -> by congruence. destruct (u_par _ _ _ _ _ _ _ _ _ _ U Hd) as (P1 & P2 & P3 & P4).
    split; [intros E; rewrite P2 by done; congruence|]. split; [|congruence].
    intros E. destruct (decide (npar n = 0%N)) as [Ez|Ez]; [|rewrite P3 in E by done; congruence].
    rewrite Ez in E. apply (iv_own _ I) in E as [y Hy]. apply (iv_addr _ I) in Hy. lia.
  - intros c n' H1 H2. apply upd_hp in H2 as [[-> ->]|[Hne H2]]; congruence.
  - intros q H. by apply (u_nasj _ _ _ _ _ _ _ _ _ _ U j).
  - intros q H H2. destruct (decide (q ∈ wpub w)) as [|Hd]; [done|]. by destruct (u_pubj _ _ _ _ _ _ _ _ _ _ U q H2 Hd j Hj).
  - intros h. cbn. by rewrite (u_vhold _ _ _ _ _ _ _ _ _ _ U).
  - intros _ h. unfold guarded. cbn. destruct (wvl w !! h) as [x|] eqn:E; [|done]. intros Hx.
    destruct (proj2 (u_vdom _ _ _ _ _ _ _ _ _ _ U h)) as [y Hy]; [by eexists|]. rewrite Hy. destruct y as [| |B]; [done..|].
    apply (u_vret _ _ _ _ _ _ _ _ _ _ U) in Hy. rewrite E in Hy. injection Hy as ->. done.
  - intros b x bg bg' _ _ H1 H2. cbn in H2. congruence.
Qed.
End Upd.
