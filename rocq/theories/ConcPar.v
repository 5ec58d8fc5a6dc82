(** Concurrent executions: parent and predecessor pointers. *)
From Verif Require Import Base Perm PermFacts PermList PermLaws SpecPerm Key SpecKey KeyFacts Prog Version VersionFacts Mem Tree
  SpecTree TreeState SpecLin Conc ConcStep ConcRules.

(** what stays when parents and owners do not change *)
Lemma at_same i nl hs un ns pr pe tp zs w w2 : At i (L nl hs un ns pr pe tp zs) w -> Inv w2 ->
  wrun w2 = wrun w -> wown w2 = wown w -> wvl w2 = wvl w -> wunt w2 = wunt w -> wnas w2 = wnas w -> wpub w2 = wpub w ->
  root (wm w2) = root (wm w) ->
  (forall c n, hp w !! c = Some n -> exists n', hp w2 !! c = Some n' /\ strip n' = strip n) ->
  (forall c n', hp w2 !! c = Some n' -> exists n, hp w !! c = Some n /\ npar n' = npar n) ->
  At i (L nl hs un ns pr pe tp zs) w2.
Proof.
  intros A I2 E1 E2 E3 E4 E5 E6 E7 Hs Hpar. split; cbn [Conc.nl Conc.hs Conc.un Conc.ns Conc.pr Conc.pe Conc.tp Conc.zs];
    rewrite ?E1, ?E2, ?E3, ?E4, ?E5, ?E6, ?E7; try (exact I2 || apply A).
  - intros p n H. destruct (at_nl _ _ _ A p n H) as (n1 & H1 & H2). destruct (Hs p n1 H1) as (n2 & H3 & H4).
    exists n2. split; [done|congruence].
  - intros q l H. destruct (at_pe _ _ _ A q l H) as (H1 & H2 & H3). split; [done|]. split.
    + intros c n' Hc. destruct (Hpar c n' Hc) as (n0 & Hc0 & ->). by apply H2.
    + intros c Hc. destruct (H3 c Hc) as [n0 Hn0]. destruct (Hs c n0 Hn0) as (? & ? & _). by eexists.
  - intros q H. destruct (at_tp _ _ _ A q H) as [H1 H2]. split; [done|]. intros n' Hc Hz.
    destruct (Hpar q n' Hc) as (n0 & Hc0 & E). rewrite E in Hz. by apply (H2 n0).
  - intros q H. destruct (at_zs _ _ _ A q H) as [H1 H2]. split; [done|]. intros n' Hc.
    destruct (Hpar q n' Hc) as (n0 & Hc0 & ->). by apply H2.
Qed.

Lemma ptr_ok_upd w p n n2 own2 pub2 nas2 seq2 vl2 k x : hp w !! p = Some n -> nlev n2 = nlev n -> (forall x, x ∈ wpub w -> x ∈ pub2) ->
  ptr_ok w k x -> ptr_ok (upd w p n2 own2 pub2 nas2 seq2 vl2) k x.
Proof.
  intros Hp Hl Hpub [->|[H1 H2]]; [by left|]. right. split; [by apply Hpub|]. unfold lev, hp at 1. cbn.
  destruct (decide (x = p)) as [->|Hne]; [rewrite lookup_insert|by rewrite lookup_insert_ne].
  unfold lev in H2. rewrite Hp in H2. cbn in *. congruence.
Qed.

(** ** the predecessor pointer *)
Lemma cwp_set_prev i nl hs un ns pr pe tp zs w x v (Q : unit -> world -> Prop) :
  At i (L nl hs un ns pr pe tp zs) w -> lev w x = Some 0 ->
  (forall w', At i (L nl hs un ns pr pe tp zs) w' -> Mono w w' -> Q tt w') -> cwp i (set_prev x v) w Q.
Proof.
  intros A0 Hl HQ. unfold set_prev, leaf_up. apply cwp_step. intros w1 R1 I1.
  pose proof (rl_mono _ _ _ R1) as M1. pose proof (at_rely _ _ _ _ R1 I1 A0) as A1.
  apply (mo_lev _ _ M1) in Hl. unfold lev in Hl. destruct (hp w1 !! x) as [n|] eqn:Hp; [|done]. cbn in Hl.
  destruct n as [l|y]; [|done]. pose proof Hp as Hp'. unfold hp in Hp'. rewrite Hp'.
  set (n2 := NLeaf (with_prev v l)).
  set (w2 := upd w1 x n2 (wown w1) (wpub w1) (wnas w1) (wseq w1) (wvl w1)).
  assert (U : Upd i w1 x (NLeaf l) n2 (wown w1) (wpub w1) (wnas w1) (wseq w1) (wvl w1)).
  { split; try done.
    - destruct (iv_node _ I1 x _ Hp) as [H1 H2]. split; [by eapply ptr_ok_upd|].
      destruct H2 as [B1 B2 B3 B4 B5 B6 B7 B8 B9]. split; try done. by eapply ptr_ok_upd.
    - by left.
    - intros l0 [= <-]. eexists. split; [reflexivity|]. split; [lia|]. done.
    - by left.
    - intros y n' Hy Ho [->|Hy']; [|done]. rewrite lookup_insert in Hy. injection Hy as <-.
      destruct (iv_good _ I1 x _ Hp Ho) as [[G1 G2 G3 G4 G5] G6]. split; [|exact G6]. split; done.
    - intros y n' Hy H1 H2 [->|H3]; [|done]. rewrite lookup_insert in Hy. injection Hy as <-. apply (iv_lock _ I1 x (NLeaf l)); done.
    - intros y H1 [z H2]. by apply (iv_priv _ I1 y z).
    - intros q Hq. destruct (iv_nas _ I1 q Hq) as (j & i0 & N1 & N2 & N3). exists j, i0.
      assert (q <> x) as Hne by congruence. rewrite lookup_insert_ne by done. split; [done|]. split; [done|]. intros c n' Hc E.
      destruct (decide (c = x)) as [->|Hcx].
      + rewrite lookup_insert in Hc. injection Hc as <-. by apply (N3 x (NLeaf l)).
      + rewrite lookup_insert_ne in Hc by done. by eapply N3.
    - intros Hr. destruct (iv_root _ I1) as (nr & S1 & S2 & S3 & S4). rewrite Hr, Hp in S1. injection S1 as <-. done.
    - intros h s Hs. destruct (iv_slot _ I1 h x s Hs) as (l0 & E1 & E2). rewrite Hp in E1. injection E1 as <-. by eexists. }
  pose proof (upd_inv _ _ _ _ _ _ _ _ _ _ I1 U) as I2. pose proof (upd_guar _ _ _ _ _ _ _ _ _ _ I1 U) as G2.
  exists tt, w2. split; [done|]. split; [done|]. split; [done|].
  apply HQ; [|eapply mono_trans; [exact M1|by eapply guar_mono]].
  apply (at_same i _ _ _ _ _ _ _ _ w1); try done; unfold w2, hp; cbn.
  - intros c n Hc. destruct (decide (c = x)) as [->|Hcx].
    + rewrite lookup_insert. unfold hp in Hc. rewrite Hp' in Hc. injection Hc as <-. by eexists.
    + rewrite lookup_insert_ne by done. by eexists.
  - intros c n' Hc. destruct (decide (c = x)) as [->|Hcx].
    + rewrite lookup_insert in Hc. injection Hc as <-. by eexists.
    + rewrite lookup_insert_ne in Hc by done. by eexists.
Qed.

(** ** the parent pointer *)
Definition setpar (q : N) (n : node) : node := match n with
  | NLeaf l => NLeaf (with_parent q l) | NInode x => NInode (iwith_parent q x) end.
Definition move_kid (c q : N) (lq : list N) (pe : gmap N (list N)) : gmap N (list N) :=
  <[q := c :: lq]> (filter (fun x => x <> c) <$> pe).
(** the new root [q] becomes an ordinary node once its children point to it *)
Definition finishes (q : N) (nq : node) (c : N) (lq : list N) (ns tp : gset N) : Prop :=
  ns = {[q]} /\ q ∈ tp /\ v_is_locked (nver nq) = false /\
  exists x, nq = NInode x /\ NoDup (kids x) /\ 0%N ∉ kids x /\ forall y, y ∈ c :: lq <-> y ∈ kids x.

Lemma cwp_reparent i nl hs un ns pr pe tp zs w c q f k lq nq (rel : bool) (Q : unit -> world -> Prop) :
  At i (L nl hs un ns pr pe tp zs) w -> nl !! q = Some nq -> pe !! q = Some lq ->
  q ∈ wpub w -> lev w q = Some (S k) -> lev w c = Some k ->
  (forall m n, heap m !! c = Some n -> nlev n = k -> f m = Ok (tt, mwith_heap (<[c := setpar q n]> (heap m)) m)) ->
  (c ∈ zs /\ (forall w1, Mono w w1 -> At i (L nl hs un ns pr pe tp zs) w1 -> root (wm w1) <> c)) \/
    (exists q0 l0, pe !! q0 = Some l0 /\ c ∈ l0) ->
  (q ∈ ns -> is_Some (nl !! c)) ->
  (rel = true -> finishes q nq c lq ns tp) ->
  (forall w', At i (if rel then L (delete q nl) hs un (ns ∖ {[q]}) pr (delete q (move_kid c q lq pe)) (tp ∖ {[q]}) (zs ∖ {[c]} ∖ {[q]})
                    else L nl hs un ns pr (move_kid c q lq pe) tp (zs ∖ {[c]})) w' -> Mono w w' ->
     (forall n, hp w' !! c = Some n -> npar n <> 0%N) -> Q tt w') ->
  cwp i (atomic f) w Q.
Proof.
  intros A0 Hnq Hlq Hqpub Hqlev Hclev Hf Hold Hns Hrel HQ. apply cwp_step. intros w1 R1 I1.
  pose proof (rl_mono _ _ _ R1) as M1. pose proof (at_rely _ _ _ _ R1 I1 A0) as A1.
  apply (mo_pub _ _ M1) in Hqpub. apply (mo_lev _ _ M1) in Hqlev. apply (mo_lev _ _ M1) in Hclev.
  unfold lev in Hclev. destruct (hp w1 !! c) as [n|] eqn:Hp; [|done]. cbn in Hclev. injection Hclev as Hk.
  destruct (at_here _ _ _ _ _ A1 Hnq) as (Hqo & pvq & paq & Hqh).
  destruct (at_pe _ _ _ A1 q lq Hlq) as (_ & Hlq2 & Hlq3).
  assert (Hq0 : q <> 0%N). { apply (iv_addr _ I1) in Hqh. lia. }
  assert (Hcq : c <> q). { intros ->. unfold lev in Hqlev. rewrite Hp in Hqlev. cbn in Hqlev. injection Hqlev as ?. lia. }
  assert (Hroot : root (wm w1) <> c).
  { destruct Hold as [[_ H]|(q0 & l0 & H1 & H2)]; [by apply H|]. destruct (at_pe _ _ _ A1 q0 l0 H1) as (B1 & B2 & _).
    apply (B2 c n Hp) in H2. intros Hr. destruct (iv_root _ I1) as (nr & S1 & S2 & S3 & S4). rewrite Hr, Hp in S1. injection S1 as <-.
    rewrite S4 in H2. subst q0. apply (iv_own _ I1) in B1 as [z Hz]. apply (iv_addr _ I1) in Hz. lia. }
  assert (Hpar0 : npar n = 0%N -> wown w1 !! c = Some i).
  { intros Hz. destruct Hold as [[H _]|(q0 & l0 & H1 & H2)]; [by apply (at_zs _ _ _ A1)|]. destruct (at_pe _ _ _ A1 q0 l0 H1) as (B1 & B2 & _).
    apply (B2 c n Hp) in H2. rewrite <- H2, Hz in B1. apply (iv_own _ I1) in B1 as [z Hz']. apply (iv_addr _ I1) in Hz'. lia. }
  assert (Hpar1 : npar n <> 0%N -> wown w1 !! npar n = Some i).
  { intros Hz. destruct Hold as [[H _]|(q0 & l0 & H1 & H2)].
    - destruct (at_zs _ _ _ A1 c H) as [_ B]. by destruct Hz; apply B.
    - destruct (at_pe _ _ _ A1 q0 l0 H1) as (B1 & B2 & _). apply (B2 c n Hp) in H2. congruence. }
  set (n2 := setpar q n). assert (Hn2 : npar n2 = q /\ nlev n2 = nlev n /\ nver n2 = nver n /\ strip n2 = strip n) by (unfold n2; by destruct n).
  destruct Hn2 as (Hn2p & Hn2l & Hn2v & Hn2s).
  pose (own2 := if rel then delete q (wown w1) else wown w1). pose (nas2 := if rel then wnas w1 ∖ {[q]} else wnas w1).
  set (w2 := upd w1 c n2 own2 (wpub w1) nas2 (wseq w1) (wvl w1)).
  assert (Hown2 : forall x, x <> q \/ rel = false -> own2 !! x = wown w1 !! x).
  { intros x Hx. unfold own2. destruct rel; [|done]. destruct Hx as [Hx|]; [|done]. by rewrite lookup_delete_ne. }
  assert (Hown2r : rel = true -> own2 !! q = None) by (intros ->; unfold own2; by rewrite lookup_delete).
  assert (Hnas2 : forall x, x ∈ nas2 -> x ∈ wnas w1 /\ (x <> q \/ rel = false)).
  { intros x. unfold nas2. destruct rel; [|tauto]. rewrite elem_of_difference, elem_of_singleton. tauto. }
  assert (Hnas2' : forall x, x ∈ wnas w1 -> x <> q \/ rel = false -> x ∈ nas2).
  { intros x. unfold nas2. destruct rel; [|tauto]. rewrite elem_of_difference, elem_of_singleton. intros ? [?|?]; done. }
  assert (Hqn : rel = true -> q ∈ wnas w1). { intros E. destruct (Hrel E) as [H _]. assert (q ∈ ns) as H' by (rewrite H; by apply elem_of_singleton). by apply (at_nas _ _ _ A1) in H' as [? _]. }
  assert (Hparw2 : forall x n', hp w2 !! x = Some n' -> x = c /\ n' = n2 \/ x <> c /\ hp w1 !! x = Some n').
  { intros x n' Hx. unfold w2, hp in Hx. cbn in Hx. destruct (decide (x = c)) as [->|Hne].
    - rewrite lookup_insert in Hx. injection Hx as <-. by left.
    - rewrite lookup_insert_ne in Hx by done. by right. }
  assert (Hpareq : forall q' l', move_kid c q lq pe !! q' = Some l' -> wown w1 !! q' = Some i /\ pareq w2 q' l' /\ forall y, y ∈ l' -> is_Some (hp w1 !! y)).
  { intros q' l' H. unfold move_kid in H. destruct (decide (q' = q)) as [->|Hne].
    - rewrite lookup_insert in H. injection H as <-. split; [done|]. split.
      + intros x n' Hx. destruct (Hparw2 x n' Hx) as [[-> ->]|[Hxc Hx']].
        * split; [intros _; left|done].
        * rewrite (Hlq2 x n' Hx'). rewrite elem_of_cons. tauto.
      + intros y Hy. apply elem_of_cons in Hy as [->|Hy]; [by eexists|by apply Hlq3].
    - rewrite lookup_insert_ne, lookup_fmap in H by done. destruct (pe !! q') as [l0|] eqn:E0; [|done]. injection H as <-.
      destruct (at_pe _ _ _ A1 q' l0 E0) as (B1 & B2 & B3). split; [done|]. split.
      + intros x n' Hx. rewrite elem_of_list_filter. destruct (Hparw2 x n' Hx) as [[-> ->]|[Hxc Hx']].
        * rewrite Hn2p. split; [congruence|]. intros [? _]. done.
        * rewrite (B2 x n' Hx'). tauto.
      + intros y Hy. apply elem_of_list_filter in Hy as [_ Hy]. by apply B3. }
  assert (Hgq : rel = true -> node_good w2 q (rep pvq paq nq)).
  { intros E. destruct (Hrel E) as (B1 & B2 & B3 & x & -> & B5 & B6 & B7). split.
    - cbn. split; [done|]. split; [done|]. destruct (Hpareq q (c :: lq)) as (_ & C2 & _).
      { unfold move_kid. by rewrite lookup_insert. }
      intros y n' Hy. rewrite (C2 y n' Hy). apply B7.
    - intros Hz. destruct (at_tp _ _ _ A1 q B2) as [_ C]. by eapply C. }
  assert (U : Upd i w1 c n n2 own2 (wpub w1) nas2 (wseq w1) (wvl w1)).
  { split; try done.
    - destruct (iv_node _ I1 c _ Hp) as [H1 H2]. split.
      + rewrite Hn2p. eapply ptr_ok_upd; [done|done|done|]. right. split; [done|]. rewrite Hn2l, Hk. done.
      + unfold n2. destruct n as [l|x]; cbn in *.
        * destruct H2 as [B1 B2 B3 B4 B5 B6 B7 B8 B9]. split; try done. by eapply ptr_ok_upd.
        * destruct H2 as [B1 B2 B3 B4]. split; try done. intros y Hy. eapply ptr_ok_upd; [done|done|done|by apply B4].
    - by left.
    - intros l ->. unfold n2. eexists. split; [reflexivity|]. split; [lia|]. done.
    - intros x. destruct (decide (x = q)) as [->|Hne].
      + destruct rel; [|by left]. right. rewrite Hown2r by done. split; [right; by apply Hqn|]. split; [by right|by left].
      + left. apply Hown2. by left.
    - intros x n' Hx Ho Hx'. destruct (decide (x = q)) as [->|Hne].
      + rewrite lookup_insert_ne in Hx by done. rewrite Hqh in Hx. injection Hx as <-. apply Hgq. destruct rel; [done|]. unfold own2 in Ho. congruence.
      + rewrite Hown2 in Ho by (by left). destruct Hx' as [->|Hx']; [|done]. rewrite lookup_insert in Hx. injection Hx as <-.
        destruct (iv_good _ I1 c n Hp Ho) as [G1 G2]. split; [|intros H; rewrite Hn2p in H; done].
        unfold n2. destruct n as [l|y]; cbn in G1 |- *.
        * destruct G1 as [B1 B2 B3 B4 B5]. by split.
        * destruct G1 as (B1 & B2 & B3). split; [done|]. split; [done|]. intros z n' Hz.
          destruct (Hparw2 z n' Hz) as [[-> ->]|[Hzc Hz']]; [|by apply B3].
          rewrite Hn2p. split; [congruence|]. intros Hc. apply (B3 c _ Hp) in Hc. cbn in Hc.
          pose proof (iv_addr _ I1 c _ Hp) as [Hcpos _].
          destruct (iv_node _ I1 c _ Hp) as [[E|[_ E]] _]; [cbn in E; lia|]. cbn [npar nlev] in E. rewrite Hc in E. unfold lev in E. rewrite Hp in E. cbn in E.
          injection E as E. lia.
    - intros _. split; [congruence|]. split; [done|]. split; [done|]. by rewrite Hn2p.
    - intros x n' Hx H1 H2 Hx'. destruct (decide (x = q)) as [->|Hne].
      + rewrite lookup_insert_ne in Hx by done. rewrite Hqh in Hx. injection Hx as <-. rewrite rep_ver.
        destruct Hx' as [?|Hx']; [done|]. destruct rel eqn:Er; [|exfalso; apply H2; apply Hnas2'; [done|by right]].
        rewrite Hown2r by done. destruct (Hrel eq_refl) as (_ & _ & B3 & _). by rewrite B3.
      + rewrite Hown2 by (by left). destruct Hx' as [->|Hx']; [|exfalso; apply H2; apply Hnas2'; [done|by left]].
        rewrite lookup_insert in Hx. injection Hx as <-. rewrite Hn2v. apply (iv_lock _ I1); [done|done|].
        intros H'. apply H2, Hnas2'; [done|by left].
    - intros x H1 [y H2]. assert (x <> q) by congruence. rewrite Hown2 by (by left). by apply (iv_priv _ I1 x y).
    - intros q' Hq'. apply Hnas2 in Hq' as [Hq' Hq'']. destruct (iv_nas _ I1 q' Hq') as (j & i0 & N1 & N2 & N3).
      assert (Hne : rel = true -> j <> i).
      { intros E ->. destruct (Hrel E) as [H _]. assert (q' ∈ ns) as H' by (by apply (at_nas _ _ _ A1)). rewrite H, elem_of_singleton in H'.
        destruct Hq'' as [?|?]; congruence. }
      assert (Hj : forall y, wown w1 !! y = Some j -> own2 !! y = Some j).
      { intros y E. rewrite Hown2; [done|]. destruct rel; [|by right]. left. intros ->. rewrite Hqo in E. injection E as <-. by destruct Hne. }
      assert (exists i1, <[c:=n2]> (hp w1) !! q' = Some (NInode i1)) as [i1 Hi1].
      { destruct (decide (q' = c)) as [->|]; [|rewrite lookup_insert_ne by done; by eexists]. rewrite lookup_insert.
        rewrite Hp in N2. injection N2 as E. unfold n2. rewrite E. by eexists. }
      exists j, i1. split; [by apply Hj|]. split; [done|].
      intros y n' Hy E. destruct (decide (y = c)) as [->|Hyc].
      + rewrite lookup_insert in Hy. injection Hy as <-. rewrite Hn2p in E. subst q'. rewrite Hqo in N1. injection N1 as <-.
        destruct Hq'' as [?|Er]; [done|]. apply Hj. apply (at_own _ _ _ A1), Hns. apply (at_nas _ _ _ A1). done.
      + rewrite lookup_insert_ne in Hy by done. by eapply Hj, N3.
    - intros x H1 H2 H3. by apply Hnas2 in H3 as [? _].
    - intros j q' Hj Ho. split; [|by intros H; apply Hnas2 in H as [? _]]. intros H. apply Hnas2'; [done|]. left. intros ->. congruence.
    - intros h s Hs. destruct (iv_slot _ I1 h c s Hs) as (l & E1 & E2). rewrite Hp in E1. injection E1 as ->. unfold n2. by eexists. }
  pose proof (upd_inv _ _ _ _ _ _ _ _ _ _ I1 U) as I2. pose proof (upd_guar _ _ _ _ _ _ _ _ _ _ I1 U) as G2.
  exists tt, w2. split; [by apply Hf|]. split; [done|]. split; [done|].
  apply HQ; [|eapply mono_trans; [exact M1|by eapply guar_mono]|].
  2:{ intros n' Hn'. destruct (Hparw2 c n' Hn') as [[_ ->]|[? _]]; congruence. }
  assert (Hdom : forall y, is_Some (hp w1 !! y) -> is_Some (hp w2 !! y)).
  { intros y Hy. unfold w2, hp. cbn. destruct (decide (y = c)) as [->|]; [rewrite lookup_insert; by eexists|by rewrite lookup_insert_ne]. }
  assert (Hstr : forall y n', hp w1 !! y = Some n' -> exists n'', hp w2 !! y = Some n'' /\ strip n'' = strip n').
  { intros y n' Hy. unfold w2, hp. cbn. destruct (decide (y = c)) as [->|].
    - rewrite lookup_insert. exists n2. split; [done|]. congruence.
    - rewrite lookup_insert_ne by done. by exists n'. }
  assert (Htp : forall x, x ∈ tp -> forall n', hp w2 !! x = Some n' -> npar n' = 0%N -> root (wm w2) = x).
  { intros x Hx n' Hn' Hz. destruct (Hparw2 x n' Hn') as [[-> ->]|[Hxc Hn1]]; [congruence|].
    destruct (at_tp _ _ _ A1 x Hx) as [_ C]. by apply (C n'). }
  assert (Hzs : forall x, x ∈ zs -> x <> c -> forall n', hp w2 !! x = Some n' -> npar n' = 0%N).
  { intros x Hx Hxc n' Hn'. destruct (Hparw2 x n' Hn') as [[-> ->]|[_ Hn1]]; [done|].
    destruct (at_zs _ _ _ A1 x Hx) as [_ C]. by apply (C n'). }
  destruct rel.
  - destruct (Hrel eq_refl) as (Ens & Etp & _). specialize (Hqn eq_refl).
    assert (Hkeep : forall x, x <> q -> wown w1 !! x = Some i -> wown w2 !! x = Some i).
    { intros x Hx E. cbn. rewrite Hown2; [done|by left]. }
    split; cbn [Conc.nl Conc.hs Conc.un Conc.ns Conc.pr Conc.pe Conc.tp Conc.zs]; try (exact I2 || apply A1).
    + intros x. cbn. unfold own2. destruct (decide (x = q)) as [->|]; [rewrite !lookup_delete; split; [done|by intros [? ?]]|].
      rewrite !lookup_delete_ne by done. apply A1.
    + intros x nx Hx. destruct (decide (x = q)) as [->|]; [by rewrite lookup_delete in Hx|]. rewrite lookup_delete_ne in Hx by done.
      destruct (at_nl _ _ _ A1 x nx Hx) as (n' & H1 & H2). destruct (Hstr x n' H1) as (n'' & H3 & H4). exists n''. split; [done|congruence].
    + intros x. cbn. unfold own2, nas2. rewrite !elem_of_difference, !elem_of_singleton. destruct (decide (x = q)) as [->|]; [tauto|].
      rewrite lookup_delete_ne by done. pose proof (at_nas _ _ _ A1 x) as E. cbn in E. tauto.
    + intros x Hx. destruct (at_pr _ _ _ A1 x Hx) as [H1 H2]. split; [|done]. apply Hkeep; [|done]. intros ->. done.
    + intros x l Hx. destruct (decide (x = q)) as [->|Hne]; [by rewrite lookup_delete in Hx|]. rewrite lookup_delete_ne in Hx by done.
      destruct (Hpareq x l Hx) as (H1 & H2 & H3). split; [by apply Hkeep|]. split; [done|auto].
    + intros x Hx. rewrite elem_of_difference, elem_of_singleton in Hx. destruct Hx as [Hx Hne].
      split; [apply Hkeep; [done|]; by apply (at_tp _ _ _ A1)|by apply Htp].
    + intros x Hx. rewrite !elem_of_difference, !elem_of_singleton in Hx. destruct Hx as [[Hx Hne] Hne'].
      split; [apply Hkeep; [done|]; by apply (at_zs _ _ _ A1)|by apply Hzs].
  - split; cbn [Conc.nl Conc.hs Conc.un Conc.ns Conc.pr Conc.pe Conc.tp Conc.zs]; try (exact I2 || apply A1).
    + intros x nx Hx.
      destruct (at_nl _ _ _ A1 x nx Hx) as (n' & H1 & H2). destruct (Hstr x n' H1) as (n'' & H3 & H4). exists n''. split; [done|congruence].
    + intros x l Hx. destruct (Hpareq x l Hx) as (H1 & H2 & H3). split; [done|]. split; [done|auto].
    + intros x Hx. split; [by apply (at_tp _ _ _ A1)|by apply Htp].
    + intros x Hx. rewrite !elem_of_difference, !elem_of_singleton in Hx. destruct Hx as [Hx Hne].
      split; [by apply (at_zs _ _ _ A1)|by apply Hzs].
Qed.
Lemma setpar_leaf m c q n : heap m !! c = Some n -> nlev n = 0 ->
  match heap m !! c with Some (NLeaf l) => Ok (tt, mwith_heap (<[c := NLeaf (with_parent q l)]> (heap m)) m) | _ => Er UB end =
  Ok (tt, mwith_heap (<[c := setpar q n]> (heap m)) m).
Proof. intros ->. by destruct n. Qed.
