(** Concurrent executions: values, allocation, the root pointer, retirement. *)
From Verif Require Import Base Perm PermFacts PermList PermLaws SpecPerm Key SpecKey KeyFacts Prog Version VersionFacts Mem Tree
  SpecTree TreeState SpecLin Suffix SpecSuffix SuffixFacts Conc ConcStep ConcRules ConcPar.

Local Ltac nd := intros [? ?]; congruence.
(** ** value slots *)
Definition vmove (i : nat) (p : N) (s : nat) (x o : N) (vl : gmap N vplace) : gmap N vplace :=
  let v1 := if decide (x = 0%N) then vl else <[x := VSlot p s]> vl in
  if decide (o = 0%N) then v1 else <[o := VHold i]> v1.
Definition hmove (x o : N) (hs : gset N) : gset N := (hs ∖ {[x]}) ∪ (if decide (o = 0%N) then ∅ else {[o]}).

(** the leaf with another pointer: number 24 is its suffix bag *)
Definition set_ptr (s : nat) (x : N) (l : leaf) : leaf :=
  if Nat.ltb s 24 then with_val (<[s := x]> (l_val l)) l else with_ksuf x l.
Lemma lptrs_set s x l : length (l_val l) = 24 -> s <= 24 -> lptrs (set_ptr s x l) = <[s := x]> (lptrs l).
Proof.
  intros E H. unfold set_ptr, lptrs. destruct (Nat.ltb_spec s 24); cbn.
  - rewrite insert_app_l by lia. done.
  - assert (s = length (l_val l) + 0) as -> by lia. by rewrite insert_app_r.
Qed.
Lemma set_ptr_rep pv pa s x l : with_prev pv (with_parent pa (set_ptr s x l)) = set_ptr s x (with_prev pv (with_parent pa l)).
Proof. unfold set_ptr. by destruct (Nat.ltb s 24). Qed.
Lemma cwp_swapg {A} i nl hs un ns pr pe tp zs w p l s x o (r : A) f (Q : A -> world -> Prop) :
  At i (L nl hs un ns pr pe tp zs) w -> nl !! p = Some (NLeaf l) -> lptrs l !! s = Some o -> x = 0%N \/ x ∈ hs ->
  (x <> 0%N -> if Nat.ltb s 24 then is_Some (wtag w !! x) else wbh w !! x = Some p) ->
  let l2 := set_ptr s x l in
  (forall m pv pa, heap m !! p = Some (rep pv pa (NLeaf l)) -> f m = Ok (r, mwith_heap (<[p := rep pv pa (NLeaf l2)]> (heap m)) m)) ->
  (forall w1, Rely i w w1 -> At i (L nl hs un ns pr pe tp zs) w1 -> is_frozen (l_perm l) = false ->
     forall s', s' ∈ actv l -> s' = s \/ s = 24 -> slot_ok w1 l2 s') ->
  (forall w', At i (L (<[p := NLeaf l2]> nl) (hmove x o hs) un ns pr pe tp zs) w' -> Mono w w' -> Q r w') ->
  cwp i (atomic f) w Q.
Proof.
  intros A0 Hn Ho Hx Hkd l2 Hf HS HQ. apply cwp_step. intros w1 R1 I1. pose proof (rl_mono _ _ _ R1) as M1.
  pose proof (at_rely _ _ _ _ R1 I1 A0) as A1. specialize (HS w1 R1 A1).
  destruct (at_here _ _ _ _ _ A1 Hn) as (Hown & pv & pa & Hp). specialize (Hf (wm w1) pv pa Hp).
  set (n1 := rep pv pa (NLeaf l)) in *. set (n2 := rep pv pa (NLeaf l2)) in *. set (vl2 := vmove i p s x o (wvl w1)).
  set (w2 := upd w1 p n2 (wown w1) (wpub w1) (wnas w1) (wseq w1) vl2).
  destruct (iv_node _ I1 p _ Hp) as [Hok1 Hok2]. cbn in Hok2.
  assert (Hx' : x <> 0%N -> wvl w1 !! x = Some (VHold i)).
  { intros Hx0. destruct Hx as [?|Hx]; [done|]. by apply (at_hold _ _ _ A1). }
  assert (Ho' : o <> 0%N -> wvl w1 !! o = Some (VSlot p s)) by (by apply (lo_val _ _ _ Hok2)).
  assert (Hxo : x <> 0%N -> o <> 0%N -> x <> o) by (intros H1 H2 ->; rewrite Hx' in Ho' by done; by specialize (Ho' H2)).
  assert (Hlk : forall h, vl2 !! h = if decide (h <> 0%N /\ h = o) then Some (VHold i) else
     if decide (h <> 0%N /\ h = x) then Some (VSlot p s) else wvl w1 !! h).
  { intros h. unfold vl2, vmove. clear -Hxo. repeat case_decide; repeat match goal with H : _ /\ _ |- _ => destruct H end; subst;
      rewrite ?lookup_insert; try done; try tauto; try (rewrite ?lookup_insert_ne by naive_solver; rewrite ?lookup_insert; done).
    all: try (by destruct Hxo). all: rewrite ?lookup_insert_ne by naive_solver; rewrite ?lookup_insert; done. }
  clearbody vl2. pose proof (lo_len _ _ _ Hok2) as (Hlen1 & Hlen2 & Hlen). cbn in Hlen1, Hlen2, Hlen.
  assert (Hs : s < 25) by (apply lookup_lt_Some in Ho; by rewrite lptrs_len in Ho).
  assert (Hlp : lptrs l2 = <[s := x]> (lptrs l)) by (apply lptrs_set; [done|lia]).
  assert (Hpl : s < length (lptrs l)) by (by rewrite lptrs_len).
  assert (Hel : l_perm l2 = l_perm l /\ l_ikey l2 = l_ikey l /\ l_klx l2 = l_klx l /\ l_ver l2 = l_ver l /\ l_next l2 = l_next l /\ l_parent l2 = l_parent l /\ l_prev l2 = l_prev l /\ length (l_val l2) = 24).
  { unfold l2, set_ptr. destruct (Nat.ltb s 24); cbn; rewrite ?insert_length; done. }
  destruct Hel as (Ep & Ek & Ekx & Ev & En & Epa & Epv & Evl).
  assert (Hvl : forall s' h, l_val l2 !! s' = Some h -> l_val l !! s' = Some h \/ s < 24 /\ h = x).
  { intros s' h. unfold l2, set_ptr. destruct (Nat.ltb_spec s 24); [|by left]. cbn. intros E.
    apply list_lookup_insert_Some in E as [(_ & -> & _)|[_ ?]]; [by right|by left]. }
  assert (Hsl : forall s', s' <> s -> s <> 24 -> l_val l2 !! s' = l_val l !! s' /\ l_ksuf l2 = l_ksuf l).
  { intros s' H1 H2. unfold l2, set_ptr. destruct (Nat.ltb_spec s 24); [|lia]. cbn. by rewrite list_lookup_insert_ne. }
  assert (Hks : l_ksuf l2 = l_ksuf l /\ s < 24 \/ l_ksuf l2 = x /\ s = 24).
  { unfold l2, set_ptr. destruct (Nat.ltb_spec s 24); cbn; [by left|right; split; [done|lia]]. }
  clearbody l2.
  assert (U : Upd i w1 p n1 n2 (wown w1) (wpub w1) (wnas w1) (wseq w1) vl2).
  { split; try done.
    - cbn [rep nlev npar]. split; [eapply ptr_ok_upd; cbn in *; eauto|]. destruct Hok2 as [B1 B2 B3 B4 B5 B6 B7 B8 B9 B10 B11].
      cbn [l_ksuf with_prev with_parent l_klx l_next l_perm l_ver l_val] in B2, B3, B4, B5, B6, B7.
      split; cbn [l_ksuf with_prev with_parent l_ikey l_klx l_next l_perm l_ver l_val]; rewrite ?Ek, ?Ekx, ?En, ?Ev, ?Ep, ?Epa; try done.
      + cbn. intros Hz. destruct Hks as [[E _]|[E E24]]; rewrite E in *; [by apply B3|]. apply (mo_home _ _ M1).
        specialize (Hkd Hz). by rewrite (proj2 (Nat.ltb_ge s 24)) in Hkd by lia.
      + by eapply ptr_ok_upd.
      + intros s' h Hs' Hh. change (lptrs l2 !! s' = Some h) in Hs'. rewrite Hlp in Hs'. cbn [wvl upd]. rewrite Hlk. destruct (decide (s' = s)) as [->|Hne].
        * rewrite list_lookup_insert in Hs' by done. injection Hs' as ->. 
          rewrite decide_False by (intros [_ ->]; by apply Hxo). by rewrite decide_True.
        * rewrite list_lookup_insert_ne in Hs' by done. pose proof (B8 s' h Hs' Hh) as E. rewrite decide_False.
          2:{ intros [_ ->]. rewrite Ho' in E by done. congruence. }
          rewrite decide_False; [done|]. intros [_ ->]. rewrite Hx' in E by done. done.
      + intros s' h Hs' Hh. destruct (Hvl s' h Hs') as [Hs''|[H1 ->]]; [by apply (B9 s')|]. cbn.
        specialize (Hkd Hh). rewrite (proj2 (Nat.ltb_lt s 24)) in Hkd by lia. destruct Hkd as [y Hy]. exists y. by apply (mo_tag _ _ M1).
      + unfold spl. cbn. rewrite Ev. exact B10.
      + unfold actv. cbn. rewrite Ep. intros Hfr s' Hs'. 
        assert (slot_ok w1 l2 s') as Hso.
        { destruct (decide (s' = s \/ s = 24)) as [|Hne]; [by apply HS|]. destruct (Hsl s') as [E1 E2]; [tauto|tauto|].
          eapply (slot_ok_eq w1); [..|by apply (B11 Hfr)]; cbn; try done; by rewrite ?Ek, ?Ekx. }
        eapply (slot_ok_eq w1); [..|exact Hso]; done.
    - by left.
    - intros l0 El. unfold n1 in El. cbn in El. injection El as <-. eexists. split; [reflexivity|]. split; [lia|]. unfold spl, actv. cbn. rewrite Ep, Ek, Ekx, Ev. done.
    - by left.
    - intros y n' Hy Hyo [->|Hy']; [congruence|done].
    - intros j Hj Hj'. congruence.
    - intros y n' Hy H1 H2 [->|H3]; [|done]. rewrite lookup_insert in Hy. injection Hy as <-. unfold n2. rewrite rep_ver. cbn [nver]. rewrite Ev. apply (iv_lock _ I1 p n1); done.
    - intros y H1 [z H2]. by apply (iv_priv _ I1 y z).
    - intros q Hq. destruct (iv_nas _ I1 q Hq) as (j & i0 & N1 & N2 & N3). exists j, i0.
      assert (q <> p) as Hne by (intros ->; by rewrite Hp in N2). rewrite lookup_insert_ne by done. split; [done|]. split; [done|]. intros c n' Hc E.
      destruct (decide (c = p)) as [->|Hcx].
      + rewrite lookup_insert in Hc. injection Hc as <-. by apply (N3 p n1).
      + rewrite lookup_insert_ne in Hc by done. by eapply N3.
    - intros Hr. destruct (iv_root _ I1) as (nr & S1 & S2 & S3 & S4). rewrite Hr, Hp in S1. injection S1 as <-. unfold n2. rewrite rep_ver, rep_par. cbn [nver]. rewrite Ev. done.
    - intros h. rewrite Hlk. destruct (decide (h <> 0%N /\ h = o)) as [[H1 ->]|]; [rewrite Ho' by done; split; by eexists|].
      destruct (decide (h <> 0%N /\ h = x)) as [[H1 ->]|]; [rewrite Hx' by done; split; by eexists|done].
    - intros h y s' Hy. rewrite Hlk. destruct (decide (h <> 0%N /\ h = o)) as [[H1 ->]|]; [rewrite Ho' by done; split; congruence|].
      destruct (decide (h <> 0%N /\ h = x)) as [[H1 ->]|]; [rewrite Hx' by done; split; congruence|done].
    - intros h B. rewrite Hlk. destruct (decide (h <> 0%N /\ h = o)) as [[H1 ->]|]; [rewrite Ho' by done; split; congruence|].
      destruct (decide (h <> 0%N /\ h = x)) as [[H1 ->]|]; [rewrite Hx' by done; split; congruence|done].
    - intros h s'. rewrite Hlk. destruct (decide (h <> 0%N /\ h = o)) as [[H1 ->]|E1]; [done|].
      destruct (decide (h <> 0%N /\ h = x)) as [[H1 ->]|E2].
      + intros [= <-]. eexists. split; [reflexivity|]. change (lptrs l2 !! s = Some x). rewrite Hlp. by rewrite list_lookup_insert.
      + intros E. destruct (iv_slot _ I1 h p s' E) as (l0 & F1 & F2). rewrite Hp in F1. unfold n1 in F1. cbn in F1. injection F1 as <-. change (lptrs l !! s' = Some h) in F2.
        eexists. split; [reflexivity|]. change (lptrs l2 !! s' = Some h). rewrite Hlp. rewrite list_lookup_insert_ne; [done|]. intros ->. rewrite Ho in F2. injection F2 as ->.
        apply E1. split; [|done]. by apply (iv_hdl _ I1 h (VSlot p s')).
    - intros j h Hj. rewrite Hlk. destruct (decide (h <> 0%N /\ h = o)) as [[H1 ->]|]; [rewrite Ho' by done; split; congruence|].
      destruct (decide (h <> 0%N /\ h = x)) as [[H1 ->]|]; [rewrite Hx' by done; split; congruence|done]. }
  pose proof (upd_inv _ _ _ _ _ _ _ _ _ _ I1 U) as I2. pose proof (upd_guar _ _ _ _ _ _ _ _ _ _ I1 U) as G2.
  exists r, w2. split; [done|]. split; [done|]. split; [done|].
  apply HQ; [|eapply mono_trans; [exact M1|by eapply guar_mono]].
  assert (Hpar : forall c n', hp w2 !! c = Some n' -> exists n0, hp w1 !! c = Some n0 /\ npar n' = npar n0).
  { intros c n' Hc'. unfold w2, hp in Hc'. cbn in Hc'. destruct (decide (c = p)) as [->|Hne].
    - rewrite lookup_insert in Hc'. injection Hc' as <-. by exists n1.
    - rewrite lookup_insert_ne in Hc' by done. by exists n'. }
  split; cbn [Conc.nl Conc.hs Conc.un Conc.ns Conc.pr Conc.pe Conc.tp Conc.zs]; try (exact I2 || apply A1).
  - intros y. cbn. rewrite (at_own _ _ _ A1). cbn. destruct (decide (y = p)) as [->|]; [rewrite lookup_insert, Hn|by rewrite lookup_insert_ne].
    split; intros _; by eexists.
  - intros y nx. unfold w2, hp. cbn. destruct (decide (y = p)) as [->|].
    + rewrite !lookup_insert. intros [= <-]. by eexists.
    + rewrite !lookup_insert_ne by done. apply A1.
  - intros h. cbn [wvl upd w2]. rewrite Hlk. unfold hmove. rewrite elem_of_union, elem_of_difference, elem_of_singleton.
    assert (h ∈ hs <-> wvl w1 !! h = Some (VHold i)) as Eh by (symmetry; apply (at_hold _ _ _ A1)).
    destruct (decide (o = 0%N)) as [->|Hoz].
    + rewrite decide_False by nd. rewrite elem_of_empty. destruct (decide (h <> 0%N /\ h = x)) as [[H1 ->]|H1]; [split; [done|tauto]|].
      rewrite Eh. split; [|tauto]. intros E. left. split; [done|]. intros ->. apply H1. split; [|done]. by apply (iv_hdl _ I1 x (VHold i)).
    + rewrite elem_of_singleton. destruct (decide (h <> 0%N /\ h = o)) as [[H1 ->]|H1]; [tauto|].
      destruct (decide (h <> 0%N /\ h = x)) as [[H2 ->]|H2]; [split; [done|tauto]|].
      rewrite Eh. split.
      * intros E. left. split; [done|]. intros ->. apply H2. split; [|done]. by apply (iv_hdl _ I1 x (VHold i)).
      * intros [[E _]| ->]; [done|]. tauto.
  - intros q lq Hq. destruct (at_pe _ _ _ A1 q lq Hq) as (H1 & H2 & H3). split; [done|]. split.
    + intros c n' Hc. destruct (Hpar c n' Hc) as (n0 & Hc0 & ->). by apply H2.
    + intros c Hc. destruct (H3 c Hc) as [n0 Hn0]. unfold w2, hp. cbn. destruct (decide (c = p)) as [->|];
        [rewrite lookup_insert; by eexists|rewrite lookup_insert_ne by done; by eexists].
  - intros q Hq. destruct (at_tp _ _ _ A1 q Hq) as [H1 H2]. split; [done|]. intros n' Hc Hz.
    destruct (Hpar q n' Hc) as (n0 & Hc0 & E). rewrite E in Hz. by apply (H2 n0).
  - intros q Hq. destruct (at_zs _ _ _ A1 q Hq) as [H1 H2]. split; [done|]. intros n' Hc.
    destruct (Hpar q n' Hc) as (n0 & Hc0 & ->). by apply H2.
Qed.
Lemma cwp_swap {A} i nl hs un ns pr pe tp zs w p l s x o (r : A) f (Q : A -> world -> Prop) :
  At i (L nl hs un ns pr pe tp zs) w -> nl !! p = Some (NLeaf l) -> l_val l !! s = Some o -> x = 0%N \/ x ∈ hs /\ is_Some (wtag w !! x) ->
  let l2 := with_val (<[s := x]> (l_val l)) l in
  (forall m pv pa, heap m !! p = Some (rep pv pa (NLeaf l)) -> f m = Ok (r, mwith_heap (<[p := rep pv pa (NLeaf l2)]> (heap m)) m)) ->
  (forall w1, Mono w w1 -> At i (L nl hs un ns pr pe tp zs) w1 -> is_frozen (l_perm l) = false -> s ∈ actv l -> slot_ok w1 l2 s) ->
  (forall w', At i (L (<[p := NLeaf l2]> nl) (hmove x o hs) un ns pr pe tp zs) w' -> Mono w w' -> Q r w') ->
  cwp i (atomic f) w Q.
Proof.
  intros A0 Hn Ho Hx l2 Hf HS HQ.
  assert (Hlen : length (l_val l) = 24).
  { destruct (at_here _ _ _ _ _ A0 Hn) as (Hown & pv & pa & Hp). destruct (iv_node _ (at_inv _ _ _ A0) p _ Hp) as [_ Hok2]. apply (lo_len _ _ _ Hok2). }
  assert (Hs : s < 24) by (apply lookup_lt_Some in Ho; lia).
  assert (El : set_ptr s x l = l2) by (unfold set_ptr; by rewrite (proj2 (Nat.ltb_lt s 24))).
  eapply (cwp_swapg i nl hs un ns pr pe tp zs w p l s x o r f); [done|done|by apply lptrs_val| | |rewrite El; exact Hf| |].
  - destruct Hx as [?|[? _]]; [by left|by right].
  - rewrite (proj2 (Nat.ltb_lt s 24)) by done. intros Hz. by destruct Hx as [?|[_ ?]].
  - rewrite El. intros w1 R1 A1 Hfr s' Hs' [->|?]; [|lia]. apply HS; [apply R1|done..].
  - rewrite El. exact HQ.
Qed.

(** ** steps that leave the nodes alone *)
Lemma node_ok_aux w w' p n : hp w' = hp w -> (forall x, x ∈ wpub w -> x ∈ wpub w') -> wseq w' = wseq w ->
  (forall h q s, wvl w !! h = Some (VSlot q s) -> wvl w' !! h = Some (VSlot q s)) ->
  (forall h x, wtag w !! h = Some x -> wtag w' !! h = Some x) ->
  (forall b q, wbh w !! b = Some q -> wbh w' !! b = Some q) ->
  (forall b bg, bags (wm w) !! b = Some bg -> bags (wm w') !! b = Some bg) ->
  node_ok w p n -> node_ok w' p n.
Proof.
  intros E1 E2 E3 Hv Ht Hh Hb. assert (Hp : forall k x, ptr_ok w k x -> ptr_ok w' k x).
  { intros k x [->|[H1 H2]]; [by left|]. right. split; [by apply E2|]. unfold lev. by rewrite E1. }
  intros [H1 H2]. split; [by apply Hp|]. destruct n as [l|x].
  - destruct H2 as [B1 B2 B3 B4 B5 B6 B7 B8 B9 B10 B11]. split; try done.
    + intros Hz. by apply Hh, B3.
    + by apply Hp.
    + by rewrite E3.
    + intros s h H H'. by apply Hv, B8.
    + intros s h H H'. destruct (B9 s h H H') as [y Hy]. exists y. by apply Ht.
    + intros Hs s Hs'. destruct (B11 Hs s Hs') as (k & v & h & D1 & D2 & D3 & D4 & D5).
      exists k, v, h. split; [done|]. split; [done|]. split; [done|]. split; [by apply Ht|]. intros Hk. specialize (D5 Hk).
      unfold sfx in *. destruct (bags (wm w) !! l_ksuf l) as [bg|] eqn:Eb; [|done]. by rewrite (Hb _ _ Eb).
  - destruct H2 as [B1 B2 B3 B4]. split; try done. intros c Hc. by apply Hp, B4.
Qed.
Lemma node_good_aux w w' p n : hp w' = hp w -> root (wm w') = root (wm w) -> node_good w p n -> node_good w' p n.
Proof.
  intros E1 E2 [H1 H2]. split; [|by rewrite E2]. destruct n as [l|x]; [done|]. destruct H1 as (B1 & B2 & B3). split; [done|]. split; [done|].
  intros c n. rewrite E1. apply B3.
Qed.
Lemma aux_guar i w w2 : Inv w -> hp w2 = hp w -> wown w2 = wown w -> wpub w2 = wpub w -> wnas w2 = wnas w -> wseq w2 = wseq w ->
  root (wm w2) = root (wm w) -> (forall h x, wtag w !! h = Some x -> wtag w2 !! h = Some x) ->
  (forall b q, wbh w !! b = Some q -> wbh w2 !! b = Some q) ->
  (forall b q, wbh w !! b = Some q -> bags (wm w2) !! b = bags (wm w) !! b) ->
  wcalled w2 = wcalled w -> wclk w2 = (wclk w + 1)%N -> wrun w2 = wrun w ->
  (forall h, is_Some (wtag w2 !! h) -> is_Some (wtag w !! h) \/ (vals (wm w) !! h = None /\ is_Some (vals (wm w2) !! h))) ->
  (forall j h, j <> i -> wvl w !! h = Some (VHold j) <-> wvl w2 !! h = Some (VHold j)) ->
  (forall j h, j ∈ wrun w -> guarded j w h -> guarded j w2 h) ->
  (forall j p, j <> i -> wunt w !! p = Some j <-> wunt w2 !! p = Some j) ->
  wblk w2 = replicate (length (retired (wm w2)) - length (wblk w)) (wrun w) ++ wblk w -> Guar i w w2.
Proof.
  intros I E1 E2 E3 E4 E5 E6 Ht Hbh Hbg E7 E8 E9 Htg Hh Hg Hu Hb. split; try done. intros j Hj.
  split; rewrite ?E1, ?E2, ?E3, ?E4, ?E6, ?E9; try done.
  - split; rewrite ?E1, ?E2, ?E3, ?E4, ?E7; try done.
    + intros p n. unfold lev. by rewrite E1.
    + rewrite E8. lia.
    + intros b p H H'. by rewrite <- (Hbg b p).
    + intros. congruence.
    + intros p l H. exists l. split; [done|]. rewrite E5, E8. split; [lia|]. done.
    + intros b p bg bg' l l' H H1 H2. rewrite (Hbg b p) in H2 by done. congruence.
  - intros. congruence.
  - intros. congruence.
  - intros h. by apply Hh.
  - intros H h. by apply Hg.
  - intros p. by apply Hu.
  - intros b p bg bg' H _ H1 H2. rewrite (Hbg b p) in H2 by done. congruence.
Qed.
Lemma bnd_mono w w' : (forall h x, wtag w !! h = Some x -> wtag w' !! h = Some x) -> (bnd w <= bnd w')%N.
Proof.
  intros H. assert (size (wtag w) <= size (wtag w')) as Hs.
  { rewrite <- !size_dom. apply subseteq_size. intros x. rewrite !elem_of_dom. intros [y Hy]. exists y. by apply H. }
  unfold bnd. lia.
Qed.
Lemma fresh_bag w : Inv w -> wbh w !! nxt (wm w) = None /\ bags (wm w) !! nxt (wm w) = None.
Proof.
  intros I. assert (wbh w !! nxt (wm w) = None) as E1.
  { destruct (wbh w !! nxt (wm w)) as [x|] eqn:E; [|done]. apply (iv_bnew _ I) in E as [E _]. lia. }
  split; [done|]. destruct (bags (wm w) !! nxt (wm w)) as [x|] eqn:E; [|done]. destruct (iv_bags _ I _ _ E) as [[p Hp] _]. congruence.
Qed.
Lemma fresh_tag w : Inv w -> wtag w !! nxt (wm w) = None /\ vals (wm w) !! nxt (wm w) = None /\ wvl w !! nxt (wm w) = None /\ hp w !! nxt (wm w) = None.
Proof.
  intros I. assert (wtag w !! nxt (wm w) = None) as E1.
  { destruct (wtag w !! nxt (wm w)) as [x|] eqn:E; [|done]. apply (iv_fresh _ I) in E. lia. }
  assert (vals (wm w) !! nxt (wm w) = None) as E2.
  { destruct (vals (wm w) !! nxt (wm w)) as [x|] eqn:E; [|done]. destruct (iv_tag _ I _ _ E) as [k Hk]. congruence. }
  split; [done|]. split; [done|]. split.
  - destruct (wvl w !! nxt (wm w)) as [x|] eqn:E; [|done]. destruct (proj1 (iv_vals _ I (nxt (wm w)))) as [[y Hy]|[y Hy]]; [by eexists|congruence|].
    destruct (fresh_bag _ I). congruence.
  - destruct (hp w !! nxt (wm w)) as [x|] eqn:E; [|done]. apply (iv_addr _ I) in E. lia.
Qed.
Lemma even_add2 n : N.even n = true -> N.even (n + 2) = true.
Proof. intros H. by rewrite N.even_add, H. Qed.

(** a new value, made for the insertion of [v] under [kb] *)
Lemma cwp_new_val i nl hs un ns pr pe tp zs w kb v (Q : N -> world -> Prop) :
  At i (L nl hs un ns pr pe tp zs) w -> (kb, v) ∈ wcalled w ->
  (forall h w', At i (L nl ({[h]} ∪ hs) un ns pr pe tp zs) w' -> Mono w w' -> wtag w' !! h = Some (kb, v) -> h <> 0%N -> h ∉ hs ->
     (forall b bg, bags (wm w') !! b = Some bg -> exists mm, bag_inv 24 (bnd w' - 256) bg mm) -> Q h w') ->
  cwp i (output_to_raw v) w Q.
Proof.
  intros A0 Hc HQ. unfold output_to_raw. apply cwp_step. intros w1 R1 I1. pose proof (rl_mono _ _ _ R1) as M1.
  pose proof (at_rely _ _ _ _ R1 I1 A0) as A1. apply (mo_called _ _ M1) in Hc. destruct (fresh_tag _ I1) as (F1 & F2 & F3 & F4).
  set (h := nxt (wm w1)) in *.
  set (w2 := mk_w (mwith_nxt (h + 2) (mwith_vals (<[h := v]> (vals (wm w1))) (wm w1))) (wown w1) (wpub w1) (wnas w1) (wseq w1)
     (<[h := VHold i]> (wvl w1)) (<[h := (kb, v)]> (wtag w1)) (wbh w1) (wunt w1) (wcalled w1) (wclk w1 + 1) (wrun w1) (wblk w1)).
  pose proof (iv_nxt _ I1) as [Hnx1 Hnx2]. fold h in Hnx1, Hnx2.
  assert (Ht : forall h' x, wtag w1 !! h' = Some x -> wtag w2 !! h' = Some x).
  { intros h' x E. cbn. rewrite lookup_insert_ne; [done|congruence]. }
  assert (Hv : forall h' x, wvl w1 !! h' = Some x -> wvl w2 !! h' = Some x).
  { intros h' x E. cbn. rewrite lookup_insert_ne; [done|congruence]. }
  assert (Hv' : forall h' x, wvl w2 !! h' = Some x -> h' = h /\ x = VHold i \/ h' <> h /\ wvl w1 !! h' = Some x).
  { intros h' x E. cbn in E. destruct (decide (h' = h)) as [->|]; [rewrite lookup_insert in E; left; split; congruence|].
    rewrite lookup_insert_ne in E by done. by right. }
  assert (Hbn : bnd w2 = (bnd w1 + 256)%N).
  { unfold bnd. cbn [wtag w2]. rewrite map_size_insert_None by done. lia. }
  assert (I2 : Inv w2).
  { split; try (exact (iv_own _ I1) || exact (iv_pub _ I1) || exact (iv_lock _ I1) || exact (iv_priv _ I1) || exact (iv_nas _ I1) || exact (iv_root _ I1) || exact (iv_keys _ I1) || exact (iv_same _ I1) || exact (iv_trk _ I1)).
    - cbn. split; [lia|by apply even_add2].
    - intros p n H. destruct (iv_addr _ I1 p n H) as [H1 H2]. fold h in H1. split; [|done]. unfold w2. cbn [wm nxt mwith_nxt]. lia.
    - intros p n H. apply (node_ok_aux w1); try done; [|by apply I1]. intros h' q s E. by apply Hv.
    - intros p n H Ho. apply (node_good_aux w1); try done. by apply (iv_good _ I1).
    - intros h'. cbn. destruct (decide (h' = h)) as [->|]; [rewrite !lookup_insert; split; [left; by eexists|by eexists]|].
      rewrite !lookup_insert_ne by done. apply I1.
    - intros h' x E. destruct (Hv' _ _ E) as [[-> _]|[_ E']]; [lia|]. by apply (iv_hdl _ I1 h' x).
    - intros h' v'. cbn. destruct (decide (h' = h)) as [->|].
      + rewrite !lookup_insert. intros [= <-]. by eexists.
      + rewrite !lookup_insert_ne by done. apply I1.
    - intros h' x. cbn [wtag w2 wm nxt mwith_nxt]. destruct (decide (h' = h)) as [->|]; [lia|].
      rewrite lookup_insert_ne by done. intros E. pose proof (iv_fresh _ I1 h' x E) as E'. fold h in E'. lia.
    - intros h' x. cbn. destruct (decide (h' = h)) as [->|]; [rewrite lookup_insert; by intros [= <-]|].
      rewrite lookup_insert_ne by done. apply I1.
    - intros h' p s E. destruct (Hv' _ _ E) as [[_ ?]|[_ E']]; [done|]. by apply (iv_slot _ I1 h').
    - destruct (iv_ret _ I1) as (B1 & B2 & B3 & B4). split; [done|]. split; [done|]. split.
      { intros g Hg. specialize (B3 g Hg). destruct g as [x|x]; cbn in *; [|done]. destruct B3 as [y Hy]. exists y. by apply Ht. }
      intros h' B. etrans; [|apply B4]. split.
      + intros E. destruct (Hv' _ _ E) as [[_ ?]|[_ E']]; done.
      + apply Hv.
    - intros b bg Hb. destruct (iv_bags _ I1 b bg Hb) as [C1 [mm C2]]. split; [done|]. exists mm. eapply inv_mono; [exact C2|]. lia.
    - intros b q Hb. destruct (iv_bnew _ I1 b q Hb) as [C1 C2]. fold h in C1. cbn. split; [lia|]. rewrite lookup_insert_ne; [done|lia]. }
  assert (G2 : Guar i w1 w2).
  { apply aux_guar; try done.
    - intros h' [x Hx]. cbn in Hx |- *. destruct (decide (h' = h)) as [->|]; [right; rewrite lookup_insert; split; [done|by eexists]|].
      left. rewrite lookup_insert_ne in Hx by done. by eexists.
    - intros j h' Hj. split; [apply Hv|]. intros E. destruct (Hv' _ _ E) as [[_ ?]|[_ E']]; congruence.
    - intros j h' _. unfold guarded. destruct (wvl w1 !! h') as [x|] eqn:E; [|done]. by rewrite (Hv _ _ E).
    - cbn. destruct (iv_ret _ I1) as (_ & -> & _). by rewrite Nat.sub_diag. }
  exists h, w2. split; [done|]. split; [done|]. split; [done|].
  apply HQ; [|eapply mono_trans; [exact M1|by eapply guar_mono]|cbn; by rewrite lookup_insert|lia| |].
  2:{ intros H. apply (at_hold _ _ _ A1) in H. congruence. }
  2:{ intros b bg Hb. destruct (iv_bags _ I1 b bg Hb) as [_ [mm C2]]. exists mm. eapply inv_mono; [exact C2|]. lia. }
  split; cbn [Conc.nl Conc.hs Conc.un Conc.ns Conc.pr Conc.pe Conc.tp Conc.zs]; try (exact I2 || apply A1).
  intros h'. rewrite elem_of_union, elem_of_singleton. rewrite <- (at_hold _ _ _ A1 h'). split.
  - intros E. destruct (Hv' _ _ E) as [[? _]|[_ E']]; [by left|by right].
  - intros [->|E]; [cbn; by rewrite lookup_insert|by apply Hv].
Qed.

(** a new bag for leaf [p] *)
Lemma cwp_alloc_bag i nl hs un ns pr pe tp zs w p bg mm (Q : N -> world -> Prop) :
  At i (L nl hs un ns pr pe tp zs) w -> bag_inv 24 (bnd w) bg mm ->
  (forall b w', At i (L nl ({[b]} ∪ hs) un ns pr pe tp zs) w' -> Mono w w' -> wbh w' !! b = Some p -> bags (wm w') !! b = Some bg -> b <> 0%N -> b ∉ hs -> Q b w') ->
  cwp i (alloc_bag bg) w Q.
Proof.
  intros A0 Hc HQ. unfold alloc_bag. apply cwp_step. intros w1 R1 I1. pose proof (rl_mono _ _ _ R1) as M1.
  pose proof (at_rely _ _ _ _ R1 I1 A0) as A1. destruct (fresh_tag _ I1) as (F1 & F2 & F3 & F4). destruct (fresh_bag _ I1) as (F5 & F6).
  pose proof (bnd_mono w w1 (mo_tag _ _ M1)) as Hbm. 
  set (h := nxt (wm w1)) in *.
  set (w2 := mk_w (mwith_nxt (h + 2) (mwith_bags (<[h := bg]> (bags (wm w1))) (wm w1))) (wown w1) (wpub w1) (wnas w1) (wseq w1)
     (<[h := VHold i]> (wvl w1)) (wtag w1) (<[h := p]> (wbh w1)) (wunt w1) (wcalled w1) (wclk w1 + 1) (wrun w1) (wblk w1)).
  pose proof (iv_nxt _ I1) as [Hnx1 Hnx2]. fold h in Hnx1, Hnx2.
  assert (Ht : forall h' x, wbh w1 !! h' = Some x -> wbh w2 !! h' = Some x).
  { intros h' x E. cbn. rewrite lookup_insert_ne; [done|congruence]. }
  assert (Hb : forall h' x, bags (wm w1) !! h' = Some x -> bags (wm w2) !! h' = Some x).
  { intros h' x E. cbn. rewrite lookup_insert_ne; [done|congruence]. }
  assert (Hv : forall h' x, wvl w1 !! h' = Some x -> wvl w2 !! h' = Some x).
  { intros h' x E. cbn. rewrite lookup_insert_ne; [done|congruence]. }
  assert (Hv' : forall h' x, wvl w2 !! h' = Some x -> h' = h /\ x = VHold i \/ h' <> h /\ wvl w1 !! h' = Some x).
  { intros h' x E. cbn in E. destruct (decide (h' = h)) as [->|]; [rewrite lookup_insert in E; left; split; congruence|].
    rewrite lookup_insert_ne in E by done. by right. }
  assert (I2 : Inv w2).
  { split; try (exact (iv_own _ I1) || exact (iv_pub _ I1) || exact (iv_lock _ I1) || exact (iv_priv _ I1) || exact (iv_nas _ I1) || exact (iv_root _ I1) || exact (iv_keys _ I1) || exact (iv_same _ I1) || exact (iv_trk _ I1) || exact (iv_tag _ I1) || exact (iv_called _ I1)).
    - cbn. split; [lia|by apply even_add2].
    - intros q n H. destruct (iv_addr _ I1 q n H) as [H1 H2]. fold h in H1. split; [|done]. unfold w2. cbn [wm nxt mwith_nxt]. lia.
    - intros q n H. apply (node_ok_aux w1); try done; [|by apply I1]. intros h' q' s E. by apply Hv.
    - intros q n H Ho. apply (node_good_aux w1); try done. by apply (iv_good _ I1).
    - intros h'. cbn. destruct (decide (h' = h)) as [->|]; [rewrite !lookup_insert; split; [right; by eexists|by eexists]|].
      rewrite !lookup_insert_ne by done. apply I1.
    - intros h' x E. destruct (Hv' _ _ E) as [[-> _]|[_ E']]; [lia|]. by apply (iv_hdl _ I1 h' x).
    - intros h' x E. pose proof (iv_fresh _ I1 h' x E) as E'. fold h in E'. cbn. lia.
    - intros h' q s E. destruct (Hv' _ _ E) as [[_ ?]|[_ E']]; [done|]. by apply (iv_slot _ I1 h').
    - destruct (iv_ret _ I1) as (B1 & B2 & B3 & B4). split; [done|]. split; [done|]. split.
      { intros g Hg. specialize (B3 g Hg). destruct g as [x|x]; cbn in *; [done|]. destruct B3 as [y Hy]. exists y. by apply Ht. }
      intros h' B. etrans; [|apply B4]. split.
      + intros E. destruct (Hv' _ _ E) as [[_ ?]|[_ E']]; done.
      + apply Hv.
    - intros b bg'. cbn. destruct (decide (b = h)) as [->|].
      + rewrite !lookup_insert. intros [= <-]. split; [by eexists|]. exists mm. by eapply inv_mono.
      + rewrite !lookup_insert_ne by done. apply I1.
    - intros b q. cbn. destruct (decide (b = h)) as [->|].
      + intros _. split; [lia|done].
      + rewrite lookup_insert_ne by done. intros E. destruct (iv_bnew _ I1 b q E) as [C1 C2]. fold h in C1. split; [lia|done]. }
  assert (G2 : Guar i w1 w2).
  { apply aux_guar; try done.
    - intros b q E. cbn. rewrite lookup_insert_ne; [done|congruence].
    - by left.
    - intros j h' Hj. split; [apply Hv|]. intros E. destruct (Hv' _ _ E) as [[_ ?]|[_ E']]; congruence.
    - intros j h' _. unfold guarded. destruct (wvl w1 !! h') as [x|] eqn:E; [|done]. by rewrite (Hv _ _ E).
    - cbn. destruct (iv_ret _ I1) as (_ & -> & _). by rewrite Nat.sub_diag. }
  exists h, w2. split; [done|]. split; [done|]. split; [done|].
  apply HQ; [|eapply mono_trans; [exact M1|by eapply guar_mono]|cbn; by rewrite lookup_insert|cbn; by rewrite lookup_insert|lia|].
  2:{ intros H. apply (at_hold _ _ _ A1) in H. congruence. }
  split; cbn [Conc.nl Conc.hs Conc.un Conc.ns Conc.pr Conc.pe Conc.tp Conc.zs]; try (exact I2 || apply A1).
  intros h'. rewrite elem_of_union, elem_of_singleton. rewrite <- (at_hold _ _ _ A1 h'). split.
  - intros E. destruct (Hv' _ _ E) as [[? _]|[_ E']]; [by left|by right].
  - intros [->|E]; [cbn; by rewrite lookup_insert|by apply Hv].
Qed.

(** handing a value to the collector *)
Lemma cwp_retire i nl hs un ns pr pe tp zs w g (Q : unit -> world -> Prop) :
  At i (L nl hs un ns pr pe tp zs) w -> gaddr g ∈ hs -> gkind w g ->
  (forall w', At i (L nl (hs ∖ {[gaddr g]}) un ns pr pe tp zs) w' -> Mono w w' -> Q tt w') ->
  cwp i (retire g) w Q.
Proof.
  intros A0 Hh Hk HQ. set (h := gaddr g) in *. unfold retire. apply cwp_step. intros w1 R1 I1. pose proof (rl_mono _ _ _ R1) as M1.
  pose proof (at_rely _ _ _ _ R1 I1 A0) as A1. pose proof (proj2 (at_hold _ _ _ A1 h) Hh) as Eh.
  set (w2 := mk_w (mwith_retired (g :: retired (wm w1)) (wm w1)) (wown w1) (wpub w1) (wnas w1) (wseq w1)
     (<[h := VRet (wrun w1)]> (wvl w1)) (wtag w1) (wbh w1) (wunt w1) (wcalled w1) (wclk w1 + 1) (wrun w1) (wrun w1 :: wblk w1)).
  assert (Hlk : forall h', wvl w2 !! h' = if decide (h' = h) then Some (VRet (wrun w1)) else wvl w1 !! h').
  { intros h'. cbn. case_decide; subst; [by rewrite lookup_insert|by rewrite lookup_insert_ne]. }
  destruct (iv_ret _ I1) as (B1 & B2 & B3 & B4).
  assert (Hnew : h ∉ gaddr <$> retired (wm w1)).
  { intros Hin. apply elem_of_list_lookup in Hin as [j Hj].
    destruct (lookup_lt_is_Some_2 (wblk w1) j) as [B HB]; [rewrite B2; apply lookup_lt_Some in Hj; by rewrite fmap_length in Hj|].
    destruct (B4 h B) as [_ E]. rewrite E in Eh; [done|]. by exists j. }
  assert (I2 : Inv w2).
  { split; try (exact (iv_nxt _ I1) || exact (iv_addr _ I1) || exact (iv_own _ I1) || exact (iv_pub _ I1) || exact (iv_lock _ I1) || exact (iv_priv _ I1) || exact (iv_nas _ I1) || exact (iv_root _ I1) || exact (iv_keys _ I1) || exact (iv_bags _ I1) || exact (iv_trk _ I1) || exact (iv_tag _ I1) || exact (iv_fresh _ I1) || exact (iv_called _ I1) || exact (iv_same _ I1) || exact (iv_bnew _ I1)).
    - intros p n H. apply (node_ok_aux w1); try done; [|by apply I1]. intros h' q s E. rewrite Hlk. case_decide; [subst; congruence|done].
    - intros p n H Ho. apply (node_good_aux w1); try done. by apply (iv_good _ I1).
    - intros h'. rewrite Hlk. case_decide; [subst|apply I1]. etrans; [|apply (iv_vals _ I1 h)]. rewrite Eh. split; by eexists.
    - intros h' x. rewrite Hlk. case_decide; [subst|apply I1]. intros _. by apply (iv_hdl _ I1 h (VHold i)).
    - intros h' p s. rewrite Hlk. case_decide; [done|apply I1].
    - cbn. fold h. split; [by constructor|]. split; [by rewrite B2|]. split.
      + intros g' Hg. apply elem_of_cons in Hg as [->|Hg]; [|by apply B3]. destruct g as [x|x]; cbn in *; destruct Hk as [y Hy]; exists y; by apply M1.
      + intros h' B. rewrite Hlk. case_decide as Hd.
        * subst h'. split; [intros [= <-]; by exists 0|]. intros ([|j] & J1 & J2); [cbn in J2; congruence|]. cbn in J1, J2.
          destruct Hnew. by eapply elem_of_list_lookup_2.
        * rewrite B4. split; [intros (j & J1 & J2); by exists (S j)|]. intros ([|j] & J1 & J2); [cbn in J1; congruence|by exists j]. }
  assert (G2 : Guar i w1 w2).
  { apply aux_guar; try done.
    - by left.
    - intros j h' Hj. rewrite Hlk. case_decide; [subst; split; congruence|done].
    - intros j h' Hj. unfold guarded. rewrite Hlk. case_decide; [done|done].
    - cbn. rewrite B2. rewrite Nat.sub_succ_l by done. by rewrite Nat.sub_diag. }
  exists tt, w2. split; [done|]. split; [done|]. split; [done|].
  apply HQ; [|eapply mono_trans; [exact M1|by eapply guar_mono]].
  split; cbn [Conc.nl Conc.hs Conc.un Conc.ns Conc.pr Conc.pe Conc.tp Conc.zs]; try (exact I2 || apply A1).
  intros h'. rewrite elem_of_difference, elem_of_singleton. rewrite <- (at_hold _ _ _ A1 h'). rewrite Hlk. case_decide; [split; [done|tauto]|tauto].
Qed.

(** registering a node with the allocator *)
Lemma cwp_track i nl hs un ns pr pe tp zs w p (Q : unit -> world -> Prop) :
  At i (L nl hs un ns pr pe tp zs) w -> p ∈ un ->
  (forall w', At i (L nl hs (un ∖ {[p]}) ns pr pe tp zs) w' -> Mono w w' -> Q tt w') ->
  cwp i (track p) w Q.
Proof.
  intros A0 Hp HQ. unfold track. apply cwp_step. intros w1 R1 I1. pose proof (rl_mono _ _ _ R1) as M1.
  pose proof (at_rely _ _ _ _ R1 I1 A0) as A1. pose proof (proj2 (at_unt _ _ _ A1 p) Hp) as Ep.
  set (w2 := mk_w (mwith_tracked (p :: tracked (wm w1)) (wm w1)) (wown w1) (wpub w1) (wnas w1) (wseq w1)
     (wvl w1) (wtag w1) (wbh w1) (delete p (wunt w1)) (wcalled w1) (wclk w1 + 1) (wrun w1) (wblk w1)).
  destruct (iv_trk _ I1) as (B1 & B2 & B3).
  assert (I2 : Inv w2).
  { split; try (exact (iv_nxt _ I1) || exact (iv_addr _ I1) || exact (iv_own _ I1) || exact (iv_pub _ I1) || exact (iv_lock _ I1) || exact (iv_priv _ I1) || exact (iv_nas _ I1) || exact (iv_root _ I1) || exact (iv_keys _ I1) || exact (iv_bags _ I1) || exact (iv_bnew _ I1) || exact (iv_same _ I1) || exact (iv_tag _ I1) || exact (iv_fresh _ I1) || exact (iv_called _ I1) || exact (iv_vals _ I1) || exact (iv_hdl _ I1) || exact (iv_slot _ I1) || exact (iv_ret _ I1)).
    - intros q n H. apply (node_ok_aux w1); try done. by apply I1.
    - intros q n H Ho. apply (node_good_aux w1); try done. by apply (iv_good _ I1).
    - cbn. split; [constructor; [|done]|].
      + intros H. apply B2 in H as [_ H]. congruence.
      + split.
        * intros q. rewrite elem_of_cons. destruct (decide (q = p)) as [->|Hne].
          -- rewrite lookup_delete. split; [intros _; split; [by apply (B3 p i)|done]|by left].
          -- rewrite lookup_delete_ne by done. pose proof (B2 q) as E. unfold hp in *. cbn. tauto.
        * intros q j. destruct (decide (q = p)) as [->|Hne]; [by rewrite lookup_delete|]. rewrite lookup_delete_ne by done. apply B3. }
  assert (Hu : forall j q, j <> i -> wunt w1 !! q = Some j <-> wunt w2 !! q = Some j).
  { intros j q Hj. cbn. destruct (decide (q = p)) as [->|]; [rewrite lookup_delete, Ep; split; congruence|by rewrite lookup_delete_ne]. }
  assert (G2 : Guar i w1 w2).
  { apply aux_guar; try done; [by left|]. cbn. destruct (iv_ret _ I1) as (_ & -> & _). by rewrite Nat.sub_diag. }
  exists tt, w2. split; [done|]. split; [done|]. split; [done|].
  apply HQ; [|eapply mono_trans; [exact M1|by eapply guar_mono]].
  split; cbn [Conc.nl Conc.hs Conc.un Conc.ns Conc.pr Conc.pe Conc.tp Conc.zs]; try (exact I2 || apply A1).
  intros q. cbn. rewrite elem_of_difference, elem_of_singleton, <- (at_unt _ _ _ A1 q).
  destruct (decide (q = p)) as [->|]; [rewrite lookup_delete; split; [done|tauto]|rewrite lookup_delete_ne by done; tauto].
Qed.
Lemma cwp_inc i nl hs un ns pr pe tp zs w (Q : unit -> world -> Prop) :
  At i (L nl hs un ns pr pe tp zs) w ->
  (forall w', At i (L nl hs un ns pr pe tp zs) w' -> Mono w w' -> Q tt w') ->
  cwp i inc_count w Q.
Proof.
  intros A0 HQ. unfold inc_count. apply cwp_step. intros w1 R1 I1. pose proof (rl_mono _ _ _ R1) as M1.
  pose proof (at_rely _ _ _ _ R1 I1 A0) as A1.
  set (w2 := mk_w (mwith_cnt (cnt (wm w1) + 1) (wm w1)) (wown w1) (wpub w1) (wnas w1) (wseq w1)
     (wvl w1) (wtag w1) (wbh w1) (wunt w1) (wcalled w1) (wclk w1 + 1) (wrun w1) (wblk w1)).
  assert (I2 : Inv w2).
  { split; try (exact (iv_nxt _ I1) || exact (iv_addr _ I1) || exact (iv_own _ I1) || exact (iv_pub _ I1) || exact (iv_lock _ I1) || exact (iv_priv _ I1) || exact (iv_nas _ I1) || exact (iv_root _ I1) || exact (iv_keys _ I1) || exact (iv_bags _ I1) || exact (iv_bnew _ I1) || exact (iv_same _ I1) || exact (iv_tag _ I1) || exact (iv_fresh _ I1) || exact (iv_called _ I1) || exact (iv_vals _ I1) || exact (iv_hdl _ I1) || exact (iv_slot _ I1) || exact (iv_ret _ I1) || exact (iv_trk _ I1)).
    - intros q n H. apply (node_ok_aux w1); try done. by apply I1.
    - intros q n H Ho. apply (node_good_aux w1); try done. by apply (iv_good _ I1). }
  assert (G2 : Guar i w1 w2).
  { apply aux_guar; try done; [by left|]. cbn. destruct (iv_ret _ I1) as (_ & -> & _). by rewrite Nat.sub_diag. }
  exists tt, w2. split; [done|]. split; [done|]. split; [done|].
  apply HQ; [|eapply mono_trans; [exact M1|by eapply guar_mono]].
  split; cbn [Conc.nl Conc.hs Conc.un Conc.ns Conc.pr Conc.pe Conc.tp Conc.zs]; try (exact I2 || apply A1).
Qed.
