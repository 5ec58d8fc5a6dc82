(** Concurrent executions: new nodes and the root pointer. *)
From Verif Require Import Base Perm PermFacts PermList PermLaws SpecPerm Key SpecKey KeyFacts Prog Version VersionFacts Mem Tree
  SpecTree TreeState SpecLin Conc ConcStep ConcRules ConcPar ConcMem.

(** ** replacing the root *)
Lemma cwp_cas_root i nl hs un pr pe tp zs w l nr x (Q : bool -> world -> Prop) :
  At i (L nl hs un ∅ pr pe tp zs) w -> l ∈ tp -> l ∈ zs -> nr ∈ pr -> nr ∈ zs -> pe !! nr = Some [] ->
  nl !! nr = Some (NInode x) -> v_is_root (i_ver x) = true ->
  (forall w', At i (L nl hs un {[nr]} (pr ∖ {[nr]}) pe ({[nr]} ∪ (tp ∖ {[l]})) zs) w' -> Mono w w' -> nr ∈ wpub w' -> Q true w') ->
  cwp i (cas_root l nr) w Q.
Proof.
  intros A0 Hlt Hlz Hnp Hnz Hnpe Hnl Hrb HQ. unfold cas_root. apply cwp_step. intros w1 R1 I1.
  pose proof (rl_mono _ _ _ R1) as M1. pose proof (at_rely _ _ _ _ R1 I1 A0) as A1.
  destruct (at_here _ _ _ _ _ A1 Hnl) as (Hno & pv & pa & Hnh). destruct (at_pr _ _ _ A1 nr Hnp) as [_ Hnpub].
  destruct (at_zs _ _ _ A1 nr Hnz) as [_ Hnz']. pose proof (Hnz' _ Hnh) as Hnpar. cbn in Hnpar. subst pa.
  destruct (at_tp _ _ _ A1 l Hlt) as [Hlo Hlt']. destruct (at_zs _ _ _ A1 l Hlz) as [_ Hlz'].
  pose proof Hlo as [nl0 Hl0]%(iv_own _ I1). pose proof (Hlt' nl0 Hl0 (Hlz' nl0 Hl0)) as Hroot.
  rewrite Hroot, N.eqb_refl.
  destruct (at_pe _ _ _ A1 nr [] Hnpe) as (_ & Hnkid & _).
  set (w2 := mk_w (mwith_root nr (wm w1)) (wown w1) ({[nr]} ∪ wpub w1) ({[nr]} ∪ wnas w1) (wseq w1)
     (wvl w1) (wtag w1) (wbh w1) (wunt w1) (wcalled w1) (wclk w1 + 1) (wrun w1) (wblk w1)).
  assert (Hnas0 : forall q, q ∈ wnas w1 -> wown w1 !! q <> Some i).
  { intros q H H'. by apply (not_elem_of_empty (C := gset N) q), (at_nas _ _ _ A1). }
  assert (Hpub : forall q, q ∈ wpub w1 -> q ∈ wpub w2) by (intros q H; cbn; by apply elem_of_union_r).
  assert (Hpub' : forall q, q ∈ wpub w2 -> q = nr \/ q ∈ wpub w1) by (intros q; cbn; rewrite elem_of_union, elem_of_singleton; done).
  assert (Hnas' : forall q, q ∈ wnas w2 <-> q = nr \/ q ∈ wnas w1) by (intros q; cbn; rewrite elem_of_union, elem_of_singleton; done).
  assert (I2 : Inv w2).
  { split; try (exact (iv_nxt _ I1) || exact (iv_addr _ I1) || exact (iv_own _ I1) || exact (iv_keys _ I1) || exact (iv_bags _ I1) || exact (iv_bnew _ I1) || exact (iv_same _ I1) || exact (iv_tag _ I1) || exact (iv_fresh _ I1) || exact (iv_called _ I1) || exact (iv_vals _ I1) || exact (iv_hdl _ I1) || exact (iv_slot _ I1) || exact (iv_ret _ I1) || exact (iv_trk _ I1)).
    - intros q n H. apply (node_ok_aux w1); try done. by apply I1.
    - intros q n H Ho. destruct (iv_good _ I1 q n H Ho) as [H1 H2]. split; [by destruct n|]. intros Hz. specialize (H2 Hz).
      cbn in Ho. congruence.
    - intros q Hq. destruct (Hpub' q Hq) as [->|Hq']; [by eexists|by apply (iv_pub _ I1)].
    - intros q n H H1 H2. destruct (Hpub' q H1) as [->|Hq']; [destruct H2; apply Hnas'; by left|].
      apply (iv_lock _ I1); [done|done|]. intros H3. apply H2, Hnas'. by right.
    - intros q n H H1. apply (iv_priv _ I1 q n H). intros H2. by apply H1, Hpub.
    - intros q Hq. apply Hnas' in Hq as [->|Hq]; [|by apply (iv_nas _ I1)]. exists i, (iwith_parent 0 x). split; [done|]. split; [done|].
      intros c n Hc E. apply (Hnkid c n Hc) in E. by apply elem_of_nil in E.
    - cbn. exists (NInode (iwith_parent 0 x)). split; [done|]. split; [apply elem_of_union_l; by apply elem_of_singleton|]. done. }
  assert (G2 : Guar i w1 w2).
  { split; try done.
    2:{ by left. }
    2:{ cbn. destruct (iv_ret _ I1) as (_ & -> & _). by rewrite Nat.sub_diag. }
    intros j Hj. split; try done.
    - split; try done.
      + intros q Hq1 Hq2 Hq3. apply Hnas' in Hq3 as [->|?]; done.
      + unfold w2. cbn [wclk]. lia.
      + intros q n n'. unfold hp. cbn. congruence.
      + intros q l0 H. exists l0. split; [done|]. unfold w2. cbn [wseq wclk]. split; [lia|]. done.
      + intros b q bg bg' l0 l' H H1 H2. cbn in H2. congruence.
    - intros c n n'. unfold hp. cbn. congruence.
    - intros c n'. unfold hp. cbn. congruence.
    - intros _. cbn. rewrite Hroot. split; congruence.
    - intros q Hq. rewrite Hnas'. split; [by right|]. intros [->|?]; [congruence|done].
    - intros q Hq Hq'. apply Hpub' in Hq' as [->|?]; [congruence|done].
    - intros b q bg bg' H _ H1 H2. cbn in H2. congruence. }
  exists true, w2. split; [done|]. split; [done|]. split; [done|].
  apply HQ; [|eapply mono_trans; [exact M1|by eapply guar_mono]|cbn; apply elem_of_union_l; by apply elem_of_singleton].
  split; cbn [Conc.nl Conc.hs Conc.un Conc.ns Conc.pr Conc.pe Conc.tp Conc.zs]; try (exact I2 || apply A1).
  - intros q. rewrite Hnas', elem_of_singleton. cbn. split; [|intros ->; split; [by left|done]].
    intros [[?|H1] H2]; [done|]. by destruct (Hnas0 q H1).
  - intros q Hq. rewrite elem_of_difference, elem_of_singleton in Hq. destruct Hq as [Hq Hne].
    destruct (at_pr _ _ _ A1 q Hq) as [H1 H2]. split; [done|]. intros H3. apply Hpub' in H3 as [?|?]; done.
  - intros q Hq. rewrite elem_of_union, elem_of_singleton, elem_of_difference, elem_of_singleton in Hq. destruct Hq as [->|[Hq Hne]].
    + split; [done|]. done.
    + destruct (at_tp _ _ _ A1 q Hq) as [H1 H2]. split; [done|]. intros n Hn Hz. specialize (H2 n Hn Hz). congruence.
Qed.

(** ** new nodes *)
Definition blank (n : node) : Prop := npar n = 0%N /\ match n with
  | NLeaf l => length (l_ikey l) = 24 /\ length (l_klx l) = 24 /\ length (l_val l) = 24 /\
      (forall s x, l_klx l !! s = Some x -> x = 0%N) /\ (forall s x, l_val l !! s = Some x -> x = 0%N) /\
      l_ksuf l = 0%N /\ l_next l = 0%N /\ p_wf P24 (l_perm l) /\ is_frozen (l_perm l) = false /\ actv l = [] /\ vcnt (l_ver l) = 0%N
  | NInode x => length (i_keys x) = 15 /\ length (i_child x) = 16 /\ i_nkeys x <= 15 /\
      forall c, c ∈ i_child x -> c = 0%N
  end.
Lemma cwp_alloc i nl hs un ns pr pe tp zs w n (pb : bool) md rt (Q : N -> world -> Prop) :
  At i (L nl hs un ns pr pe tp zs) w -> blank n -> vbits (nver n) md rt (nleaf n) -> (pb = true -> md <> MFree) ->
  (forall p w', At i (L (<[p := n]> nl) hs ({[p]} ∪ un) ns (if pb then pr else {[p]} ∪ pr) (<[p := []]> pe) tp ({[p]} ∪ zs)) w' ->
     Mono w w' -> (pb = true -> p ∈ wpub w') -> nl !! p = None -> hp w !! p = None -> (0 < p)%N -> N.even p = true -> hp w' !! p = Some n ->
     p ∉ un -> Q p w') ->
  cwp i (alloc_node n) w Q.
Proof.
  intros A0 Hbl Hvb Hpb HQ. unfold alloc_node. apply cwp_step. intros w1 R1 I1.
  pose proof (rl_mono _ _ _ R1) as M1. pose proof (at_rely _ _ _ _ R1 I1 A0) as A1.
  destruct (fresh_tag _ I1) as (F1 & F2 & F3 & F4). set (p := nxt (wm w1)) in *.
  pose proof (iv_nxt _ I1) as [Hnx1 Hnx2]. fold p in Hnx1, Hnx2.
  assert (Fo : wown w1 !! p = None). { destruct (wown w1 !! p) eqn:E; [|done]. apply (iv_own _ I1) in E as [? ?]. congruence. }
  assert (Fp : p ∉ wpub w1). { intros E. apply (iv_pub _ I1) in E as [? ?]. congruence. }
  assert (Fn : p ∉ wnas w1). { intros E. destruct (iv_nas _ I1 p E) as (? & ? & _ & ? & _). congruence. }
  assert (Fu : wunt w1 !! p = None). { destruct (wunt w1 !! p) eqn:E; [|done]. destruct (iv_trk _ I1) as (_ & _ & B). apply B in E as [? ?]. congruence. }
  assert (Fpar : forall c n', hp w1 !! c = Some n' -> npar n' <> p).
  { intros c n' Hc E. destruct (iv_node _ I1 c n' Hc) as [[H|[H _]] _]; [rewrite E in H; lia|]. rewrite E in H. done. }
  pose (pub2 := if pb then {[p]} ∪ wpub w1 else wpub w1).
  set (w2 := mk_w (mwith_nxt (p + 2) (mwith_heap (<[p := n]> (heap (wm w1))) (wm w1))) (<[p := i]> (wown w1)) pub2 (wnas w1)
     (fun x => if decide (x = p) then 0%N else wseq w1 x)
     (wvl w1) (wtag w1) (wbh w1) (<[p := i]> (wunt w1)) (wcalled w1) (wclk w1 + 1) (wrun w1) (wblk w1)).
  assert (Hpub : forall q, q ∈ wpub w1 -> q ∈ wpub w2) by (intros q H; cbn; unfold pub2; destruct pb; [by apply elem_of_union_r|done]).
  assert (Hpub' : forall q, q ∈ wpub w2 -> q = p /\ pb = true \/ q ∈ wpub w1).
  { intros q. cbn. unfold pub2. destruct pb; [|by right]. rewrite elem_of_union, elem_of_singleton. tauto. }
  assert (Hhp : forall q n', hp w2 !! q = Some n' -> q = p /\ n' = n \/ q <> p /\ hp w1 !! q = Some n').
  { intros q n' H. unfold w2, hp in H. cbn in H. destruct (decide (q = p)) as [->|Hne].
    - rewrite lookup_insert in H. left. split; congruence.
    - rewrite lookup_insert_ne in H by done. by right. }
  assert (Hhp1 : forall q n', hp w1 !! q = Some n' -> hp w2 !! q = Some n').
  { intros q n' H. unfold w2, hp. cbn. rewrite lookup_insert_ne; [done|]. congruence. }
  assert (Hhpp : hp w2 !! p = Some n) by (unfold w2, hp; cbn; by rewrite lookup_insert).
  assert (Hptr : forall k x, ptr_ok w1 k x -> ptr_ok w2 k x).
  { intros k x [->|[H1 H2]]; [by left|]. right. split; [by apply Hpub|]. unfold lev in *. destruct (hp w1 !! x) as [n'|] eqn:E; [|done].
    by rewrite (Hhp1 _ _ E). }
  assert (Hown : forall q, q <> p -> wown w2 !! q = wown w1 !! q) by (intros q Hq; cbn; by rewrite lookup_insert_ne).
  assert (Hownp : wown w2 !! p = Some i) by (cbn; by rewrite lookup_insert).
  destruct Hbl as [Hbp Hbl].
  assert (Hok : node_ok w2 p n).
  { split; [left; done|]. destruct n as [l|x].
    - destruct Hbl as (B1 & B2 & B3 & B4 & B5 & B6 & B7 & B8 & B9 & B10 & B11). split; try done.
      + intros s y Hs. rewrite (B4 s y Hs). left. lia.
      + left. by rewrite B7.
      + by exists md, rt.
      + cbn. rewrite decide_True by done. done.
      + intros s h Hs Hh. unfold lptrs in Hs. apply lookup_app_Some in Hs as [Hs|[_ Hs]].
        * by rewrite (B5 s h Hs) in Hh.
        * apply list_lookup_singleton_Some in Hs as [_ <-]. done.
      + intros s h Hs Hh. by rewrite (B5 s h Hs) in Hh.
      + intros _ s. rewrite B10. by intros ?%elem_of_nil.
    - destruct Hbl as (B1 & B2 & B3 & B4). split; try done.
      + by exists md, rt.
      + intros c Hc. left. by apply B4. }
  assert (I2 : Inv w2).
  { split; try (exact (iv_keys _ I1) || exact (iv_bags _ I1) || exact (iv_bnew _ I1) || exact (iv_same _ I1) || exact (iv_tag _ I1) || exact (iv_called _ I1) || exact (iv_vals _ I1) || exact (iv_hdl _ I1) || exact (iv_ret _ I1)).
    - cbn. split; [lia|by apply even_add2].
    - intros q n' H. unfold w2. cbn [wm nxt mwith_nxt]. destruct (Hhp q n' H) as [[-> ->]|[_ H']]; [split; [lia|done]|].
      destruct (iv_addr _ I1 q n' H') as [H1 H2]. fold p in H1. split; [lia|done].
    - intros q n' H. destruct (Hhp q n' H) as [[-> ->]|[Hne H']]; [done|]. destruct (iv_node _ I1 q n' H') as [C1 C2].
      split; [by apply Hptr|]. destruct n' as [l|x].
      + destruct C2 as [B1 B2 B3 B4 B5 B6 B7 B8 B9]. split; try done; [by apply Hptr|]. cbn. by rewrite decide_False.
      + destruct C2 as [B1 B2 B3 B4]. split; try done. intros c Hc. by apply Hptr, B4.
    - intros q n' H Ho. destruct (Hhp q n' H) as [[-> ->]|[Hne H']]; [congruence|]. rewrite Hown in Ho by done.
      destruct (iv_good _ I1 q n' H' Ho) as [H1 H2]. split; [|done]. destruct n' as [l|x]; [done|].
      destruct H1 as (B1 & B2 & B3). split; [done|]. split; [done|]. intros c nc Hc. destruct (Hhp c nc Hc) as [[-> ->]|[Hcp Hc']]; [|by apply B3].
      pose proof (iv_addr _ I1 q _ H') as [Hq0 _]. rewrite Hbp. split; [lia|]. intros Hin.
      destruct (iv_node _ I1 q _ H') as [_ C2]. cbn in C2. destruct (io_child _ _ C2 p) as [?|[? _]]; [|lia|done].
      unfold kids in Hin. rewrite elem_of_take in Hin. destruct Hin as (jj & Hjj & _). by eapply elem_of_list_lookup_2.
    - intros q j Hq. destruct (decide (q = p)) as [->|Hne]; [by eexists|]. rewrite Hown in Hq by done.
      destruct (iv_own _ I1 q j Hq) as [n' Hn']. eexists. by apply Hhp1.
    - intros q Hq. destruct (Hpub' q Hq) as [[-> _]|Hq']; [by eexists|]. destruct (iv_pub _ I1 q Hq') as [n' Hn']. eexists. by apply Hhp1.
    - intros q n' H H1 H2. destruct (Hhp q n' H) as [[-> ->]|[Hne H']].
      + rewrite Hownp. destruct (Hpub' p H1) as [[_ E]|?]; [|done]. rewrite (vbits_lockedf _ _ _ _ Hvb). specialize (Hpb E).
        destruct md; [done|split; done..].
      + rewrite Hown by done. destruct (Hpub' q H1) as [[? _]|H1']; [done|]. by apply (iv_lock _ I1).
    - intros q n' H H1. destruct (Hhp q n' H) as [[-> ->]|[Hne H']]; [by rewrite Hownp|]. rewrite Hown by done.
      apply (iv_priv _ I1 q n' H'). intros ?. by apply H1, Hpub.
    - intros q Hq. cbn in Hq. destruct (iv_nas _ I1 q Hq) as (j & i0 & N1 & N2 & N3). exists j, i0.
      assert (q <> p) as Hne by congruence. rewrite Hown by done. split; [done|]. split; [by apply Hhp1|]. intros c n' Hc E.
      destruct (Hhp c n' Hc) as [[-> ->]|[Hcp Hc']]; [|rewrite Hown by done; by eapply N3].
      rewrite Hbp in E. subst q. apply (iv_addr _ I1) in N2. lia.
    - destruct (iv_root _ I1) as (nr & S1 & S2 & S3 & S4). exists nr. cbn. split; [by apply Hhp1|]. split; [by apply Hpub|done].
    - intros h y E. pose proof (iv_fresh _ I1 h y E) as E'. fold p in E'. unfold w2. cbn [wm nxt mwith_nxt]. lia.
    - intros h q s E. destruct (iv_slot _ I1 h q s E) as (l & H1 & H2). exists l. split; [by apply Hhp1|done].
    - intros b q E. destruct (iv_bnew _ I1 b q E) as [E1 E2]. fold p in E1. split; [|done]. unfold w2. cbn [wm nxt mwith_nxt]. lia.
    - destruct (iv_trk _ I1) as (B1 & B2 & B3). split; [done|]. split.
      + intros q. cbn [wunt w2 wm]. etrans; [apply B2|]. destruct (decide (q = p)) as [->|Hne].
        * rewrite lookup_insert. split; [intros [[? ?] _]; congruence|intros [_ ?]; done].
        * rewrite lookup_insert_ne by done. unfold hp, w2. cbn. by rewrite lookup_insert_ne.
      + intros q j. cbn. destruct (decide (q = p)) as [->|Hne]; [by eexists|]. rewrite lookup_insert_ne by done. intros E.
        destruct (B3 q j E) as [n' Hn']. eexists. by apply Hhp1. }
  assert (G2 : Guar i w1 w2).
  { split; try done.
    2:{ by left. }
    2:{ cbn. destruct (iv_ret _ I1) as (_ & -> & _). by rewrite Nat.sub_diag. }
    intros j Hj. split; try done.
    - split; try done.
      + intros q k. unfold lev. destruct (hp w1 !! q) as [n'|] eqn:E; [|done]. by rewrite (Hhp1 _ _ E).
      + unfold w2. cbn [wclk]. lia.
      + intros q n1 n' H1 H2. apply Hhp1 in H1. congruence.
      + intros q l H. exists l. split; [by apply Hhp1|]. assert (q <> p) by congruence.
        unfold w2. cbn [wseq wclk]. rewrite decide_False by done. split; [lia|done].
      + intros b q bg bg' l l' H H1 H2. cbn in H2. congruence.
    - intros q. destruct (decide (q = p)) as [->|]; [rewrite Fo, Hownp; split; congruence|by rewrite Hown].
    - intros q Hq. destruct (iv_own _ I1 q j Hq) as [n' Hn']. by rewrite Hn', (Hhp1 _ _ Hn').
    - intros c n1 n' H1 H2. apply Hhp1 in H1. congruence.
    - intros c n' H1 H2. destruct (Hhp c n' H2) as [[-> ->]|[_ ?]]; [|congruence]. rewrite Hbp. intros E.
      apply (iv_own _ I1) in E as [z Hz]. apply (iv_addr _ I1) in Hz. lia.
    - intros q Hq Hq'. apply Hpub' in Hq' as [[-> _]|?]; [congruence|done].
    - intros q. cbn. destruct (decide (q = p)) as [->|]; [rewrite Fu, lookup_insert; split; congruence|by rewrite lookup_insert_ne].
    - intros b q bg bg' H _ H1 H2. cbn in H2. congruence. }
  assert (Enl : nl !! p = None).
  { destruct (nl !! p) eqn:E; [|done]. assert (wown w1 !! p = Some i) by (apply (at_own _ _ _ A1); by eexists). congruence. }
  exists p, w2. split; [done|]. split; [done|]. split; [done|].
  apply HQ; [|eapply mono_trans; [exact M1|by eapply guar_mono]|..]; try done.
  2:{ intros ->. cbn. unfold pub2. apply elem_of_union_l. by apply elem_of_singleton. }
  2:{ destruct (hp w !! p) as [n'|] eqn:E; [|done]. destruct (mono_hp _ _ _ _ M1 E) as (n'' & E' & _). congruence. }
  2:{ intros H. apply (at_unt _ _ _ A1) in H. congruence. }
  split; cbn [Conc.nl Conc.hs Conc.un Conc.ns Conc.pr Conc.pe Conc.tp Conc.zs]; try (exact I2 || apply A1).
  - intros q. destruct (decide (q = p)) as [->|]; [rewrite Hownp, lookup_insert; split; [by eexists|done]|].
    rewrite Hown, lookup_insert_ne by done. apply A1.
  - intros q n'. destruct (decide (q = p)) as [->|]; [rewrite lookup_insert; intros [= <-]; by eexists|].
    rewrite lookup_insert_ne by done. intros H. destruct (at_nl _ _ _ A1 q n' H) as (n'' & H1 & H2). exists n''. split; [by apply Hhp1|done].
  - intros q. cbn. rewrite elem_of_union, elem_of_singleton, <- (at_unt _ _ _ A1 q).
    destruct (decide (q = p)) as [->|]; [rewrite lookup_insert; tauto|rewrite lookup_insert_ne by done; tauto].
  - intros q. rewrite <- (at_nas _ _ _ A1 q). cbn [wnas w2]. destruct (decide (q = p)) as [->|]; [tauto|by rewrite Hown].
  - intros q Hq. assert (q = p /\ pb = false \/ q ∈ pr) as [[-> E]|Hq'].
    { destruct pb; [by right|]. rewrite elem_of_union, elem_of_singleton in Hq. tauto. }
    + split; [done|]. intros H. apply Hpub' in H as [[_ ?]|?]; congruence.
    + destruct (at_pr _ _ _ A1 q Hq') as [H1 H2]. assert (q <> p) as Hqp by congruence. rewrite Hown by done. split; [done|].
      intros H. apply Hpub' in H as [[? _]|?]; congruence.
  - intros q l Hq. destruct (decide (q = p)) as [->|Hne].
    + rewrite lookup_insert in Hq. injection Hq as <-. split; [done|]. split; [|by intros c ?%elem_of_nil].
      intros c n' Hc. rewrite elem_of_nil. split; [|done]. intros E. destruct (Hhp c n' Hc) as [[-> ->]|[_ Hc']]; [lia|]. by apply (Fpar c n').
    + rewrite lookup_insert_ne in Hq by done. destruct (at_pe _ _ _ A1 q l Hq) as (H1 & H2 & H3). rewrite Hown by done.
      split; [done|]. split.
      * intros c n' Hc. destruct (Hhp c n' Hc) as [[-> ->]|[_ Hc']]; [|by apply H2]. rewrite Hbp. split.
        -- intros <-. apply (iv_own _ I1) in H1 as [z Hz]. apply (iv_addr _ I1) in Hz. lia.
        -- intros Hin. destruct (H3 p Hin) as [? ?]. congruence.
      * intros c Hc. destruct (H3 c Hc) as [n' Hn']. eexists. by apply Hhp1.
  - intros q Hq. destruct (at_tp _ _ _ A1 q Hq) as [H1 H2]. assert (q <> p) by congruence. rewrite Hown by done. split; [done|].
    intros n' Hc Hz. destruct (Hhp q n' Hc) as [[? _]|[_ Hc']]; [done|]. by apply (H2 n').
  - intros q Hq. rewrite elem_of_union, elem_of_singleton in Hq. destruct Hq as [->|Hq].
    + split; [done|]. intros n' Hn'. rewrite Hhpp in Hn'. injection Hn' as <-. done.
    + destruct (at_zs _ _ _ A1 q Hq) as [H1 H2]. assert (q <> p) by congruence. rewrite Hown by done. split; [done|].
      intros n' Hc. destruct (Hhp q n' Hc) as [[? _]|[_ Hc']]; [done|]. by apply H2.
Qed.
