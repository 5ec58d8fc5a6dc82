(** Concurrent executions: rules for the stores into nodes the thread has locked. *)
From Verif Require Import Base Perm PermFacts PermList PermLaws SpecPerm Key SpecKey KeyFacts Prog Version VersionFacts Mem Tree
  SpecTree TreeState SpecLin Conc ConcStep.

(** ** storing into a node one has locked *)
Record LStep (w : world) (p : N) (l l2 : leaf) : Prop := {
  lt_len : length (l_ikey l2) = 24 /\ length (l_klx l2) = 24 /\ length (l_val l2) = 24;
  lt_klx : forall s x, l_klx l2 !! s = Some x -> (x <= 8)%N \/ x = KSUF_KEYLENX;
  lt_ksuf : l_ksuf l2 = l_ksuf l;
  lt_next : ptr_ok w 0 (unmark_ptr (l_next l2));
  lt_ver : exists md rt, vbits (l_ver l2) md rt true;
  lt_cnt : vcnt (l_ver l2) = vcnt (l_ver l);
  lt_perm : is_frozen (l_perm l2) = false -> p_wf P24 (l_perm l2);
  lt_val : l_val l2 = l_val l;
  lt_frz : spl l2 = false -> is_frozen (l_perm l2) = false;
  lt_tag : is_frozen (l_perm l2) = false -> forall s, s ∈ actv l2 -> slot_ok w l2 s;
  lt_mono : spl l2 = false -> spl l = false /\ forall s, s ∈ actv l -> s ∈ actv l2 /\
       l_ikey l2 !! s = l_ikey l !! s /\ l_klx l2 !! s = l_klx l !! s }.
Record IStep (w : world) (x x2 : inode) : Prop := {
  it_len : length (i_keys x2) = 15 /\ length (i_child x2) = 16;
  it_nk : i_nkeys x2 <= 15;
  it_hgt : i_height x2 = i_height x;
  it_ver : exists md rt, vbits (i_ver x2) md rt false;
  it_child : forall c, c ∈ i_child x2 -> ptr_ok w (i_height x) c }.
Definition NStep (w : world) (p : N) (n n2 : node) : Prop :=
  match n, n2 with
  | NLeaf l, NLeaf l2 => LStep w p l l2
  | NInode x, NInode x2 => IStep w x x2
  | _, _ => False
  end.

Lemma slot_ok_eq w w' l l' s : bags (wm w') = bags (wm w) -> (forall h x, wtag w !! h = Some x -> wtag w' !! h = Some x) ->
  l_ikey l' !! s = l_ikey l !! s -> l_klx l' !! s = l_klx l !! s -> l_val l' !! s = l_val l !! s -> l_ksuf l' = l_ksuf l ->
  slot_ok w l s -> slot_ok w' l' s.
Proof.
  intros B T E1 E2 E3 E4 (k & v & h & (H1 & H1') & H2 & H3 & H4 & H5). exists k, v, h. unfold has_key, sfx. rewrite E1, E2, E3, E4, B.
  split; [done|]. split; [done|]. split; [done|]. split; [by apply T|done].
Qed.
Lemma lstep_ptrs w p l l2 : LStep w p l l2 -> lptrs l2 = lptrs l.
Proof. intros S. unfold lptrs. by rewrite (lt_val _ _ _ _ S), (lt_ksuf _ _ _ _ S). Qed.
Lemma ptr_ok_mono w w' k x : Mono w w' -> ptr_ok w k x -> ptr_ok w' k x.
Proof. intros M [->|[H1 H2]]; [by left|]. right. split; by apply M. Qed.

Section Up.
Context (i : nat) (p : N) (n n2 : node) (pb : bool).
Definition pub_if (w : world) : gset N := if pb then {[p]} ∪ wpub w else wpub w.
Definition up (w : world) (n2' : node) : world := upd w p n2' (wown w) (pub_if w) (wnas w) (wseq w) (wvl w).

Lemma up_Upd w pv pa : Inv w -> wown w !! p = Some i -> hp w !! p = Some (rep pv pa n) -> p ∉ wnas w ->
  NStep w p n n2 -> (p ∈ wpub w \/ pb = true -> v_is_locked (nver n2) = true) ->
  (root (wm w) = p -> v_is_root (nver n) = true -> v_is_root (nver n2) = true) ->
  Upd i w p (rep pv pa n) (rep pv pa n2) (wown w) (pub_if w) (wnas w) (wseq w) (wvl w).
Proof.
  intros I Ho Hp Hnas HS Hlk Hrt. destruct (iv_node _ I p _ Hp) as [Hpar Hok].
  assert (Hlev : nlev n2 = nlev n).
  { destruct n, n2; cbn in *; try done. f_equal. apply HS. }
  assert (Hpub : forall x, x ∈ wpub w -> x ∈ pub_if w) by (intros x Hx; unfold pub_if; destruct pb; [by apply elem_of_union_r|done]).
  assert (Hpub' : forall x, x ∈ pub_if w -> x ∈ wpub w \/ x = p /\ pb = true).
  { intros x. unfold pub_if. destruct pb; [|by left]. rewrite elem_of_union, elem_of_singleton. intros [->|?]; [by right|by left]. }
  assert (Hptr : forall k x, ptr_ok w k x -> ptr_ok (up w (rep pv pa n2)) k x).
  { intros k x [->|[H1 H2]]; [by left|]. right. split; [by apply Hpub|]. unfold lev, up, hp at 1. cbn.
    destruct (decide (x = p)) as [->|Hne]; [rewrite lookup_insert|by rewrite lookup_insert_ne].
    unfold lev in H2. rewrite Hp in H2. cbn in *. rewrite rep_lev in *. congruence. }
  assert (Hdp : forall x, x ∉ pub_if w -> x ∉ wpub w) by (intros x H H'; apply H; by apply Hpub).
  split; try done.
  - by rewrite !rep_lev.
  - rewrite !rep_par, rep_lev in *. split; [rewrite rep_lev, rep_par; apply Hptr; by rewrite Hlev|].
    destruct n as [l|x], n2 as [l2|x2]; cbn in HS; try done; cbn in Hok |- *.
    + pose proof (lstep_ptrs _ _ _ _ HS) as Elp.
      destruct HS as [A1 A2 A3 A4 A5 A6 A7 A8 A9 A10 A11], Hok as [B1 B2 B3 B4 B5 B6 B7 B8 B9 B10 B11].
      split; try done.
      * cbn in *. by rewrite A3.
      * by apply Hptr.
      * cbn in *. congruence.
      * intros s h. change (lptrs l2 !! s = Some h -> h <> 0%N -> wvl w !! h = Some (VSlot p s)). rewrite Elp. apply B8.
      * cbn in *. by rewrite A8.
    + destruct HS as [A1 A2 A3 A4 A5]. split; try done. intros c Hc. apply Hptr. cbn in *. rewrite A3. by apply A5.
  - intros x Hx. destruct (Hpub' x Hx) as [?|[-> _]]; auto.
  - intros l E. destruct n as [l0|]; [|done]. cbn in E. injection E as <-. destruct n2 as [l2|]; [|done]. cbn in HS.
    eexists. split; [reflexivity|]. split; [lia|]. intros _ Hsp. apply HS. exact Hsp.
  - by left.
  - intros x n' Hx Hx' [->|Hx'']; congruence.
  - by rewrite !rep_par.
  - intros j Hj Hj'. congruence.
  - intros x n' Hx H1 H2 [->|H3]; [|done]. rewrite lookup_insert in Hx. injection Hx as <-. rewrite rep_ver.
    rewrite Hlk; [split; congruence|]. destruct (Hpub' p H1) as [?|[_ ?]]; auto.
  - intros x Hx [y Hy]. apply (iv_priv _ I x y Hy). by apply Hdp.
  - intros q Hq. destruct (iv_nas _ I q Hq) as (j & i0 & N1 & N2 & N3). exists j.
    assert (q <> p) as Hqp by congruence. exists i0. split; [done|]. split; [by rewrite lookup_insert_ne|].
    intros c n' Hc Hcq. destruct (decide (c = p)) as [->|Hne].
    + rewrite lookup_insert in Hc. injection Hc as <-. rewrite rep_par in Hcq. apply (N3 p _ Hp). by rewrite rep_par.
    + rewrite lookup_insert_ne in Hc by done. by eapply N3.
  - intros q H1 H2 j Hj. destruct (Hpub' q H1) as [?|[-> _]]; [done|congruence].
  - intros Hr. destruct (iv_root _ I) as (nr & R1 & R2 & R3 & R4). rewrite Hr, Hp in R1. injection R1 as <-.
    rewrite rep_par, rep_ver in *. split; [|done]. by apply Hrt.
  - intros h s Hs. destruct (iv_slot _ I h p s Hs) as (l & E1 & E2). rewrite Hp in E1.
    destruct n as [l0|]; [|done]. injection E1 as <-. destruct n2 as [l2|]; [|done]. eexists. split; [reflexivity|].
    cbn in *. etrans; [|exact E2]. unfold lptrs. cbn. by rewrite (lt_val _ _ _ _ HS), (lt_ksuf _ _ _ _ HS).
Qed.
End Up.

(** membership after removing / adding *)
Definition drop_if (pb : bool) (p : N) (s : gset N) : gset N := if pb then s ∖ {[p]} else s.

Lemma cwp_up_r {A} i nl hs un ns pr pe tp zs w p n n2 (pb : bool) (r : A) f (Q : A -> world -> Prop) :
  At i (L nl hs un ns pr pe tp zs) w -> nl !! p = Some n -> p ∉ ns ->
  (forall m pv pa, heap m !! p = Some (rep pv pa n) -> f m = Ok (r, mwith_heap (<[p := rep pv pa n2]> (heap m)) m)) ->
  (forall w1, Rely i w w1 -> At i (L nl hs un ns pr pe tp zs) w1 -> NStep w1 p n n2 /\
    (p ∉ pr \/ pb = true -> v_is_locked (nver n2) = true) /\
    (root (wm w1) = p -> v_is_root (nver n) = true -> v_is_root (nver n2) = true)) ->
  (forall w', At i (L (<[p := n2]> nl) hs un ns (drop_if pb p pr) pe tp zs) w' -> Mono w w' -> (pb = true -> p ∈ wpub w') -> Q r w') ->
  cwp i (atomic f) w Q.
Proof.
  intros A0 Hn Hns Hf HS HQ. apply cwp_step. intros w1 R I. pose proof (at_rely _ _ _ _ R I A0) as A1.
  destruct (at_here _ _ _ _ _ A1 Hn) as (Ho & pv & pa & Hp).
  destruct (HS w1 R A1) as (S1 & S2 & S3).
  assert (p ∉ wnas w1) as Hnas by (intros H; apply Hns, (at_nas _ _ _ A1); done).
  assert (U : Upd i w1 p (rep pv pa n) (rep pv pa n2) (wown w1) (pub_if p pb w1) (wnas w1) (wseq w1) (wvl w1)).
  { apply up_Upd; try done. intros [H|H]; apply S2; [|by right]. left. intros H'. by apply (at_pr _ _ _ A1) in H' as [_ ?]. }
  exists r, (up p pb w1 (rep pv pa n2)). pose proof (upd_inv _ _ _ _ _ _ _ _ _ _ I U) as I2.
  pose proof (upd_guar _ _ _ _ _ _ _ _ _ _ I U) as G2.
  split; [by apply Hf|]. split; [done|]. split; [done|].
  assert (Hpar : forall c n', hp (up p pb w1 (rep pv pa n2)) !! c = Some n' -> exists n0, hp w1 !! c = Some n0 /\ npar n' = npar n0).
  { intros c n' Hc. unfold up, hp in Hc. cbn in Hc. destruct (decide (c = p)) as [->|Hne].
    - rewrite lookup_insert in Hc. injection Hc as <-. exists (rep pv pa n). by rewrite !rep_par.
    - rewrite lookup_insert_ne in Hc by done. by exists n'. }
  apply HQ; [|eapply mono_trans; [apply R|by eapply guar_mono]|].
  2:{ intros ->. cbn. apply elem_of_union_l. by apply elem_of_singleton. }
  split; cbn [Conc.nl Conc.hs Conc.un Conc.ns Conc.pr Conc.pe Conc.tp Conc.zs]; try (exact I2 || apply A1).
  - intros x. cbn. rewrite (at_own _ _ _ A1). cbn. destruct (decide (x = p)) as [->|]; [rewrite lookup_insert, Hn|by rewrite lookup_insert_ne].
    split; intros _; by eexists.
  - intros x nx. unfold up, hp. cbn. destruct (decide (x = p)) as [->|].
    + rewrite !lookup_insert. intros [= <-]. eexists. split; [done|]. apply rep_strip.
    + rewrite !lookup_insert_ne by done. apply A1.
  - intros q Hq. cbn.
    assert (q ∈ pr) as Hq' by (unfold drop_if in Hq; destruct pb; [apply elem_of_difference in Hq as [? _]; done|done]).
    destruct (at_pr _ _ _ A1 q Hq') as [H1 H2]. split; [done|]. unfold pub_if, drop_if in *. destruct pb; [|done].
    apply elem_of_difference in Hq as [_ Hq]. rewrite elem_of_singleton in Hq. rewrite elem_of_union, elem_of_singleton. tauto.
  - intros q l Hq. destruct (at_pe _ _ _ A1 q l Hq) as (H1 & H2 & H3). split; [done|]. split.
    + intros c n' Hc. destruct (Hpar c n' Hc) as (n0 & Hc0 & ->). by apply H2.
    + intros c Hc. destruct (H3 c Hc) as [n0 Hn0]. unfold up, hp. cbn. destruct (decide (c = p)) as [->|];
        [rewrite lookup_insert; by eexists|rewrite lookup_insert_ne by done; by eexists].
  - intros q Hq. destruct (at_tp _ _ _ A1 q Hq) as [H1 H2]. split; [done|]. intros n' Hc Hz.
    destruct (Hpar q n' Hc) as (n0 & Hc0 & E). rewrite E in Hz. by apply (H2 n0).
  - intros q Hq. destruct (at_zs _ _ _ A1 q Hq) as [H1 H2]. split; [done|]. intros n' Hc.
    destruct (Hpar q n' Hc) as (n0 & Hc0 & ->). by apply H2.
Qed.
Lemma cwp_up {A} i nl hs un ns pr pe tp zs w p n n2 (pb : bool) (r : A) f (Q : A -> world -> Prop) :
  At i (L nl hs un ns pr pe tp zs) w -> nl !! p = Some n -> p ∉ ns ->
  (forall m pv pa, heap m !! p = Some (rep pv pa n) -> f m = Ok (r, mwith_heap (<[p := rep pv pa n2]> (heap m)) m)) ->
  (forall w1, Mono w w1 -> At i (L nl hs un ns pr pe tp zs) w1 -> NStep w1 p n n2 /\
    (p ∉ pr \/ pb = true -> v_is_locked (nver n2) = true) /\
    (root (wm w1) = p -> v_is_root (nver n) = true -> v_is_root (nver n2) = true)) ->
  (forall w', At i (L (<[p := n2]> nl) hs un ns (drop_if pb p pr) pe tp zs) w' -> Mono w w' -> (pb = true -> p ∈ wpub w') -> Q r w') ->
  cwp i (atomic f) w Q.
Proof.
  intros A0 Hn Hns Hf HS HQ. eapply cwp_up_r; [done|done|done|done| |done]. intros w1 R1 A1. apply HS; [apply R1|done].
Qed.

(** ** locking *)
Definition nset (v : N) (n : node) : node := match n with
  | NLeaf l => NLeaf (with_ver v l) | NInode x => NInode (iwith_ver v x) end.
Lemma nset_ver v n : nver (nset v n) = v. Proof. by destruct n. Qed.
Lemma nset_par v n : npar (nset v n) = npar n. Proof. by destruct n. Qed.
Lemma nset_lev v n : nlev (nset v n) = nlev n. Proof. by destruct n. Qed.
Lemma nset_rep v pv pa n : nset v (rep pv pa n) = rep pv pa (nset v n). Proof. by destruct n. Qed.
Lemma wr_ver_at p v m n : heap m !! p = Some n -> wr_ver p v m = mwith_heap (<[p := nset v n]> (heap m)) m.
Proof. unfold wr_ver. intros ->. by destruct n. Qed.
Lemma rd_ver_at p m n : heap m !! p = Some n -> rd_ver p m = Some (nver n).
Proof. unfold rd_ver. intros ->. by destruct n. Qed.
Lemma node_ok_nset w w' p n v : node_ok w p n -> (forall k x, ptr_ok w k x -> ptr_ok w' k x) -> wvl w' = wvl w -> wtag w' = wtag w ->
  wbh w' = wbh w -> bags (wm w') = bags (wm w) ->
  (exists md rt, vbits v md rt (nleaf n)) -> (nleaf n = true -> vcnt v = (wseq w' p mod 2 ^ 25)%N) ->
  (forall l, n = NLeaf l -> v_is_splitting v = false -> is_frozen (l_perm l) = false) ->
  node_ok w' p (nset v n).
Proof.
  intros [H1 H2] Hp Hv Ht Hh Hbg Hb Hc Hs. split; [rewrite nset_lev, nset_par; by apply Hp|]. destruct n as [l|x]; cbn in *.
  - destruct H2 as [A1 A2 A3 A4 A5 A6 A7 A8 A9 A10 A11]. split; try done.
    + cbn. by rewrite Hh.
    + by apply Hp.
    + by apply Hc.
    + intros s h. cbn. rewrite Hv. apply A8.
    + intros s h. cbn. rewrite Ht. apply A9.
    + intros Hsp. by apply (Hs l eq_refl).
    + intros Hfr s Hs'. eapply (slot_ok_eq w); [..|by apply (A11 Hfr)]; try done. by rewrite Ht.
  - destruct H2 as [A1 A2 A3 A4]. split; try done. intros c Hc'. by apply Hp, A4.
Qed.
Lemma node_vbits w p n : node_ok w p n -> exists md rt, vbits (nver n) md rt (nleaf n).
Proof. intros [_ H]. destruct n; apply H. Qed.

Definition add_kids (p : N) (n : node) (pe : gmap N (list N)) : gmap N (list N) :=
  match n with NInode x => <[p := kids x]> pe | _ => pe end.
Definition locked_node (n : node) : Prop :=
  match n with NLeaf l => leaf_good l | NInode x => NoDup (kids x) /\ 0%N ∉ kids x end.

Lemma lock_step i nl hs un ns pr pe tp zs w p n : At i (L nl hs un ns pr pe tp zs) w -> p ∈ wpub w -> p ∉ wnas w ->
  hp w !! p = Some n -> v_can_lock (nver n) = true ->
  let n2 := nset (v_locked (nver n)) n in
  exists w2, wm w2 = mwith_heap (<[p := n2]> (hp w)) (wm w) /\ Guar i w w2 /\
    At i (L (<[p := n2]> nl) hs un ns pr (add_kids p n pe) ({[p]} ∪ tp) zs) w2 /\
    hp w2 !! p = Some n2 /\
    locked_node n /\ (exists rt, vbits (nver n2) MIns rt (nleaf n2)) /\ wown w !! p = None.
Proof.
  intros A Hpub Hnas Hp Hc n2. pose proof (at_inv _ _ _ A) as I. pose proof (iv_node _ I p n Hp) as Hok.
  destruct (node_vbits _ _ _ Hok) as (md & rt & Hvb).
  assert (md = MFree) as ->.
  { rewrite can_lock_bits, <- is_locked_bit in Hc. pose proof (vbits_lockedf _ _ _ _ Hvb) as E. destruct md; [done|..]; rewrite E in Hc; done. }
  assert (Hlk : v_is_locked (nver n) = false) by (by rewrite (vbits_lockedf _ _ _ _ Hvb)).
  assert (Hown : wown w !! p = None) by (by apply (iv_lock _ I p n)).
  pose proof (iv_good _ I p n Hp Hown) as Hgood.
  assert (Hvb2 : vbits (v_locked (nver n)) MIns rt (nleaf n)) by (by apply vbits_locked).
  pose (own2 := <[p := i]> (wown w)). set (w2 := upd w p n2 own2 (wpub w) (wnas w) (wseq w) (wvl w)).
  assert (Hptr : forall k x, ptr_ok w k x -> ptr_ok w2 k x).
  { intros k x [->|[H1 H2]]; [by left|]. right. split; [done|]. unfold lev, w2, hp at 1. cbn.
    destruct (decide (x = p)) as [->|Hne]; [rewrite lookup_insert|by rewrite lookup_insert_ne].
    unfold lev in H2. rewrite Hp in H2. unfold n2. cbn in *. rewrite nset_lev. congruence. }
  assert (U : Upd i w p n n2 own2 (wpub w) (wnas w) (wseq w) (wvl w)).
  { split; try done.
    - apply nset_lev.
    - apply (node_ok_nset w); try done.
      + by exists MIns, rt.
      + intros Hl. rewrite locked_vcnt. destruct n as [l|]; [|done]. apply Hok.
      + intros l -> _. apply Hok. cbn in Hvb. unfold spl. by rewrite (vbits_splitting _ _ _ _ Hvb).
    - by left.
    - intros l ->. eexists. split; [reflexivity|]. split; [lia|]. intros _ Hs. split; [|done].
      unfold spl in *. cbn in *. rewrite (vbits_splitting _ _ _ _ Hvb). done.
    - intros x. unfold own2. destruct (decide (x = p)) as [->|]; [|left; by rewrite lookup_insert_ne].
      right. rewrite lookup_insert. split; [by left|]. split; [by left|by right].
    - intros x n' Hx Ho [->|Hx'].
      + unfold own2 in Ho. by rewrite lookup_insert in Ho.
      + unfold own2 in Ho. destruct (decide (x = p)) as [->|]; [by rewrite lookup_insert in Ho|]. by rewrite lookup_insert_ne in Ho.
    - unfold n2. by rewrite nset_par.
    - intros j Hj Hj'. congruence.
    - intros x n' Hx H1 H2 [->|H3]; [|done]. rewrite lookup_insert in Hx. injection Hx as <-. unfold own2, n2.
      rewrite lookup_insert, nset_ver, (vbits_lockedf _ _ _ _ Hvb2). split; congruence.
    - intros x H1 H2. unfold own2. destruct (decide (x = p)) as [->|]; [by rewrite lookup_insert|]. rewrite lookup_insert_ne by done.
      destruct H2 as [y Hy]. by apply (iv_priv _ I x y).
    - intros q Hq. destruct (iv_nas _ I q Hq) as (j & i0 & N1 & N2 & N3). exists j, i0. unfold own2.
      assert (q <> p) as Hqp by congruence. rewrite !lookup_insert_ne by done. split; [done|]. split; [done|].
      intros c n' Hc' Hcq. destruct (decide (c = p)) as [->|Hne].
      + rewrite lookup_insert in Hc'. injection Hc' as <-. unfold n2 in Hcq. rewrite nset_par in Hcq.
        rewrite (N3 p n Hp Hcq) in Hown. done.
      + rewrite lookup_insert_ne in Hc' by done. rewrite lookup_insert_ne by done. by eapply N3.
    - intros Hr. destruct (iv_root _ I) as (nr & R1 & R2 & R3 & R4). rewrite Hr, Hp in R1. injection R1 as <-.
      unfold n2. rewrite nset_par, nset_ver. split; [|done]. rewrite (vbits_rootf _ _ _ _ Hvb2). by rewrite (vbits_rootf _ _ _ _ Hvb) in R3.
    - intros h s Hs. destruct (iv_slot _ I h p s Hs) as (l & E1 & E2). rewrite Hp in E1. injection E1 as ->. by eexists. }
  pose proof (upd_inv _ _ _ _ _ _ _ _ _ _ I U) as I2. pose proof (upd_guar _ _ _ _ _ _ _ _ _ _ I U) as G2.
  exists w2. split; [done|]. split; [done|]. split; [|split; [|split; [|split]]].
  - assert (Hpar : forall c n', hp w2 !! c = Some n' -> exists n0, hp w !! c = Some n0 /\ npar n' = npar n0).
    { intros c n' Hc'. unfold w2, hp in Hc'. cbn in Hc'. destruct (decide (c = p)) as [->|Hne].
      - rewrite lookup_insert in Hc'. injection Hc' as <-. exists n. unfold n2. by rewrite nset_par.
      - rewrite lookup_insert_ne in Hc' by done. by exists n'. }
    assert (Hdom : forall c, is_Some (hp w !! c) -> is_Some (hp w2 !! c)).
    { intros c Hc'. unfold w2, hp. cbn. destruct (decide (c = p)) as [->|]; [rewrite lookup_insert; by eexists|by rewrite lookup_insert_ne]. }
    assert (Hkeep : forall q, wown w !! q = Some i -> wown w2 !! q = Some i).
    { intros q Hq. cbn. unfold own2. rewrite lookup_insert_ne; [done|congruence]. }
    assert (Hpe : forall q l, wown w2 !! q = Some i -> pareq w q l -> (forall c, c ∈ l -> is_Some (hp w !! c)) ->
       wown w2 !! q = Some i /\ pareq w2 q l /\ forall c, c ∈ l -> is_Some (hp w2 !! c)).
    { intros q l H1 H2 H3. split; [done|]. split; [|auto]. intros c n' Hc'. destruct (Hpar c n' Hc') as (n0 & Hc0 & ->). by apply H2. }
    assert (Hownp : wown w2 !! p = Some i) by (cbn; unfold own2; by rewrite lookup_insert).
    split; cbn [Conc.nl Conc.hs Conc.un Conc.ns Conc.pr Conc.pe Conc.tp Conc.zs]; try (exact I2 || apply A).
    + intros x. cbn. unfold own2. destruct (decide (x = p)) as [->|]; [rewrite !lookup_insert; split; [by eexists|done]|].
      rewrite !lookup_insert_ne by done. apply A.
    + intros x nx. unfold w2, hp. cbn. destruct (decide (x = p)) as [->|].
      * rewrite !lookup_insert. intros [= <-]. by eexists.
      * rewrite !lookup_insert_ne by done. apply A.
    + intros q. cbn. rewrite <- (at_nas _ _ _ A q). unfold own2. destruct (decide (q = p)) as [->|].
      * rewrite Hown. split; [tauto|]. intros [_ ?]. done.
      * by rewrite lookup_insert_ne.
    + intros q Hq. destruct (at_pr _ _ _ A q Hq) as [H1 H2]. split; [by apply Hkeep|done].
    + intros q l Hq. assert (q <> p -> pe !! q = Some l -> wown w2 !! q = Some i /\ pareq w2 q l /\ forall c, c ∈ l -> is_Some (hp w2 !! c)) as Hold.
      { intros Hne E. destruct (at_pe _ _ _ A q l E) as (H1 & H2 & H3). apply Hpe; auto. }
      destruct (decide (q = p)) as [->|Hne].
      * destruct n as [ll|x]; cbn in Hq.
        -- destruct (at_pe _ _ _ A p l Hq) as (H1 & _). congruence.
        -- rewrite lookup_insert in Hq. injection Hq as <-. destruct Hgood as [(G1 & G2' & G3) _]. apply Hpe; [done|done|].
           intros c Hc'. destruct Hok as [_ Ho]. destruct (io_child _ _ Ho c) as [->|[H1 _]]; [|by destruct G2'|by apply (iv_pub _ I)].
           unfold kids in Hc'. rewrite elem_of_take in Hc'. destruct Hc' as (j & Hj & _). by eapply elem_of_list_lookup_2.
      * apply Hold; [done|]. destruct n as [ll|x]; cbn in Hq; [done|]. by rewrite lookup_insert_ne in Hq.
    + intros q Hq. rewrite elem_of_union, elem_of_singleton in Hq. destruct Hq as [->|Hq].
      * split; [done|]. intros n' Hc' Hz. destruct (Hpar p n' Hc') as (n0 & Hc0 & E). rewrite Hp in Hc0. injection Hc0 as <-.
        apply Hgood. congruence.
      * destruct (at_tp _ _ _ A q Hq) as [H1 H2]. split; [by apply Hkeep|]. intros n' Hc' Hz.
        destruct (Hpar q n' Hc') as (n0 & Hc0 & E). rewrite E in Hz. by apply (H2 n0).
    + intros q Hq. destruct (at_zs _ _ _ A q Hq) as [H1 H2]. split; [by apply Hkeep|]. intros n' Hc'.
      destruct (Hpar q n' Hc') as (n0 & Hc0 & ->). by apply H2.
  - unfold w2, hp. cbn. by rewrite lookup_insert.
  - destruct Hgood as [Hg _]. destruct n as [l|x]; cbn in *; [done|]. by destruct Hg as (? & ? & _).
  - exists rt. unfold n2. rewrite nset_ver. destruct n; done.
  - done.
Qed.

Lemma cwp_lock i nl hs un ns pr pe tp zs w p k F (Q : N -> world -> Prop) :
  At i (L nl hs un ns pr pe tp zs) w -> p ∈ wpub w -> p ∉ wnas w -> lev w p = Some k ->
  (forall w' n rt, At i (L (<[p := n]> nl) hs un ns pr (add_kids p n pe) ({[p]} ∪ tp) zs) w' -> Mono w w' ->
     nlev n = k -> hp w' !! p = Some n -> locked_node n -> nl !! p = None ->
     vbits (nver n) MIns rt (nleaf n) -> Q (nver n) w') ->
  cwp i (lock F p) w Q.
Proof.
  intros A0 Hpub Hnas Hlev HQ. unfold lock. revert w A0 Hpub Hnas Hlev HQ. induction F as [|F IH]; intros w A0 Hpub Hnas Hlev HQ; [by left|].
  cbn [ver_lock]. unfold ver_load. apply cwp_bind, cwp_step. intros w1 R1 I1.
  pose proof (rl_mono _ _ _ R1) as M1. pose proof (at_rely _ _ _ _ R1 I1 A0) as A1.
  pose proof (mo_lev _ _ M1 p k Hlev) as L1. unfold lev in L1. destruct (hp w1 !! p) as [n1|] eqn:E1; [|done].
  unfold hp in E1. rewrite (rd_ver_at _ _ _ E1). exists (nver n1), (tick w1). split; [done|]. split; [by apply tick_inv|].
  split; [by apply tick_guar|].
  assert (Rely i w (tick w1)) as R1' by (eapply rely_trans; [exact R1|apply tick_rely]).
  pose proof (rl_mono _ _ _ R1') as M1'.
  pose proof (at_rely _ _ _ _ R1' (tick_inv _ I1) A0) as A1'.
  assert (Hrec : forall w2, Rely i (tick w1) w2 -> Inv w2 -> cwp i (ver_lock (rd_ver p) (wr_ver p) F) w2 Q).
  { intros w2 R2 I2. pose proof (rely_trans _ _ _ _ R1' R2) as R3. pose proof (rl_mono _ _ _ R3) as M3. apply IH.
    - by eapply at_rely.
    - by apply M3.
    - by apply M3.
    - by apply M3.
    - intros w' n rt B1 B2. apply HQ; [done|]. by eapply mono_trans. }
  destruct (v_can_lock (nver n1)) eqn:Ec; [|apply Hrec; [apply rely_refl|by apply tick_inv]].
  unfold ver_cas. apply cwp_bind, cwp_step. intros w2 R2 I2. pose proof (rely_trans _ _ _ _ R1' R2) as R3.
  pose proof (rl_mono _ _ _ R3) as M3. pose proof (at_rely _ _ _ _ R3 I2 A0) as A2.
  pose proof (mo_lev _ _ M3 p k Hlev) as L2. unfold lev in L2. destruct (hp w2 !! p) as [n2|] eqn:E2; [|done].
  unfold hp in E2. rewrite (rd_ver_at _ _ _ E2). destruct (N.eqb_spec (nver n2) (nver n1)) as [Ev|Ev].
  - rewrite (wr_ver_at _ _ _ _ E2).
    destruct (lock_step i _ _ _ _ _ _ _ _ w2 p n2 A2) as (w3 & H1 & H2 & H3 & H4 & H5 & [rt H6] & H7).
    { by apply M3. } { by apply M3. } { done. } { by rewrite Ev. }
    rewrite <- Ev. exists true, w3. split; [by rewrite H1|]. split; [apply H3|]. split; [done|]. cbn.
    replace (v_locked (nver n2)) with (nver (nset (v_locked (nver n2)) n2)) by apply nset_ver.
    apply (HQ w3 _ rt).
    + clear -H3. by destruct n2.
    + eapply mono_trans; [exact M3|by eapply guar_mono].
    + rewrite nset_lev. cbn in L2. congruence.
    + done.
    + clear -H5. destruct n2; [|done]. cbn in *. by destruct H5 as [B1 B2 B3 B4 B5].
    + destruct (nl !! p) eqn:En; [|done]. assert (wown w2 !! p = Some i) by (apply (at_own _ _ _ A2); by eexists). congruence.
    + done.
  - exists false, (tick w2). split; [done|]. split; [by apply tick_inv|]. split; [by apply tick_guar|].
    apply Hrec; [|by apply tick_inv]. eapply rely_trans; [exact R2|apply tick_rely].
Qed.

(** ** unlocking *)
Definition release_ok (w : world) (p : N) (n : node) (pe : gmap N (list N)) (tp : gset N) : Prop :=
  p ∈ tp /\
  match n with
  | NLeaf l => leaf_good l /\ is_frozen (l_perm l) = false
  | NInode x => NoDup (kids x) /\ 0%N ∉ kids x /\ exists l, pe !! p = Some l /\ forall c, c ∈ l <-> c ∈ kids x
  end.
Lemma cwp_release i nl hs un pr pe tp zs w p n lv md rt (Q : unit -> world -> Prop) :
  At i (L nl hs un ∅ pr pe tp zs) w -> nl !! p = Some n -> p ∉ pr ->
  md <> MFree -> vbits lv md rt (nleaf n) -> vcnt lv = vcnt (nver n) ->
  (forall w1, Mono w w1 -> At i (L nl hs un ∅ pr pe tp zs) w1 -> release_ok w1 p n pe tp) ->
  (forall w1, Mono w w1 -> At i (L nl hs un ∅ pr pe tp zs) w1 -> p ∈ wpub w1) ->
  (forall w1, Mono w w1 -> At i (L nl hs un ∅ pr pe tp zs) w1 -> root (wm w1) = p -> unlocked_rt md rt = true) ->
  (forall w', At i (L (delete p nl) hs un ∅ pr (delete p pe) (tp ∖ {[p]}) (zs ∖ {[p]})) w' -> Mono w w' -> Q tt w') ->
  cwp i (unlock p lv) w Q.
Proof.
  intros A0 Hn Hprv Hmd Hlv Hcnt HR HP Hroot HQ. unfold unlock, guard_drop, ver_store. apply cwp_step.
  intros w1 R1 I1. pose proof (rl_mono _ _ _ R1) as M1. pose proof (at_rely _ _ _ _ R1 I1 A0) as A1.
  destruct (at_here _ _ _ _ _ A1 Hn) as (Ho & pv & pa & Hp). specialize (HR w1 M1 A1). specialize (HP w1 M1 A1). specialize (Hroot w1 M1 A1).
  pose proof Hp as Hp'. unfold hp in Hp'. rewrite (rd_ver_at _ _ _ Hp'), (wr_ver_at _ _ _ _ Hp'). clear Hp'.
  set (v2 := v_unlock lv). set (n1 := rep pv pa n) in *. set (n2 := nset v2 n1).
  assert (Hvb2 : vbits v2 MFree (unlocked_rt md rt) (nleaf n)) by (by apply vbits_unlock).
  assert (Hgrow : exists d, (1 <= d <= 64)%N /\ vcnt v2 = ((vcnt (nver n) + d) mod 2 ^ 25)%N).
  { unfold v2. destruct (unlock_fields lv) as (_ & _ & _ & _ & E & _); [apply Hlv|]. rewrite <- Hcnt.
    destruct (bump_growth (bit lv 2) (bit lv 1) (vcnt lv)) as (d & D1 & D2 & _).
    - pose proof (vbits_splitting _ _ _ _ Hlv) as Es. rewrite is_splitting_bit in Es. destruct md; [done| |by rewrite Es].
      pose proof (vbits_inserting _ _ _ Hlv) as Ei. rewrite is_inserting_bit in Ei. rewrite Ei. by destruct (bit lv 2).
    - apply vcnt_lt.
    - exists d. split; [done|]. by rewrite <- D2. }
  destruct Hgrow as (d & Hd & Hv2).
  pose (own2 := delete p (wown w1)). pose (seq2 := fun x => if decide (x = p) then (wseq w1 p + d)%N else wseq w1 x).
  set (w2 := upd w1 p n2 own2 (wpub w1) (wnas w1) seq2 (wvl w1)).
  assert (Hnas : p ∉ wnas w1) by (intros H; by apply (not_elem_of_empty (C := gset N) p), (at_nas _ _ _ A1)).
  assert (Hnas' : forall q j, q ∈ wnas w1 -> wown w1 !! q = Some j -> j <> i).
  { intros q j H H' ->. by apply (not_elem_of_empty (C := gset N) q), (at_nas _ _ _ A1). }
  assert (Hptr : forall k x, ptr_ok w1 k x -> ptr_ok w2 k x).
  { intros k x [->|[H1 H2]]; [by left|]. right. split; [done|]. unfold lev, w2, hp at 1. cbn.
    destruct (decide (x = p)) as [->|Hne]; [rewrite lookup_insert|by rewrite lookup_insert_ne].
    unfold lev in H2. rewrite Hp in H2. unfold n2. cbn in *. rewrite nset_lev. congruence. }
  assert (Hpar : forall c n', hp w2 !! c = Some n' -> exists n0, hp w1 !! c = Some n0 /\ npar n' = npar n0).
  { intros c n' Hc'. unfold w2, hp in Hc'. cbn in Hc'. destruct (decide (c = p)) as [->|Hne].
    - rewrite lookup_insert in Hc'. injection Hc' as <-. exists n1. unfold n2. by rewrite nset_par.
    - rewrite lookup_insert_ne in Hc' by done. by exists n'. }
  assert (Hgood : node_good w2 p n2).
  { destruct HR as [T1 T2]. split.
    - unfold n2, n1. destruct n as [l|x]; cbn in *.
      + destruct T2 as [[B1 B2 B3 B4 B5] _]. by split.
      + destruct T2 as (B1 & B2 & l & B3 & B4). split; [done|]. split; [done|]. intros c n' Hc. 
        destruct (at_pe _ _ _ A1 p l B3) as (_ & C2 & _). destruct (Hpar c n' Hc) as (n0 & Hc0 & ->).
        rewrite (C2 c n0 Hc0). apply B4.
    - intros Hz. unfold n2 in Hz. rewrite nset_par in Hz. destruct (at_tp _ _ _ A1 p T1) as [_ C2]. by apply (C2 n1). }
  assert (Hnl : nleaf n1 = nleaf n) by (unfold n1; by destruct n).
  assert (U : Upd i w1 p n1 n2 own2 (wpub w1) (wnas w1) seq2 (wvl w1)).
  { split; try done.
    - apply nset_lev.
    - apply (node_ok_nset w1); try done.
      + by apply I1.
      + exists MFree. rewrite Hnl. by eexists.
      + intros Hl. cbn. unfold seq2. rewrite decide_True by done. rewrite Hv2. rewrite Hnl in Hl. destruct n as [l|]; [|done]. cbn.
        destruct (iv_node _ I1 p _ Hp) as [_ Hok]. pose proof (lo_seq _ _ _ Hok) as Es. cbn [rep with_prev with_parent l_ver] in Es. rewrite Es. by apply N.add_mod_idemp_l.
      + intros l El _. destruct HR as [_ T2]. unfold n1 in El. destruct n as [l0|]; [|done]. cbn in El. injection El as <-. apply T2.
    - by left.
    - intros x Hx. unfold seq2. by rewrite decide_False.
    - intros l El. unfold n2. rewrite El. eexists. split; [reflexivity|]. unfold seq2. rewrite decide_True by done. split; [lia|]. lia.
    - intros x. unfold own2. destruct (decide (x = p)) as [->|]; [|left; by rewrite lookup_delete_ne].
      right. rewrite lookup_delete. split; [by left|]. split; [by right|by left].
    - intros x n' Hx Ho' [->|Hx'].
      + rewrite lookup_insert in Hx. injection Hx as <-. done.
      + unfold own2 in Ho'. destruct (decide (x = p)) as [->|].
        * rewrite lookup_insert in Hx. injection Hx as <-. done.
        * by rewrite lookup_delete_ne in Ho'.
    - unfold n2. by rewrite nset_par.
    - intros j Hj Hj'. congruence.
    - intros x n' Hx H1 H2 [->|H3]; [|done]. rewrite lookup_insert in Hx. injection Hx as <-. unfold own2, n2.
      rewrite lookup_delete, nset_ver, (vbits_lockedf _ _ _ _ Hvb2). done.
    - intros x H1 H2. unfold own2. destruct (decide (x = p)) as [->|]; [done|]. rewrite lookup_delete_ne by done.
      destruct H2 as [y Hy]. by apply (iv_priv _ I1 x y).
    - intros q Hq. destruct (iv_nas _ I1 q Hq) as (j & i0 & N1 & N2 & N3). exists j, i0. unfold own2.
      assert (q <> p) as Hqp by congruence. rewrite lookup_insert_ne, lookup_delete_ne by done. split; [done|]. split; [done|].
      intros c n' Hc' Hcq. destruct (decide (c = p)) as [->|Hne].
      + rewrite lookup_insert in Hc'. injection Hc' as <-. unfold n2 in Hcq. rewrite nset_par in Hcq.
        pose proof (N3 p n1 Hp Hcq) as E. by destruct (Hnas' q j Hq N1); congruence.
      + rewrite lookup_insert_ne in Hc' by done. rewrite lookup_delete_ne by done. by eapply N3.
    - intros Hr. destruct (iv_root _ I1) as (nr & S1 & S2 & S3 & S4). rewrite Hr, Hp in S1. injection S1 as <-.
      unfold n2. rewrite nset_par, nset_ver. split; [|done]. rewrite (vbits_rootf _ _ _ _ Hvb2). by apply Hroot.
    - intros h s Hs. destruct (iv_slot _ I1 h p s Hs) as (l & E1 & E2). rewrite Hp in E1. injection E1 as E1.
      unfold n2. rewrite E1. by eexists. }
  pose proof (upd_inv _ _ _ _ _ _ _ _ _ _ I1 U) as I2. pose proof (upd_guar _ _ _ _ _ _ _ _ _ _ I1 U) as G2.
  exists tt, w2. split; [done|]. split; [done|]. split; [done|].
  apply HQ; [|eapply mono_trans; [exact M1|by eapply guar_mono]].
  assert (Hdom : forall c, is_Some (hp w1 !! c) -> is_Some (hp w2 !! c)).
  { intros c Hc'. unfold w2, hp. cbn. destruct (decide (c = p)) as [->|]; [rewrite lookup_insert; by eexists|by rewrite lookup_insert_ne]. }
  assert (Hkeep : forall q, q <> p -> wown w1 !! q = Some i -> wown w2 !! q = Some i).
  { intros q Hne Hq. cbn. unfold own2. by rewrite lookup_delete_ne. }
  split; cbn [Conc.nl Conc.hs Conc.un Conc.ns Conc.pr Conc.pe Conc.tp Conc.zs]; try (exact I2 || apply A1).
  - intros x. cbn. unfold own2. destruct (decide (x = p)) as [->|]; [rewrite !lookup_delete; split; [done|by intros [? ?]]|].
    rewrite !lookup_delete_ne by done. apply A1.
  - intros x nx. unfold w2, hp. cbn. destruct (decide (x = p)) as [->|].
    + by rewrite lookup_delete.
    + rewrite lookup_delete_ne, lookup_insert_ne by done. apply A1.
  - intros q. cbn. rewrite <- (at_nas _ _ _ A1 q). unfold own2. destruct (decide (q = p)) as [->|].
    + rewrite lookup_delete. split; [by intros [_ ?]|]. by intros [? _].
    + by rewrite lookup_delete_ne.
  - intros q Hq. destruct (at_pr _ _ _ A1 q Hq) as [H1 H2]. split; [|done]. apply Hkeep; [|done]. intros ->. done.
  - intros q l Hq. destruct (decide (q = p)) as [->|Hne]; [by rewrite lookup_delete in Hq|]. rewrite lookup_delete_ne in Hq by done.
    destruct (at_pe _ _ _ A1 q l Hq) as (H1 & H2 & H3). split; [by apply Hkeep|]. split; [|auto].
    intros c n' Hc'. destruct (Hpar c n' Hc') as (n0 & Hc0 & ->). by apply H2.
  - intros q Hq. rewrite elem_of_difference, elem_of_singleton in Hq. destruct Hq as [Hq Hne].
    destruct (at_tp _ _ _ A1 q Hq) as [H1 H2]. split; [by apply Hkeep|]. intros n' Hc' Hz.
    destruct (Hpar q n' Hc') as (n0 & Hc0 & E). rewrite E in Hz. by apply (H2 n0).
  - intros q Hq. rewrite elem_of_difference, elem_of_singleton in Hq. destruct Hq as [Hq Hne].
    destruct (at_zs _ _ _ A1 q Hq) as [H1 H2]. split; [by apply Hkeep|]. intros n' Hc'.
    destruct (Hpar q n' Hc') as (n0 & Hc0 & ->). by apply H2.
Qed.
