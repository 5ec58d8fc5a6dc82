(** How splits change the skeleton of the tree. *)
From Verif Require Import Base Mem TreeState TreePrim TreeInv.

(** what a node keeps when its neighbourhood changes *)
Record sim (a a' : snode) : Prop := {
  sm_lid : lid a' = lid a; sm_pre : pre a' = pre a; sm_lo : lo a' = lo a; sm_xh : xh a' = xh a;
  sm_rt : n_rt a' = n_rt a; sm_pa : n_pa a' = n_pa a; sm_lvl : lvl a' = lvl a;
  sm_in : forall J, n_sb a' = SI J <-> n_sb a = SI J }.
Lemma sim_refl a : sim a a. Proof. by split. Qed.
Lemma lvl0 n : lvl n = 0 -> exists nx pv, n_sb n = SL nx pv.
Proof. unfold lvl. destruct (n_sb n); [eauto|done]. Qed.
Lemma lvl_leaf n nx pv : n_sb n = SL nx pv -> lvl n = 0.
Proof. unfold lvl. intros ->. done. Qed.

Section LeafSplit.
Context (S S' : gmap N snode) (R p q : N) (n : snode) (nx pv sk : N).
Context (I : SInv S R 0 0) (Hp : S !! p = Some n) (Hsb : n_sb n = SL nx pv) (Hq : S !! q = None) (Hq0 : q <> 0%N).
Context (Hsk : (lo n < sk <= hi n)%N) (Hst : (sk < TOP)%N).
(** no two neighbouring empty spans *)
Context (Hdd : forall z zn nz pz yn, S !! z = Some zn -> n_sb zn = SL nz pz -> nz <> 0%N -> S !! nz = Some yn ->
           lo zn = hi zn -> lo yn <> hi yn).
Context (Hdn : sk = hi n -> nx <> 0%N -> forall yn, S !! nx = Some yn -> lo yn <> hi yn).
Definition upd_pv (n : snode) := mk_sn (n_gh n) (n_rt n) (n_pa n) (match n_sb n with SL a b => SL a q | SI J => SI J end).
Definition lsn := mk_sn (mk_gh (lid n) (pre n) (lo n) sk (hi n)) (n_rt n) (n_pa n) (SL q pv).
Definition rsn := mk_sn (mk_gh (lid n) (pre n) sk (hi n) (hi n)) false 0 (SL nx p).
Context (HS' : forall x, S' !! x = if decide (x = p) then Some lsn else if decide (x = q) then Some rsn
                         else if decide (x = nx) then upd_pv <$> S !! x else S !! x).

Lemma ls_ne : p <> q. Proof. intros ->. congruence. Qed.
Lemma ls_p0 : p <> 0%N. Proof. intros ->. rewrite (si_zero _ _ _ _ I) in Hp. done. Qed.
Lemma ls_xh : xh n = hi n.
Proof. apply (go_eq _ _ _ (si_gh _ _ _ _ I p n Hp)). apply ls_p0. Qed.
Lemma ls_nx : nx <> 0%N -> nx <> p /\ nx <> q /\ exists yn nx', S !! nx = Some yn /\ n_sb yn = SL nx' p /\ lid yn = lid n /\ lo yn = hi n.
Proof.
  intros Hz. destruct (lo_nx _ _ _ _ _ (si_leaf _ _ _ _ I p n nx pv Hp Hsb) Hz) as (yn & nx' & E1 & E2 & E3 & E4).
  split; [|split; [|eauto 10]].
  - intros ->. assert (yn = n) by congruence. subst. lia.
  - intros ->. congruence.
Qed.
Lemma ls_p : S' !! p = Some lsn. Proof. rewrite HS'. by rewrite decide_True. Qed.
Lemma ls_q : S' !! q = Some rsn. Proof. pose proof ls_ne. rewrite HS', decide_False, decide_True by done. done. Qed.
Lemma ls_fwd x a : S !! x = Some a -> exists a', S' !! x = Some a' /\ sim a a' /\ (x <> p -> hi a' = hi a) /\
  (x <> p -> x <> nx -> a' = a).
Proof.
  intros Hx. rewrite HS'. destruct (decide (x = p)) as [->|H1].
  - assert (a = n) as -> by congruence. exists lsn. split; [done|]. split; [|split; done].
    split; try done; cbn; [by rewrite ls_xh|unfold lvl; by rewrite Hsb|]. intros J. rewrite Hsb. done.
  - rewrite decide_False by congruence. destruct (decide (x = nx)) as [->|H2].
    + rewrite Hx. exists (upd_pv a). split; [done|]. split; [|split; done].
      split; try done; unfold upd_pv; cbn; [unfold lvl; cbn; by destruct (n_sb a)|]. intros J. by destruct (n_sb a).
    + exists a. split; [done|]. split; [apply sim_refl|done].
Qed.
Lemma ls_bwd x a' : S' !! x = Some a' -> (x = q /\ a' = rsn) \/ (x <> q /\ exists a, S !! x = Some a /\ sim a a' /\ (x <> p -> hi a' = hi a) /\
  (x <> p -> x <> nx -> a' = a)).
Proof.
  intros Hx. destruct (decide (x = q)) as [->|Hxq]; [left; rewrite ls_q in Hx; split; [done|congruence]|right].
  split; [done|]. destruct (S !! x) as [a|] eqn:E.
  - destruct (ls_fwd x a E) as (a'' & E1 & E2). exists a. split; [done|]. by assert (a'' = a') as <- by congruence.
  - rewrite HS' in Hx. destruct (decide (x = p)); [congruence|]. rewrite decide_False in Hx by done.
    rewrite E in Hx. by destruct (decide (x = nx)).
Qed.
Lemma ls_other x a' : S' !! x = Some a' -> x <> p -> x <> q -> x <> nx -> S !! x = Some a'.
Proof. intros Hx H1 H2 H3. rewrite HS' in Hx. by rewrite !decide_False in Hx by done. Qed.

Lemma ls_lok x a' nx' pv' : S' !! x = Some a' -> n_sb a' = SL nx' pv' -> lok S' x (n_gh a') nx' pv'.
Proof.
  intros Hx Hs'. pose proof ls_ne as Hne. pose proof ls_p0 as Hp0. pose proof (si_leaf _ _ _ _ I p n nx pv Hp Hsb) as HLp.
  destruct (decide (x = p)) as [->|Hxp].
  { rewrite ls_p in Hx. injection Hx as <-. cbn in Hs'. injection Hs' as <- <-. split; cbn.
    - done.
    - intros _. exists rsn, nx. rewrite ls_q. done.
    - apply HLp.
    - intros Hz. destruct (lo_pv _ _ _ _ _ HLp Hz) as (z & pz & E1 & E2).
      assert (pv <> p). { intros E. rewrite E in E1. assert (z = n) by congruence. subst z. destruct (ls_nx ltac:(congruence)) as (E' & _). congruence. }
      assert (pv <> q) by congruence.
      destruct (decide (pv = nx)) as [Hn|Hn].
      + exists (upd_pv z), q. rewrite HS', decide_False, decide_False, decide_True, E1 by done. split; [done|]. unfold upd_pv. cbn. by rewrite E2.
      + exists z, pz. by rewrite HS', !decide_False.
    - lia. }
  destruct (decide (x = q)) as [->|Hxq].
  { rewrite ls_q in Hx. injection Hx as <-. cbn in Hs'. injection Hs' as <- <-. split; cbn.
    - apply HLp.
    - intros Hz. destruct (ls_nx Hz) as (N1 & N2 & yn & nx' & E1 & E2 & E3 & E4).
      exists (upd_pv yn), nx'. rewrite HS', !decide_False, decide_True, E1 by done. split; [done|]. unfold upd_pv. cbn. by rewrite E2.
    - done.
    - intros _. exists lsn, pv. by rewrite ls_p.
    - done. }
  destruct (decide (x = nx)) as [->|Hxn].
  { assert (Hz : nx <> 0%N). { intros E. rewrite HS', !decide_False, decide_True in Hx by done. rewrite E, (si_zero _ _ _ _ I) in Hx. done. }
    destruct (ls_nx Hz) as (N1 & N2 & yn & ny & E1 & E2 & E3 & E4).
    rewrite HS', !decide_False, decide_True, E1 in Hx by done. injection Hx as <-. unfold upd_pv in Hs'. cbn in Hs'. rewrite E2 in Hs'.
    injection Hs' as <- <-. pose proof (si_leaf _ _ _ _ I nx yn ny p E1 E2) as HLy. split; cbn.
    - apply HLy.
    - intros Hy. destruct (lo_nx _ _ _ _ _ HLy Hy) as (w & nw & F1 & F2 & F3 & F4).
      destruct (decide (ny = p)) as [->|Hyp].
      + assert (w = n) by congruence. subst w. rewrite Hsb in F2. injection F2 as Fa Fb. exists lsn, q. rewrite ls_p. cbn. rewrite Fb. done.
      + exists w, nw. rewrite HS', !decide_False; try done; [congruence|].
        intros ->. assert (w = yn) by congruence. subst w. congruence.
    - done.
    - intros _. exists rsn, p. by rewrite ls_q.
    - done. }
  pose proof (ls_other _ _ Hx Hxp Hxq Hxn) as Hx0. pose proof (si_leaf _ _ _ _ I x a' nx' pv' Hx0 Hs') as HLx. split.
  - apply HLx.
  - intros Hy. destruct (lo_nx _ _ _ _ _ HLx Hy) as (w & nw & F1 & F2 & F3 & F4).
    destruct (decide (nx' = p)) as [->|Hyp].
    + assert (w = n) by congruence. subst w. rewrite Hsb in F2. injection F2 as Fa Fb. exists lsn, q. rewrite ls_p. cbn. rewrite Fb. done.
    + exists w, nw. rewrite HS', !decide_False; try done; [|congruence].
      intros ->. destruct (ls_nx Hy) as (_ & _ & yn & ny & E1 & E2 & _). assert (w = yn) by congruence. subst w. congruence.
  - apply HLx.
  - intros Hz. destruct (lo_pv _ _ _ _ _ HLx Hz) as (z & pz & E1 & E2).
    assert (pv' <> p) by (intros ->; congruence). assert (pv' <> q) by congruence.
    destruct (decide (pv' = nx)) as [->|Hn].
    + exists (upd_pv z), q. rewrite HS', !decide_False, decide_True, E1 by done. split; [done|]. unfold upd_pv. cbn. by rewrite E2.
    + exists z, pz. by rewrite HS', !decide_False.
  - apply HLx.
Qed.

Lemma ls_hi x a a' : S !! x = Some a -> S' !! x = Some a' -> (hi a' <= hi a)%N /\ (x = p -> hi a' = sk /\ a = n) /\ (x <> p -> hi a' = hi a).
Proof.
  intros H1 H2. destruct (ls_fwd x a H1) as (a'' & E1 & E2 & E3 & _). assert (a'' = a') as -> by congruence.
  destruct (decide (x = p)) as [->|Hx]; [|rewrite E3 by done; done].
  rewrite ls_p in H2. injection H2 as <-. assert (a = n) as -> by congruence. cbn. split; [lia|done].
Qed.
Lemma ls_disj x y a b : S' !! x = Some a -> S' !! y = Some b -> x <> y -> lid a = lid b -> lvl a = 0 -> lvl b = 0 ->
  (hi a <= lo b)%N \/ (hi b <= lo a)%N.
Proof.
  assert (Hqq : forall y b, S' !! y = Some b -> y <> q -> lid b = lid n -> lvl b = 0 -> (hi b <= sk)%N \/ (hi n <= lo b)%N).
  { intros y' b' Hy Hyq Hl Hv. destruct (decide (y' = p)) as [->|Hyp].
    { rewrite ls_p in Hy. injection Hy as <-. cbn. lia. }
    destruct (ls_bwd y' b' Hy) as [[? _]|(_ & b0 & B1 & B2 & B3 & _)]; [done|].
    destruct B2. destruct (si_disj _ _ _ _ I y' p b0 n B1 Hp Hyp) as [D|D]; try congruence.
    { by eapply lvl_leaf. } { rewrite B3 by done. lia. } { rewrite sm_lo0. lia. } }
  intros Hx Hy Hne Hl Va Vb.
  destruct (ls_bwd x a Hx) as [[-> ->]|(Hxq & a0 & A1 & A2 & A3 & _)].
  { cbn. destruct (Hqq y b Hy ltac:(congruence)) as [D|D]; [done|done| |]; lia. }
  destruct (ls_bwd y b Hy) as [[-> ->]|(Hyq & b0 & B1 & B2 & B3 & _)].
  { cbn. destruct (Hqq x a Hx ltac:(congruence)) as [D|D]; [done|done| |]; lia. }
  destruct (ls_hi x a0 a A1 Hx) as [H1 _]. destruct (ls_hi y b0 b B1 Hy) as [H2 _]. destruct A2, B2.
  destruct (si_disj _ _ _ _ I x y a0 b0 A1 B1 Hne) as [D|D]; [congruence|congruence|congruence|left|right]; lia.
Qed.
Lemma ls_deg x y a b : S' !! x = Some a -> S' !! y = Some b -> lid a = lid b -> lvl a = 0 -> lvl b = 0 ->
  lo a = hi a -> lo b = hi b -> lo a = lo b -> x = y.
Proof.
  (* [q] degenerate: no other degenerate leaf at the same place *)
  assert (Hqq : forall y b, S' !! y = Some b -> y <> q -> lid b = lid n -> lvl b = 0 -> sk = hi n -> lo b = hi b -> lo b = sk -> False).
  { intros y' b' Hy Hyq Hl Hv Hs1 Hd Hs2. destruct (decide (y' = p)) as [->|Hyp].
    { rewrite ls_p in Hy. injection Hy as <-. cbn in *. lia. }
    destruct (ls_bwd y' b' Hy) as [[? _]|(_ & b0 & B1 & B2 & B3 & _)]; [done|]. specialize (B3 Hyp). destruct B2.
    assert (Vb : lvl b0 = 0) by congruence. destruct (lvl0 _ Vb) as (ny & py & Hsy).
    pose proof (si_leaf _ _ _ _ I y' b0 ny py B1 Hsy) as HLy.
    assert (Hpy : py <> 0%N). { apply HLy. congruence. }
    destruct (lo_pv _ _ _ _ _ HLy Hpy) as (z & pz & Z1 & Z2).
    assert (Hy0 : y' <> 0%N). { intros ->. rewrite (si_zero _ _ _ _ I) in B1. done. }
    destruct (lo_nx _ _ _ _ _ (si_leaf _ _ _ _ I py z y' pz Z1 Z2) Hy0) as (w & nw & W1 & W2 & W3 & W4).
    assert (w = b0) as -> by congruence.
    destruct (decide (py = p)) as [->|Hpp].
    - assert (z = n) as -> by congruence. rewrite Hsb in Z2. injection Z2 as Fa Fb. rewrite <- Fa in Hy0, B1. eapply (Hdn Hs1 Hy0 b0); [done|congruence].
    - assert (lo z <> hi z). { intros E. eapply (Hdd py z y' pz b0); [done|done|done|done|done|congruence]. }
      pose proof (go_lohi _ _ _ (si_gh _ _ _ _ I py z Z1)).
      destruct (si_disj _ _ _ _ I py p z n Z1 Hp Hpp) as [D|D]; [congruence|by eapply lvl_leaf|by eapply lvl_leaf| |]; lia. }
  intros Hx Hy Hl Va Vb Da Db Hlo. destruct (decide (x = y)) as [|Hne]; [done|exfalso].
  destruct (ls_bwd x a Hx) as [[-> ->]|(Hxq & a0 & A1 & A2 & A3 & _)].
  { cbn in *. eapply (Hqq y b Hy); congruence. }
  destruct (ls_bwd y b Hy) as [[-> ->]|(Hyq & b0 & B1 & B2 & B3 & _)].
  { cbn in *. eapply (Hqq x a Hx); congruence. }
  destruct (ls_hi x a0 a A1 Hx) as (_ & H1 & H1'). destruct (ls_hi y b0 b B1 Hy) as (_ & H2 & H2'). destruct A2, B2.
  destruct (decide (x = p)) as [->|Hxp]. { destruct (H1 eq_refl) as [? ->]. lia. }
  destruct (decide (y = p)) as [->|Hyp]. { destruct (H2 eq_refl) as [? ->]. lia. }
  specialize (H1' Hxp). specialize (H2' Hyp).
  apply Hne. eapply (si_deg _ _ _ _ I x y a0 b0); [done|done|congruence|congruence|congruence|congruence|congruence|congruence].
Qed.

Lemma sinv_leaf_split : SInv S' R p q.
Proof.
  pose proof ls_ne as Hne. pose proof ls_p0 as Hp0. pose proof ls_xh as Hxh.
  pose proof (si_gh _ _ _ _ I p n Hp) as Gn.
  split.
  - destruct (S' !! 0%N) as [a|] eqn:E; [|done]. destruct (ls_bwd _ _ E) as [[? _]|(_ & a0 & A & _)]; [congruence|].
    rewrite (si_zero _ _ _ _ I) in A. done.
  - destruct (si_root _ _ _ _ I) as (r & R1 & R2 & R3 & R4 & R5). destruct (ls_fwd _ _ R1) as (r' & E1 & E2 & _). destruct E2.
    exists r'. split; [done|]. split; [congruence|]. split; [congruence|]. split; [congruence|]. congruence.
  - intros x a Hx. destruct (ls_bwd x a Hx) as [[-> ->]|(Hxq & a0 & A1 & A2 & A3 & _)].
    { destruct Gn. unfold rsn. split; cbn [n_gh g_lo g_hi g_xh g_pre]; [lia|lia|lia|lia|done|done]. }
    pose proof (si_gh _ _ _ _ I x a0 A1) as G0. destruct (decide (x = p)) as [->|Hxp].
    { rewrite ls_p in Hx. injection Hx as <-. destruct Gn. unfold lsn. split; cbn [n_gh g_lo g_hi g_xh g_pre]; [lia|lia|lia|lia|done|done]. }
    specialize (A3 Hxp). destruct A2, G0. split; [lia|lia|lia|lia| |by rewrite sm_pre0].
    intros _. rewrite sm_xh0, A3. apply go_eq. intros ->. rewrite (si_zero _ _ _ _ I) in A1. done.
  - intros x a Hx. destruct (ls_bwd x a Hx) as [[-> ->]|(Hxq & a0 & A1 & A2 & A3 & _)].
    + destruct (si_lid _ _ _ _ I p n Hp) as (n' & E1 & E2 & E3). destruct (ls_fwd _ _ E1) as (n'' & F1 & F2 & _). destruct F2.
      exists n''. cbn. split; [done|]. split; congruence.
    + destruct A2. destruct (si_lid _ _ _ _ I x a0 A1) as (n' & E1 & E2 & E3). destruct (ls_fwd _ _ E1) as (n'' & F1 & F2 & _). destruct F2.
      exists n''. rewrite sm_lid0. split; [done|]. split; congruence.
  - intros x a Hx Hxq Hpa. destruct (ls_bwd x a Hx) as [[-> _]|(_ & a0 & A1 & A2 & A3 & _)]; [done|]. destruct A2.
    destruct (si_pa _ _ _ _ I x a0 A1) as (pn & J & E1 & E2 & E3); [|congruence|].
    { intros ->. rewrite (si_zero _ _ _ _ I) in A1. done. }
    destruct (ls_fwd _ _ E1) as (pn' & F1 & F2 & _). destruct F2. exists pn', J. rewrite sm_pa0. split; [done|]. split; [|done]. by apply sm_in1.
  - intros x a Hx Hxq Hpa. destruct (ls_bwd x a Hx) as [[-> _]|(_ & a0 & A1 & A2 & A3 & _)]; [done|]. destruct A2.
    destruct (si_top _ _ _ _ I x a0 A1) as (E1 & E2 & E3); [|congruence|].
    { intros ->. rewrite (si_zero _ _ _ _ I) in A1. done. }
    split; [congruence|]. split; [congruence|]. intros E. apply E3. congruence.
  - intros x a Hx. destruct (ls_bwd x a Hx) as [[-> ->]|(Hxq & a0 & A1 & A2 & A3 & _)].
    { by rewrite decide_True. }
    rewrite decide_False by done. destruct A2. rewrite sm_rt0, sm_pa0, (si_rt _ _ _ _ I x a0 A1).
    rewrite decide_False; [done|]. intros ->. rewrite (si_zero _ _ _ _ I) in A1. done.
  - intros x a J Hx Hs. destruct (ls_bwd x a Hx) as [[-> ->]|(Hxq & a0 & A1 & A2 & A3 & _)]; [done|].
    assert (Hxp : x <> p). { intros ->. rewrite ls_p in Hx. injection Hx as <-. done. }
    specialize (A3 Hxp). destruct A2. apply sm_in0 in Hs. pose proof (si_inode _ _ _ _ I x a0 J A1 Hs) as HJ.
    split; try apply HJ.
    + intros [Hc|[Hc|Hc]]; [|done|done]. apply HJ. left. congruence.
    + intros i c Hc. destruct (io_kid _ _ _ _ _ _ _ HJ i c Hc) as [_ (cn & E1 & E2 & E3 & E4 & E5 & E6)].
      split; [congruence|]. destruct (ls_fwd _ _ E1) as (cn' & F1 & F2 & _). destruct F2. exists cn'.
      unfold bnds in *. rewrite sm_lo0, A3. split; [done|]. split; [congruence|]. split; [congruence|]. split; [congruence|].
      rewrite sm_lo1, sm_xh1. done.
  - intros x a nx' pv' Hx Hs. by apply ls_lok.
  - intros x y a b. apply ls_disj.
  - intros x y a b. apply ls_deg.
  - intros _. split; [done|]. exists lsn, rsn. rewrite ls_p, ls_q. unfold lvl. cbn. done.
Qed.
End LeafSplit.

(** ** changes that leave the leaves alone *)
Record vsim (a a' : snode) : Prop := {
  vs_lid : lid a' = lid a; vs_pre : pre a' = pre a; vs_lvl : lvl a' = lvl a;
  vs_leaf : lvl a = 0 -> lo a' = lo a /\ hi a' = hi a /\ n_sb a' = n_sb a }.
Lemma vsim_refl a : vsim a a. Proof. by split. Qed.
Record leafsame (S S' : gmap N snode) : Prop := {
  lf_fwd : forall x a, S !! x = Some a -> exists a', S' !! x = Some a' /\ vsim a a';
  lf_bwd : forall x a', S' !! x = Some a' -> lvl a' = 0 -> exists a, S !! x = Some a /\ vsim a a' }.
Section LeafSame.
Context (S S' : gmap N snode) (R pl pr : N) (I : SInv S R pl pr) (HL : leafsame S S').
Lemma lf_both x a a' : S !! x = Some a -> S' !! x = Some a' -> vsim a a'.
Proof. intros H1 H2. destruct (lf_fwd _ _ HL x a H1) as (a'' & E & ?). by assert (a'' = a') as <- by congruence. Qed.
Lemma same_leaf p n nx pv : S' !! p = Some n -> n_sb n = SL nx pv -> lok S' p (n_gh n) nx pv.
Proof.
  intros Hp Hs. destruct (lf_bwd _ _ HL p n Hp (lvl_leaf _ _ _ Hs)) as (a & E1 & [V1 V2 V3 V4]).
  pose proof (lvl_leaf _ _ _ Hs) as Hv. rewrite V3 in Hv. destruct (V4 Hv) as (W1 & W2 & W3).
  rewrite Hs in W3. pose proof (si_leaf _ _ _ _ I p a nx pv E1 (eq_sym W3)) as HA. split; rewrite ?W1, ?W2, ?V1; try apply HA.
  - intros Hz. destruct (lo_nx _ _ _ _ _ HA Hz) as (qn & nx' & F1 & F2 & F3 & F4).
    destruct (lf_fwd _ _ HL _ _ F1) as (qn' & G1 & [U1 U2 U3 U4]). destruct (U4 (lvl_leaf _ _ _ F2)) as (T1 & T2 & T3).
    exists qn', nx'. split; [done|]. split; [congruence|]. split; congruence.
  - intros Hz. destruct (lo_pv _ _ _ _ _ HA Hz) as (qn & nx' & F1 & F2).
    destruct (lf_fwd _ _ HL _ _ F1) as (qn' & G1 & [U1 U2 U3 U4]). destruct (U4 (lvl_leaf _ _ _ F2)) as (T1 & T2 & T3).
    exists qn', nx'. split; [done|]. congruence.
Qed.
Lemma same_disj p q n n' : S' !! p = Some n -> S' !! q = Some n' -> p <> q -> lid n = lid n' ->
  lvl n = 0 -> lvl n' = 0 -> (hi n <= lo n')%N \/ (hi n' <= lo n)%N.
Proof.
  intros Hp Hq Hne Hl V1 V2. destruct (lf_bwd _ _ HL p n Hp V1) as (a & E1 & [? ? A3 A4]).
  destruct (lf_bwd _ _ HL q n' Hq V2) as (b & F1 & [? ? B3 B4]).
  destruct (A4 ltac:(congruence)) as (-> & -> & _). destruct (B4 ltac:(congruence)) as (-> & -> & _).
  eapply (si_disj _ _ _ _ I p q a b); congruence.
Qed.
Lemma same_deg p q n n' : S' !! p = Some n -> S' !! q = Some n' -> lid n = lid n' ->
  lvl n = 0 -> lvl n' = 0 -> lo n = hi n -> lo n' = hi n' -> lo n = lo n' -> p = q.
Proof.
  intros Hp Hq Hl V1 V2. destruct (lf_bwd _ _ HL p n Hp V1) as (a & E1 & [? ? A3 A4]).
  destruct (lf_bwd _ _ HL q n' Hq V2) as (b & F1 & [? ? B3 B4]).
  destruct (A4 ltac:(congruence)) as (-> & -> & _). destruct (B4 ltac:(congruence)) as (-> & -> & _).
  intros. eapply (si_deg _ _ _ _ I p q a b); congruence.
Qed.
Lemma same_leaf_ok K B V g g' p rt pa L : S !! p = Some (mk_sn g rt pa (SL (lb_nx L) (lb_pv L))) ->
  g_pre g' = g_pre g -> g_lo g' = g_lo g -> g_hi g' = g_hi g ->
  leaf_ok K B S V g L -> leaf_ok K B S' V g' L.
Proof.
  intros Hp E1 E2 E3 H. split; rewrite ?E2, ?E3; try apply H.
  - intros e He. pose proof (lk_ent _ _ _ _ _ _ H e He) as Hen. split; [apply Hen|]. rewrite E1.
    destruct Hen as [_ [Hv|(D1 & n & w & t & v & D2 & D3)]]; [by left|]. right. split; [done|].
    destruct (lf_fwd _ _ HL _ _ D2) as (n' & N1 & [? N2 ? ?]). exists n', w, t, v. rewrite N2. done.
  - intros qn Hz Hq Hd. destruct (lo_nx _ _ _ _ _ (si_leaf _ _ _ _ I _ _ _ _ Hp eq_refl) Hz) as (qn0 & nx' & F1 & F2 & F3 & F4).
    destruct (lf_both _ _ _ F1 Hq) as [? ? ? U]. destruct (U (lvl_leaf _ _ _ F2)) as (T1 & T2 & _).
    eapply (lk_deg _ _ _ _ _ _ H qn0); [done|done|congruence].
Qed.
End LeafSame.

(** ** the parent learns of the new sibling *)
Lemma lookup_mid {A} (l : list A) j x i : j <= length l ->
  (take j l ++ x :: drop j l) !! i = if decide (i < j) then l !! i else if decide (i = j) then Some x else l !! (i - 1).
Proof.
  intros Hj. destruct (decide (i < j)) as [H|H].
  - rewrite lookup_app_l by (rewrite take_length; lia). by rewrite lookup_take.
  - rewrite lookup_app_r by (rewrite take_length; lia). rewrite take_length, Nat.min_l by lia.
    destruct (decide (i = j)) as [->|Hn]; [by rewrite Nat.sub_diag|].
    replace (i - j) with (Datatypes.S (i - j - 1)) by lia. rewrite <- lookup_tail. cbn [tail]. rewrite lookup_drop. f_equal. lia.
Qed.
Section InsertParent.
Context (S S' : gmap N snode) (R l r : N) (nl nr pn : snode) (J J' : ibody) (ci : nat).
Context (I : SInv S R l r) (Hl : S !! l = Some nl) (Hr : S !! r = Some nr) (Hpa : n_pa nl <> 0%N) (Hr0 : r <> 0%N).
Context (Hp : S !! n_pa nl = Some pn) (Hsb : n_sb pn = SI J) (Hci : kids J !! ci = Some l).
Context (Hnk : ib_nk J' = ib_nk J + 1) (Hht : ib_ht J' = ib_ht J).
Context (Hks : take (ib_nk J + 1) (ib_ks J') = take ci (take (ib_nk J) (ib_ks J)) ++ hi nl :: drop ci (take (ib_nk J) (ib_ks J))).
Context (Hcs : kids J' = take (ci + 1) (kids J) ++ r :: drop (ci + 1) (kids J)).
Definition ip_l := mk_sn (mk_gh (lid nl) (pre nl) (lo nl) (hi nl) (hi nl)) (n_rt nl) (n_pa nl) (n_sb nl).
Definition ip_r := mk_sn (n_gh nr) (n_rt nr) (n_pa nl) (n_sb nr).
Definition ip_p := mk_sn (n_gh pn) (n_rt pn) (n_pa pn) (SI J').
Context (HS' : forall x, S' !! x = if decide (x = l) then Some ip_l else if decide (x = r) then Some ip_r
                         else if decide (x = n_pa nl) then Some ip_p else S !! x).

Lemma ip_pend : l <> r /\ lid nr = lid nl /\ lvl nr = lvl nl /\ lo nr = hi nl /\ hi nr = xh nl.
Proof.
  destruct (si_pend _ _ _ _ I) as (H & a & b & E1 & E2 & E3); [by right|].
  assert (a = nl) as -> by congruence. assert (b = nr) as -> by congruence. done.
Qed.
Lemma ip_J : iok S l r (n_pa nl) (n_gh pn) (n_pa pn) J.
Proof. by apply (si_inode _ _ _ _ I). Qed.
Lemma ip_lkid : n_pa nl <> l /\ n_pa nl <> r /\ lid nl = lid pn /\ lvl nl = ib_ht J /\
  bnds (n_gh pn) J !! ci = Some (lo nl) /\ bnds (n_gh pn) J !! (ci + 1) = Some (xh nl).
Proof.
  destruct ip_pend as (P1 & P2 & P3 & P4 & P5).
  destruct (io_kid _ _ _ _ _ _ _ ip_J ci l Hci) as [_ (cn & E1 & E2 & E3 & E4 & E5 & E6)].
  assert (cn = nl) as -> by congruence. assert (Hv : lvl pn = Datatypes.S (ib_ht J)) by (unfold lvl; by rewrite Hsb).
  split; [|split; [|done]].
  - intros E. rewrite E in Hp. assert (pn = nl) by congruence. congruence || (rewrite H in Hv; lia).
  - intros E. rewrite E in Hp. assert (pn = nr) by congruence. rewrite H in Hv. lia.
Qed.
Lemma ip_ci : ci <= ib_nk J.
Proof. apply lookup_lt_Some in Hci. rewrite kids_len in Hci; [lia|]. apply ip_J. Qed.
Lemma ip_gl : S' !! l = Some ip_l. Proof. rewrite HS'. by rewrite decide_True. Qed.
Lemma ip_gr : S' !! r = Some ip_r.
Proof. destruct ip_pend as (P1 & _). rewrite HS', decide_False, decide_True; congruence. Qed.
Lemma ip_gp : S' !! n_pa nl = Some ip_p.
Proof. destruct ip_lkid as (P1 & P2 & _). rewrite HS', decide_False, decide_False, decide_True; congruence. Qed.
Lemma ip_view x a : S !! x = Some a -> exists a', S' !! x = Some a' /\ lid a' = lid a /\ pre a' = pre a /\ lo a' = lo a /\ hi a' = hi a /\
  lvl a' = lvl a /\ n_rt a' = n_rt a /\ (x <> r -> n_pa a' = n_pa a) /\ (x <> l -> xh a' = xh a) /\
  (x <> n_pa nl -> n_sb a' = n_sb a).
Proof.
  intros Hx. destruct ip_pend as (P1 & _). destruct ip_lkid as (Q1 & Q2 & _).
  destruct (decide (x = l)) as [->|H1]. { rewrite ip_gl. assert (a = nl) as -> by congruence. exists ip_l. repeat split; done. }
  destruct (decide (x = r)) as [->|H2]. { rewrite ip_gr. assert (a = nr) as -> by congruence. exists ip_r. repeat split; done. }
  destruct (decide (x = n_pa nl)) as [->|H3].
  { rewrite ip_gp. assert (a = pn) as -> by congruence. exists ip_p. repeat split; try done. unfold lvl, ip_p. cbn. by rewrite Hsb, Hht. }
  exists a. rewrite HS', !decide_False by done. repeat split; done.
Qed.
Lemma ip_back x a' : S' !! x = Some a' -> exists a, S !! x = Some a.
Proof.
  intros Hx. rewrite HS' in Hx. destruct (decide (x = l)) as [->|]; [eauto|]. destruct (decide (x = r)) as [->|]; [eauto|].
  destruct (decide (x = n_pa nl)) as [->|]; eauto.
Qed.
Lemma ip_same : leafsame S S'.
Proof.
  assert (HV : forall x a a', S !! x = Some a -> S' !! x = Some a' -> vsim a a').
  { intros x a a' H1 H2. destruct (ip_view x a H1) as (a'' & E & E1 & E2 & E3 & E4 & E5 & E6 & E7 & E8 & E9).
    assert (a'' = a') as -> by congruence. split; [done|done|done|]. intros Hv. split; [done|]. split; [done|]. apply E9.
    intros ->. assert (a = pn) as -> by congruence. unfold lvl in Hv. by rewrite Hsb in Hv. }
  split.
  - intros x a Hx. destruct (ip_view x a Hx) as (a' & E & _). eauto.
  - intros x a' Hx _. destruct (ip_back x a' Hx) as (a & E). eauto.
Qed.
Lemma ip_bnds_len : length (ib_ks J') >= ib_nk J + 1.
Proof.
  pose proof ip_ci. pose proof ip_J as HJ. assert (E : length (take (ib_nk J + 1) (ib_ks J')) = ib_nk J + 1).
  { rewrite Hks, app_length. cbn. rewrite take_length, drop_length, take_length. destruct HJ. lia. }
  rewrite take_length in E. lia.
Qed.
Lemma ip_cs_len : length (ib_cs J') >= ib_nk J + 2.
Proof.
  pose proof ip_ci. pose proof ip_J as HJ. assert (E : length (kids J') = ib_nk J + 2).
  { rewrite Hcs, app_length. cbn. rewrite take_length, drop_length. rewrite kids_len by (destruct HJ; lia). lia. }
  unfold kids in E. rewrite take_length in E. lia.
Qed.
Lemma ip_bnds i : bnds (n_gh pn) J' !! i = if decide (i <= ci) then bnds (n_gh pn) J !! i
  else if decide (i = ci + 1) then Some (hi nl) else bnds (n_gh pn) J !! (i - 1).
Proof.
  pose proof ip_ci as Hc. assert (HL : ib_nk J <= length (ib_ks J)) by apply ip_J.
  assert (E : bnds (n_gh pn) J' = take (ci + 1) (bnds (n_gh pn) J) ++ hi nl :: drop (ci + 1) (bnds (n_gh pn) J)).
  { unfold bnds. rewrite Hnk, Hks. rewrite Nat.add_1_r. cbn [take drop app]. f_equal.
    rewrite take_app_le, drop_app_le by (rewrite take_length; lia). rewrite <- app_assoc. done. }
  rewrite E, lookup_mid by (rewrite bnds_len; lia). repeat case_decide; try lia; done.
Qed.
Lemma ip_kids i c : kids J' !! i = Some c -> if decide (i <= ci) then kids J !! i = Some c else if decide (i = ci + 1) then c = r
  else kids J !! (i - 1) = Some c.
Proof.
  pose proof ip_ci as Hc. pose proof ip_J as HJ. rewrite Hcs, lookup_mid by (rewrite kids_len by apply HJ; lia).
  repeat case_decide; try lia; try done. by intros [= ->].
Qed.
Lemma ip_rkid : r ∉ kids J.
Proof. intros H. apply elem_of_list_lookup in H as [i Hi]. by destruct (io_kid _ _ _ _ _ _ _ ip_J i r Hi). Qed.
Lemma ip_kid_l i : kids J !! i = Some l -> i = ci.
Proof. intros H. eapply NoDup_lookup; [apply ip_J|done|done]. Qed.

(** kids seen from an untouched internode *)
Lemma ip_other x a K i c : S !! x = Some a -> n_sb a = SI K -> kids K !! i = Some c ->
  exists cn, S' !! c = Some cn /\ n_pa cn = x /\ lid cn = lid a /\ lvl cn = ib_ht K /\
    bnds (n_gh a) K !! i = Some (lo cn) /\ (c <> l -> bnds (n_gh a) K !! (i + 1) = Some (xh cn)).
Proof.
  intros Hx Hs Hc. destruct (io_kid _ _ _ _ _ _ _ (si_inode _ _ _ _ I x a K Hx Hs) i c Hc) as [C0 (cn & E1 & E2 & E3 & E4 & E5 & E6)].
  destruct (ip_view c cn E1) as (cn' & F & F1 & F2 & F3 & F4 & F5 & F6 & F7 & F8 & F9).
  exists cn'. split; [done|]. split; [rewrite F7; done|]. split; [congruence|]. split; [congruence|]. split; [congruence|].
  intros Hcl. rewrite F8 by done. done.
Qed.

Lemma sinv_insert_parent : SInv S' R 0 0.
Proof.
  destruct ip_pend as (P1 & P2 & P3 & P4 & P5). destruct ip_lkid as (Q1 & Q2 & Q3 & Q4 & Q5 & Q6). pose proof ip_ci as Hc0.
  assert (Hz : S' !! 0%N = None).
  { destruct (S' !! 0%N) as [a|] eqn:E; [|done]. destruct (ip_back _ _ E) as (a0 & A). rewrite (si_zero _ _ _ _ I) in A. done. }
  assert (HB : forall x a', S' !! x = Some a' -> exists a, S !! x = Some a /\ lid a' = lid a /\ pre a' = pre a /\ lo a' = lo a /\ hi a' = hi a /\
     lvl a' = lvl a /\ n_rt a' = n_rt a /\ (x <> r -> n_pa a' = n_pa a) /\ (x <> l -> xh a' = xh a) /\ (x <> n_pa nl -> n_sb a' = n_sb a)).
  { intros x a' Hx. destruct (ip_back x a' Hx) as (a & E). destruct (ip_view x a E) as (a'' & F & F'). exists a. split; [done|].
    by assert (a'' = a') as <- by congruence. }
  assert (Hxhl : xh ip_l = hi nl) by done.
  assert (Hgr := si_gh _ _ _ _ I r nr Hr). assert (Hgl := si_gh _ _ _ _ I l nl Hl).
  split; try done.
  - destruct (si_root _ _ _ _ I) as (a & R1 & R2 & R3 & R4 & R5).
    destruct (ip_view _ _ R1) as (a' & F & F1 & F2 & F3 & F4 & F5 & F6 & F7 & F8 & F9).
    exists a'. split; [done|]. split; [congruence|]. split; [rewrite F7; done|]. split; [congruence|].
    intros ->. rewrite (si_zero _ _ _ _ I) in R1. done.
  - intros x a' Hx. destruct (HB x a' Hx) as (a & E & F1 & F2 & F3 & F4 & F5 & F6 & F7 & F8 & F9).
    destruct (decide (x = l)) as [->|Hxl].
    { rewrite ip_gl in Hx. injection Hx as <-. destruct Hgl. unfold ip_l. split; cbn [n_gh g_lo g_hi g_xh g_pre]; [lia|lia|lia|lia|done|done]. }
    destruct (si_gh _ _ _ _ I x a E) as [G1 G2 G3 G4 G5 G6]. specialize (F8 Hxl). specialize (G5 Hxl).
    split; [lia|lia|lia|lia| |by rewrite F2]. intros _. congruence.
  - intros x a' Hx. destruct (HB x a' Hx) as (a & E & F1 & F2 & _).
    destruct (si_lid _ _ _ _ I x a E) as (b & B1 & B2 & B3). destruct (ip_view _ _ B1) as (b' & C & C1 & C2 & _).
    exists b'. rewrite F1, F2. split; [done|]. split; congruence.
  - intros x a' Hx _ Hx0. destruct (HB x a' Hx) as (a & E & F1 & F2 & F3 & F4 & F5 & F6 & F7 & F8 & F9).
    destruct (decide (x = r)) as [->|Hxr].
    { rewrite ip_gr in Hx. injection Hx as <-. cbn. exists ip_p, J'. rewrite ip_gp. split; [done|]. split; [done|].
      rewrite Hcs. apply elem_of_app. right. by left. }
    rewrite F7 by done. destruct (si_pa _ _ _ _ I x a E Hxr) as (b & K & B1 & B2 & B3); [rewrite <- F7; done|].
    destruct (decide (n_pa a = n_pa nl)) as [E'|E'].
    + exists ip_p, J'. rewrite E', ip_gp. split; [done|]. split; [done|].
      rewrite E' in B1. assert (b = pn) by congruence. subst b. rewrite Hsb in B2. injection B2 as <-.
      rewrite Hcs. rewrite <- (take_drop (ci + 1) (kids J)) in B3. apply elem_of_app in B3 as [B3|B3]; apply elem_of_app; [by left|].
      right. by right.
    + destruct (ip_view _ _ B1) as (b' & C & C1 & C2 & C3 & C4 & C5 & C6 & C7 & C8 & C9). exists b', K.
      split; [done|]. split; [rewrite C9; done|done].
  - intros x a' Hx _ Hx0. destruct (HB x a' Hx) as (a & E & F1 & F2 & F3 & F4 & F5 & F6 & F7 & F8 & F9).
    assert (Hxr : x <> r). { intros ->. rewrite ip_gr in Hx. injection Hx as <-. done. }
    assert (Hxl : x <> l). { intros ->. rewrite ip_gl in Hx. injection Hx as <-. done. }
    destruct (si_top _ _ _ _ I x a E Hxr) as (T1 & T2 & T3); [rewrite <- F7; done|].
    rewrite F3, F8, F1 by done. done.
  - intros x a' Hx. destruct (HB x a' Hx) as (a & E & F1 & F2 & F3 & F4 & F5 & F6 & F7 & F8 & F9).
    assert (x <> 0%N) by congruence. rewrite decide_False by done. rewrite F6, (si_rt _ _ _ _ I x a E).
    destruct (decide (x = r)) as [->|Hxr].
    + rewrite ip_gr in Hx. injection Hx as <-. cbn. symmetry. by apply N.eqb_neq.
    + by rewrite F7.
  - intros x a' K Hx Hs. destruct (HB x a' Hx) as (a & E & F1 & F2 & F3 & F4 & F5 & F6 & F7 & F8 & F9).
    destruct (decide (x = n_pa nl)) as [->|Hxp].
    { rewrite ip_gp in Hx. injection Hx as <-. cbn in Hs. injection Hs as <-. cbn. pose proof ip_J as HJ.
      assert (Hcl : length (kids J) = ib_nk J + 1) by (apply kids_len; destruct HJ; lia).
      split.
      - destruct HJ; lia.
      - intros Ho. assert (7 <= ib_nk J); [|lia]. apply HJ. destruct Ho as [Ho|[Ho|Ho]]; [by left|congruence|congruence].
      - pose proof ip_bnds_len. lia.
      - pose proof ip_cs_len. lia.
      - rewrite Hcs. pose proof ip_rkid as HR. pose proof (io_nd _ _ _ _ _ _ _ HJ) as HN.
        rewrite <- Permutation_middle. rewrite take_drop. by constructor.
      - intros i c Hi. split; [intros ->; apply ip_kids in Hi; repeat case_decide; [|congruence|];
          destruct (io_kid _ _ _ _ _ _ _ ip_J _ _ Hi) as [_ (cn & E1 & _)]; rewrite (si_zero _ _ _ _ I) in E1; done|].
        apply ip_kids in Hi. rewrite !ip_bnds. rewrite Hht. case_decide as D1.
        + destruct (ip_other _ pn J i c Hp Hsb Hi) as (cn & G1 & G2 & G3 & G4 & G5 & G6). exists cn. repeat (split; [done|]).
          destruct (decide (i = ci)) as [->|Hic].
          * assert (c = l) as -> by congruence. rewrite ip_gl in G1. injection G1 as <-.
            rewrite decide_False, decide_True by lia. done.
          * rewrite decide_True by lia. apply G6. intros ->. apply Hic. by apply ip_kid_l.
        + case_decide as D2.
          * subst i c. exists ip_r. rewrite ip_gr. split; [done|]. split; [done|]. cbn. split; [congruence|]. split; [unfold lvl in *; cbn; congruence|].
            split; [congruence|]. rewrite !decide_False by lia. replace (ci + 1 + 1 - 1) with (ci + 1) by lia.
            rewrite Q6. destruct Hgr. rewrite <- P5. f_equal. symmetry. apply go_eq. done.
          * destruct (ip_other _ pn J (i - 1) c Hp Hsb Hi) as (cn & G1 & G2 & G3 & G4 & G5 & G6). exists cn. repeat (split; [done|]).
            rewrite !decide_False by lia. replace (i + 1 - 1) with (i - 1 + 1) by lia. apply G6. intros ->.
            apply ip_kid_l in Hi. lia. }
    rewrite F9 in Hs by done. pose proof (si_inode _ _ _ _ I x a K E Hs) as HK.
    assert (Hbb : forall i, x <> l -> bnds (n_gh a') K !! i = bnds (n_gh a) K !! i).
    { intros i _. unfold bnds. by rewrite F3, F4. }
    split; try apply HK.
    + intros Ho. apply HK. destruct (decide (x = r)) as [->|Hxr]; [by right; right|].
      destruct Ho as [Ho|[Ho|Ho]]; [left; rewrite <- F7; done|congruence|congruence].
    + intros i c Hi. destruct (ip_other x a K i c E Hs Hi) as (cn & G1 & G2 & G3 & G4 & G5 & G6). split; [congruence|].
      exists cn. unfold bnds in *. rewrite F3, F4. split; [done|]. split; [done|]. split; [congruence|]. split; [done|]. split; [done|].
      apply G6. intros ->. rewrite ip_gl in G1. injection G1 as <-. cbn in G2. congruence.
  - intros. eapply same_leaf; [exact I|apply ip_same|done|done].
  - intros *. eapply same_disj; [exact I|apply ip_same].
  - intros *. eapply same_deg; [exact I|apply ip_same].
  - intros [?|?]; done.
Qed.
End InsertParent.

(** ** an internode is cut in two *)
Section NodeSplit.
Context (S S' : gmap N snode) (R p q : N) (n : snode) (J JL JR : ibody) (h : nat) (pop : N).
Context (I : SInv S R 0 0) (Hp : S !! p = Some n) (Hsb : n_sb n = SI J) (Hq : S !! q = None) (Hq0 : q <> 0%N).
Context (Hh : 7 <= h) (Hh2 : h + 8 <= ib_nk J) (Hpop : ib_ks J !! h = Some pop).
Context (HLn : ib_nk JL = h) (HLh : ib_ht JL = ib_ht J) (HLk : take h (ib_ks JL) = take h (ib_ks J)) (HLc : kids JL = take (h + 1) (kids J)).
Context (HRn : ib_nk JR = ib_nk J - (h + 1)) (HRh : ib_ht JR = ib_ht J)
  (HRk : take (ib_nk J - (h + 1)) (ib_ks JR) = drop (h + 1) (take (ib_nk J) (ib_ks J))) (HRc : kids JR = drop (h + 1) (kids J)).
Definition ns_p := mk_sn (mk_gh (lid n) (pre n) (lo n) pop (hi n)) (n_rt n) (n_pa n) (SI JL).
Definition ns_q := mk_sn (mk_gh (lid n) (pre n) pop (hi n) (hi n)) false 0 (SI JR).
Definition ns_k (a : snode) := mk_sn (n_gh a) (n_rt a) q (n_sb a).
Context (HS' : forall x, S' !! x = if decide (x = p) then Some ns_p else if decide (x = q) then Some ns_q
                         else if decide (x ∈ kids JR) then ns_k <$> S !! x else S !! x).

Lemma ns_J : iok S 0 0 p (n_gh n) (n_pa n) J. Proof. by apply (si_inode _ _ _ _ I). Qed.
Lemma ns_lk : ib_nk J <= length (ib_ks J). Proof. apply ns_J. Qed.
Lemma ns_lc : length (kids J) = ib_nk J + 1. Proof. apply kids_len, ns_J. Qed.
Lemma ns_ne : p <> q. Proof. congruence. Qed.
Lemma ns_p0 : p <> 0%N. Proof. intros E. rewrite E, (si_zero _ _ _ _ I) in Hp. done. Qed.
Lemma ns_xh x a : S !! x = Some a -> xh a = hi a.
Proof. intros Hx. apply (go_eq _ _ _ (si_gh _ _ _ _ I x a Hx)). intros E. rewrite E, (si_zero _ _ _ _ I) in Hx. done. Qed.
Lemma ns_mid : bnds (n_gh n) J !! (h + 1) = Some pop.
Proof. rewrite bnds_mid; [done|lia|apply ns_lk]. Qed.
Lemma ns_pop : (lo n <= pop <= hi n)%N /\ (pop < TOP)%N.
Proof.
  split; [split|].
  - eapply (bnds_mono _ _ _ _ I p n J 0 (h + 1)); [done|done|done|apply ns_mid].
  - eapply (bnds_mono _ _ _ _ I p n J (h + 1) (ib_nk J - h)); [done|done|apply ns_mid|].
    replace (h + 1 + (ib_nk J - h)) with (ib_nk J + 1) by lia. apply bnds_last, ns_lk.
  - destruct (kid_at _ _ _ _ I p n J (h + 1) Hp Hsb ltac:(lia)) as (c & cn & _ & _ & _ & E1 & _ & _ & _ & E2 & _).
    rewrite ns_mid in E2. injection E2 as E2. rewrite E2. apply (si_gh _ _ _ _ I c cn E1).
Qed.
Lemma ns_kid x : x ∈ kids JR -> exists i a, h + 1 <= i /\ kids J !! i = Some x /\ S !! x = Some a /\ n_pa a = p /\ x <> p.
Proof.
  intros H. rewrite HRc in H. apply elem_of_list_lookup in H as [i Hi]. rewrite lookup_drop in Hi.
  destruct (io_kid _ _ _ _ _ _ _ ns_J _ _ Hi) as [_ (a & E1 & E2 & E3 & E4 & _)].
  exists (h + 1 + i), a. split; [lia|]. repeat (split; [done|]). intros E. rewrite E in E1. assert (a = n) as -> by congruence.
  unfold lvl in E4. rewrite Hsb in E4. lia.
Qed.
Lemma ns_gp : S' !! p = Some ns_p. Proof. rewrite HS'. by rewrite decide_True. Qed.
Lemma ns_gq : S' !! q = Some ns_q. Proof. pose proof ns_ne. rewrite HS', decide_False, decide_True; congruence. Qed.
Lemma ns_view x a : S !! x = Some a -> exists a', S' !! x = Some a' /\ lid a' = lid a /\ pre a' = pre a /\ lo a' = lo a /\ xh a' = xh a /\
  lvl a' = lvl a /\ n_rt a' = n_rt a /\ (x <> p -> hi a' = hi a) /\ (x <> p -> n_sb a' = n_sb a) /\
  (x ∈ kids JR -> n_pa a' = q) /\ (x ∉ kids JR -> n_pa a' = n_pa a).
Proof.
  intros Hx. assert (Hxq : x <> q) by congruence.
  destruct (decide (x = p)) as [->|H1].
  { rewrite ns_gp. assert (a = n) as -> by congruence. exists ns_p. repeat split; try done.
    - cbn. symmetry. by eapply ns_xh.
    - unfold lvl. cbn. by rewrite Hsb, HLh.
    - intros H. destruct (ns_kid _ H) as (i & b & _ & _ & _ & _ & ?). done. }
  rewrite HS', decide_False, decide_False by done. destruct (decide (x ∈ kids JR)) as [H2|H2].
  - rewrite Hx. exists (ns_k a). repeat split; done.
  - exists a. repeat split; done.
Qed.
Lemma ns_back x a' : S' !! x = Some a' -> (x = q /\ a' = ns_q) \/ x <> q /\ exists a, S !! x = Some a /\
  lid a' = lid a /\ pre a' = pre a /\ lo a' = lo a /\ xh a' = xh a /\
  lvl a' = lvl a /\ n_rt a' = n_rt a /\ (x <> p -> hi a' = hi a) /\ (x <> p -> n_sb a' = n_sb a) /\
  (x ∈ kids JR -> n_pa a' = q) /\ (x ∉ kids JR -> n_pa a' = n_pa a).
Proof.
  intros Hx. destruct (decide (x = q)) as [->|Hxq]; [left; rewrite ns_gq in Hx; split; [done|congruence]|right].
  split; [done|]. destruct (S !! x) as [a|] eqn:E.
  - destruct (ns_view x a E) as (a'' & E1 & E2). exists a. split; [done|]. by assert (a'' = a') as <- by congruence.
  - rewrite HS' in Hx. destruct (decide (x = p)); [congruence|]. rewrite decide_False in Hx by done.
    rewrite E in Hx. by destruct (decide (x ∈ kids JR)).
Qed.
Lemma ns_same : leafsame S S'.
Proof.
  assert (HV : forall x a a', S !! x = Some a -> S' !! x = Some a' -> vsim a a').
  { intros x a a' H1 H2. destruct (ns_view x a H1) as (a'' & E & E1 & E2 & E3 & E4 & E5 & E6 & E7 & E8 & E9).
    assert (a'' = a') as -> by congruence. split; [done|done|done|]. intros Hv.
    assert (x <> p). { intros ->. assert (a = n) as -> by congruence. unfold lvl in Hv. by rewrite Hsb in Hv. }
    split; [done|]. split; [by apply E7|by apply E8]. }
  split.
  - intros x a Hx. destruct (ns_view x a Hx) as (a' & E & _). eauto.
  - intros x a' Hx Hv. destruct (ns_back x a' Hx) as [[-> ->]|(_ & a & E & _)]; [done|]. eauto.
Qed.
Lemma ns_bndsL i : i <= h -> bnds (n_gh ns_p) JL !! i = bnds (n_gh n) J !! i /\ bnds (n_gh ns_p) JL !! (i + 1) = bnds (n_gh n) J !! (i + 1).
Proof.
  intros Hi. pose proof ns_lk as HL.
  assert (E : bnds (n_gh ns_p) JL = take (h + 2) (bnds (n_gh n) J)).
  { unfold bnds. rewrite HLn, HLk. replace (h + 2) with (Datatypes.S (h + 1)) by lia. cbn. f_equal.
    rewrite take_app_le by (rewrite take_length; lia). rewrite take_take, Nat.min_l by lia.
    rewrite Nat.add_1_r. by rewrite (take_S_r _ _ _ Hpop). }
  rewrite E, !lookup_take by lia. done.
Qed.
Lemma ns_bndsR i : bnds (n_gh ns_q) JR !! i = bnds (n_gh n) J !! (h + 1 + i).
Proof.
  pose proof ns_lk as HL.
  assert (E : bnds (n_gh ns_q) JR = drop (h + 1) (bnds (n_gh n) J)).
  { unfold bnds. rewrite HRn, HRk. rewrite Nat.add_1_r. cbn. rewrite drop_app_le by (rewrite take_length; lia).
    rewrite (drop_S _ pop h) by (rewrite lookup_take; [done|lia]). done. }
  rewrite E. by rewrite lookup_drop.
Qed.

Lemma sinv_node_split : SInv S' R p q.
Proof.
  pose proof ns_ne as Hne. pose proof ns_p0 as Hp0. pose proof ns_J as HJ. pose proof ns_lk as Hlk. pose proof ns_lc as Hlc.
  pose proof ns_pop as [Hpo Hpt]. assert (Hgn := si_gh _ _ _ _ I p n Hp). assert (Hxn := ns_xh p n Hp).
  assert (Hnq : forall x a, S !! x = Some a -> x <> q) by (intros ? ? ? ->; congruence).
  split.
  - destruct (S' !! 0%N) as [a|] eqn:E; [|done]. destruct (ns_back _ _ E) as [[? _]|(_ & a0 & A & _)]; [congruence|].
    rewrite (si_zero _ _ _ _ I) in A. done.
  - destruct (si_root _ _ _ _ I) as (a & R1 & R2 & R3 & R4 & R5).
    destruct (ns_view _ _ R1) as (a' & F & F1 & F2 & F3 & F4 & F5 & F6 & F7 & F8 & F9 & F10).
    exists a'. split; [done|]. split; [congruence|]. split; [|split; [congruence|by eapply Hnq]].
    rewrite F10; [done|]. intros H. destruct (ns_kid _ H) as (i & b & _ & _ & B1 & B2 & _). congruence.
  - intros x a' Hx. destruct (ns_back x a' Hx) as [[-> ->]|(Hxq & a & E & F1 & F2 & F3 & F4 & F5 & F6 & F7 & F8 & F9 & F10)].
    { destruct Hgn. unfold ns_q. split; cbn [n_gh g_lo g_hi g_xh g_pre]; [lia|lia|lia|lia|done|done]. }
    destruct (decide (x = p)) as [->|Hxp].
    { rewrite ns_gp in Hx. injection Hx as <-. destruct Hgn. unfold ns_p. split; cbn [n_gh g_lo g_hi g_xh g_pre]; [lia|lia|lia|lia|done|done]. }
    destruct (si_gh _ _ _ _ I x a E) as [G1 G2 G3 G4 G5 G6]. specialize (F7 Hxp).
    split; [lia|lia|lia|lia| |by rewrite F2]. intros _. rewrite F4, F7. by eapply ns_xh.
  - intros x a' Hx. destruct (ns_back x a' Hx) as [[-> ->]|(Hxq & a & E & F1 & F2 & _)].
    + destruct (si_lid _ _ _ _ I p n Hp) as (b & B1 & B2 & B3). destruct (ns_view _ _ B1) as (b' & C & C1 & C2 & _).
      exists b'. cbn. split; [done|]. split; congruence.
    + destruct (si_lid _ _ _ _ I x a E) as (b & B1 & B2 & B3). destruct (ns_view _ _ B1) as (b' & C & C1 & C2 & _).
      exists b'. rewrite F1, F2. split; [done|]. split; congruence.
  - intros x a' Hx Hxq0 Hx0. destruct (ns_back x a' Hx) as [[-> _]|(Hxq & a & E & F1 & F2 & F3 & F4 & F5 & F6 & F7 & F8 & F9 & F10)]; [done|].
    destruct (decide (x ∈ kids JR)) as [Hk|Hk].
    { rewrite F9 by done. exists ns_q, JR. rewrite ns_gq. done. }
    rewrite F10 by done. rewrite F10 in Hx0 by done.
    destruct (si_pa _ _ _ _ I x a E) as (b & K & B1 & B2 & B3); [|done|].
    { intros ->. rewrite (si_zero _ _ _ _ I) in E. done. }
    { destruct (decide (n_pa a = p)) as [E'|E'].
      - exists ns_p, JL. rewrite E', ns_gp. split; [done|]. split; [done|].
        rewrite E' in B1. assert (b = n) by congruence. subst b. rewrite Hsb in B2. injection B2 as <-.
        rewrite HLc. rewrite <- (take_drop (h + 1) (kids J)) in B3. apply elem_of_app in B3 as [B3|B3]; [done|].
        exfalso. apply Hk. by rewrite HRc.
      - destruct (ns_view _ _ B1) as (b' & C & C1 & C2 & C3 & C4 & C5 & C6 & C7 & C8 & _). exists b', K.
        split; [done|]. split; [rewrite C8; done|done]. }
  - intros x a' Hx Hxq0 Hx0. destruct (ns_back x a' Hx) as [[-> _]|(Hxq & a & E & F1 & F2 & F3 & F4 & F5 & F6 & F7 & F8 & F9 & F10)]; [done|].
    destruct (decide (x ∈ kids JR)) as [Hk|Hk]; [rewrite F9 in Hx0 by done; congruence|].
    rewrite F10 in Hx0 by done. rewrite F3, F4, F1. apply (si_top _ _ _ _ I x a E); [|done].
    intros ->. rewrite (si_zero _ _ _ _ I) in E. done.
  - intros x a' Hx. destruct (ns_back x a' Hx) as [[-> ->]|(Hxq & a & E & F1 & F2 & F3 & F4 & F5 & F6 & F7 & F8 & F9 & F10)].
    { by rewrite decide_True. }
    rewrite decide_False by done. rewrite F6, (si_rt _ _ _ _ I x a E).
    rewrite decide_False. 2:{ intros ->. rewrite (si_zero _ _ _ _ I) in E. done. }
    destruct (decide (x ∈ kids JR)) as [Hk|Hk]; [|by rewrite F10].
    rewrite F9 by done. destruct (ns_kid _ Hk) as (i & b & _ & _ & B1 & B2 & _). assert (b = a) as -> by congruence.
    rewrite B2. apply N.eqb_neq in Hp0, Hq0. congruence.
  - intros x a' K Hx Hs. destruct (ns_back x a' Hx) as [[-> ->]|(Hxq & a & E & F1 & F2 & F3 & F4 & F5 & F6 & F7 & F8 & F9 & F10)].
    { cbn in Hs. injection Hs as <-. cbn [n_pa ns_q]. split.
      - lia.
      - lia.
      - assert (EE : length (take (ib_nk J - (h + 1)) (ib_ks JR)) = ib_nk J - (h + 1)).
        { rewrite HRk, drop_length, take_length. lia. }
        rewrite take_length in EE. lia.
      - assert (EE : length (kids JR) = ib_nk J - h).
        { rewrite HRc, drop_length. lia. }
        unfold kids in EE. rewrite take_length in EE. lia.
      - rewrite HRc. pose proof (io_nd _ _ _ _ _ _ _ HJ) as HN. rewrite <- (take_drop (h + 1) (kids J)) in HN. apply NoDup_app in HN. apply HN.
      - intros i c Hi. assert (Hic : c ∈ kids JR) by (by eapply elem_of_list_lookup_2).
        rewrite HRc, lookup_drop in Hi. destruct (io_kid _ _ _ _ _ _ _ HJ _ _ Hi) as [_ (cn & E1 & E2 & E3 & E4 & E5 & E6)].
        destruct (ns_view _ _ E1) as (cn' & F & F1 & F2 & F3 & F4 & F5 & F6 & F7 & F8 & F9 & F10).
        split; [by eapply Hnq|]. exists cn'. rewrite !ns_bndsR. split; [done|]. split; [by apply F9|]. cbn. split; [congruence|].
        split; [congruence|]. rewrite F3, F4. split; [done|]. rewrite <- E6. f_equal. lia. }
    destruct (decide (x = p)) as [->|Hxp].
    { rewrite ns_gp in Hx. injection Hx as <-. cbn in Hs. injection Hs as <-. cbn [n_pa ns_p]. split.
      - lia.
      - lia.
      - assert (EE : length (take h (ib_ks JL)) = h).
        { rewrite HLk, take_length. lia. }
        rewrite take_length in EE. lia.
      - assert (EE : length (kids JL) = h + 1).
        { rewrite HLc, take_length. lia. }
        unfold kids in EE. rewrite take_length in EE. lia.
      - rewrite HLc. pose proof (io_nd _ _ _ _ _ _ _ HJ) as HN. rewrite <- (take_drop (h + 1) (kids J)) in HN. apply NoDup_app in HN. apply HN.
      - intros i c Hi. rewrite HLc in Hi. assert (Hih : i <= h). { apply lookup_lt_Some in Hi. rewrite take_length in Hi. lia. }
        rewrite lookup_take in Hi by lia. destruct (io_kid _ _ _ _ _ _ _ HJ _ _ Hi) as [_ (cn & E1 & E2 & E3 & E4 & E5 & E6)].
        destruct (ns_view _ _ E1) as (cn' & G & G1 & G2 & G3 & G4 & G5 & G6 & G7 & G8 & G9 & G10).
        split; [by eapply Hnq|]. exists cn'. destruct (ns_bndsL i Hih) as [-> ->]. split; [done|]. split.
        { rewrite G10; [done|]. intros Hk. destruct (ns_kid _ Hk) as (j & b & B0 & B1 & _).
          pose proof (NoDup_lookup _ _ _ _ (io_nd _ _ _ _ _ _ _ HJ) Hi B1). lia. }
        cbn. split; [congruence|]. split; [congruence|]. split; congruence. }
    specialize (F7 Hxp). rewrite F8 in Hs by done. pose proof (si_inode _ _ _ _ I x a K E Hs) as HK.
    assert (Hx0 : x <> 0%N). { intros ->. rewrite (si_zero _ _ _ _ I) in E. done. }
    split; try apply HK.
    + intros Ho. apply HK. destruct Ho as [Ho|[Ho|Ho]]; [left|congruence|congruence].
      destruct (decide (x ∈ kids JR)) as [Hk|Hk]; [|rewrite F10 in Ho; done].
      destruct (ns_kid _ Hk) as (i & b & _ & _ & B1 & B2 & _). congruence.
    + intros i c Hi. destruct (io_kid _ _ _ _ _ _ _ HK i c Hi) as [_ (cn & E1 & E2 & E3 & E4 & E5 & E6)].
      destruct (ns_view _ _ E1) as (cn' & G & G1 & G2 & G3 & G4 & G5 & G6 & G7 & G8 & G9 & G10). split; [by eapply Hnq|].
      exists cn'. unfold bnds in *. rewrite F3, F7. split; [done|]. split.
      { rewrite G10; [done|]. intros Hk. destruct (ns_kid _ Hk) as (j & b & _ & _ & B1 & B2 & _). congruence. }
      split; [congruence|]. split; [congruence|]. rewrite G3, G4. done.
  - intros. eapply same_leaf; [exact I|apply ns_same|done|done].
  - intros *. eapply same_disj; [exact I|apply ns_same].
  - intros *. eapply same_deg; [exact I|apply ns_same].
  - intros _. split; [done|]. exists ns_p, ns_q. rewrite ns_gp, ns_gq. unfold lvl. cbn. rewrite HRh, HLh. done.
Qed.
End NodeSplit.

(** ** a new root above two halves *)
Section NewRoot.
Context (S S' : gmap N snode) (R l r w : N) (nl nr : snode) (J : ibody).
Context (I : SInv S R l r) (Hl : S !! l = Some nl) (Hr : S !! r = Some nr) (Hpa : n_pa nl = 0%N) (Hr0 : r <> 0%N).
Context (Hw : S !! w = None) (Hw0 : w <> 0%N).
Context (Hnk : ib_nk J = 1) (Hht : ib_ht J = lvl nl) (Hks : take 1 (ib_ks J) = [hi nl]) (Hcs : kids J = [l; r]).
Definition rt_l := mk_sn (mk_gh (lid nl) (pre nl) (lo nl) (hi nl) (hi nl)) false w (n_sb nl).
Definition rt_r := mk_sn (n_gh nr) false w (n_sb nr).
Definition rt_w := mk_sn (mk_gh (lid nl) (pre nl) 0 TOP TOP) true 0 (SI J).
Context (HS' : forall x, S' !! x = if decide (x = l) then Some rt_l else if decide (x = r) then Some rt_r
                         else if decide (x = w) then Some rt_w else S !! x).

Lemma rt_pend : l <> r /\ lid nr = lid nl /\ lvl nr = lvl nl /\ lo nr = hi nl /\ hi nr = xh nl.
Proof.
  destruct (si_pend _ _ _ _ I) as (H & a & b & E1 & E2 & E3); [by right|].
  assert (a = nl) as -> by congruence. assert (b = nr) as -> by congruence. done.
Qed.
Lemma rt_gl : S' !! l = Some rt_l. Proof. rewrite HS'. by rewrite decide_True. Qed.
Lemma rt_gr : S' !! r = Some rt_r.
Proof. destruct rt_pend as (P1 & _). rewrite HS', decide_False, decide_True; congruence. Qed.
Lemma rt_gw : S' !! w = Some rt_w.
Proof. rewrite HS', decide_False, decide_False, decide_True; congruence. Qed.
Lemma rt_view x a : S !! x = Some a -> exists a', S' !! x = Some a' /\ lid a' = lid a /\ pre a' = pre a /\ lo a' = lo a /\ hi a' = hi a /\
  lvl a' = lvl a /\ n_sb a' = n_sb a /\ (x <> l -> x <> r -> a' = a) /\ (x <> l -> xh a' = xh a).
Proof.
  intros Hx.
  destruct (decide (x = l)) as [->|H1]. { rewrite rt_gl. assert (a = nl) as -> by congruence. exists rt_l. repeat split; done. }
  destruct (decide (x = r)) as [->|H2]. { rewrite rt_gr. assert (a = nr) as -> by congruence. exists rt_r. repeat split; done. }
  exists a. rewrite HS', !decide_False by congruence. repeat split; done.
Qed.
Lemma rt_back x a' : S' !! x = Some a' -> (x = w /\ a' = rt_w) \/ x <> w /\ exists a, S !! x = Some a /\
  lid a' = lid a /\ pre a' = pre a /\ lo a' = lo a /\ hi a' = hi a /\
  lvl a' = lvl a /\ n_sb a' = n_sb a /\ (x <> l -> x <> r -> a' = a) /\ (x <> l -> xh a' = xh a).
Proof.
  intros Hx. destruct (decide (x = w)) as [->|Hxq]; [left; rewrite rt_gw in Hx; split; [done|congruence]|right].
  split; [done|]. assert (exists a, S !! x = Some a) as [a E].
  { rewrite HS' in Hx. destruct (decide (x = l)) as [->|]; [eauto|]. destruct (decide (x = r)) as [->|]; [eauto|].
    rewrite decide_False in Hx by done. eauto. }
  destruct (rt_view x a E) as (a'' & F & F'). exists a. split; [done|]. by assert (a'' = a') as <- by congruence.
Qed.
Lemma rt_same : leafsame S S'.
Proof.
  assert (HV : forall x a a', S !! x = Some a -> S' !! x = Some a' -> vsim a a').
  { intros x a a' H1 H2. destruct (rt_view x a H1) as (a'' & E & E1 & E2 & E3 & E4 & E5 & E6 & _).
    assert (a'' = a') as -> by congruence. by split. }
  split.
  - intros x a Hx. destruct (rt_view x a Hx) as (a' & E & _). eauto.
  - intros x a' Hx Hv. destruct (rt_back x a' Hx) as [[-> ->]|(_ & a & E & _)]; [done|]. eauto.
Qed.
Lemma rt_notkid x a K : S !! x = Some a -> n_sb a = SI K -> l ∉ kids K /\ r ∉ kids K.
Proof.
  intros Hx Hs. pose proof (si_inode _ _ _ _ I x a K Hx Hs) as HK. split; intros H; apply elem_of_list_lookup in H as [i Hi];
    destruct (io_kid _ _ _ _ _ _ _ HK i _ Hi) as [C (cn & E1 & E2 & _)]; [|done].
  assert (cn = nl) as -> by congruence. rewrite Hpa in E2. rewrite <- E2, (si_zero _ _ _ _ I) in Hx. done.
Qed.

Lemma sinv_new_root : SInv S' (if decide (R = l) then w else R) 0 0.
Proof.
  destruct rt_pend as (P1 & P2 & P3 & P4 & P5).
  assert (Hgr := si_gh _ _ _ _ I r nr Hr). assert (Hgl := si_gh _ _ _ _ I l nl Hl).
  destruct (si_top _ _ _ _ I l nl Hl P1 Hpa) as (T1 & T2 & T3).
  assert (Hl0 : l <> 0%N). { intros E. rewrite E, (si_zero _ _ _ _ I) in Hl. done. }
  assert (Hz : S' !! 0%N = None).
  { destruct (S' !! 0%N) as [a|] eqn:E; [|done]. destruct (rt_back _ _ E) as [[? _]|(_ & a0 & A & _)]; [congruence|]. rewrite (si_zero _ _ _ _ I) in A. done. }
  split; try done.
  - destruct (si_root _ _ _ _ I) as (a & R1 & R2 & R3 & R4 & R5). destruct (decide (R = l)) as [E|E].
    + exists rt_w. rewrite rt_gw. rewrite E in R1. assert (a = nl) as -> by congruence. done.
    + destruct (rt_view _ _ R1) as (a' & F & F1 & F2 & F3 & F4 & F5 & F6 & F7 & F8). rewrite F7 in F by done.
      exists a. repeat (split; [done|]). intros ->. congruence.
  - intros x a' Hx. destruct (rt_back x a' Hx) as [[-> ->]|(Hxq & a & E & F1 & F2 & F3 & F4 & F5 & F6 & F7 & F8)].
    { destruct Hgl. unfold rt_w. split; cbn [n_gh g_lo g_hi g_xh g_pre]; [lia|lia|lia|unfold TOP; lia|done|done]. }
    destruct (decide (x = l)) as [->|Hxl].
    { rewrite rt_gl in Hx. injection Hx as <-. destruct Hgl. unfold rt_l. split; cbn [n_gh g_lo g_hi g_xh g_pre]; [lia|lia|lia|lia|done|done]. }
    destruct (si_gh _ _ _ _ I x a E) as [G1 G2 G3 G4 G5 G6]. specialize (F8 Hxl). specialize (G5 Hxl).
    split; [lia|lia|lia|lia| |by rewrite F2]. intros _. congruence.
  - intros x a' Hx. destruct (rt_back x a' Hx) as [[-> ->]|(Hxq & a & E & F1 & F2 & _)].
    + destruct (si_lid _ _ _ _ I l nl Hl) as (b & B1 & B2 & B3). destruct (rt_view _ _ B1) as (b' & C & C1 & C2 & _).
      exists b'. cbn. split; [done|]. split; congruence.
    + destruct (si_lid _ _ _ _ I x a E) as (b & B1 & B2 & B3). destruct (rt_view _ _ B1) as (b' & C & C1 & C2 & _).
      exists b'. rewrite F1, F2. split; [done|]. split; congruence.
  - intros x a' Hx _ Hx0. destruct (rt_back x a' Hx) as [[-> ->]|(Hxq & a & E & F1 & F2 & F3 & F4 & F5 & F6 & F7 & F8)]; [done|].
    destruct (decide (x = l)) as [->|Hxl].
    { rewrite rt_gl in Hx. injection Hx as <-. cbn. exists rt_w, J. rewrite rt_gw, Hcs. split; [done|]. split; [done|]. by left. }
    destruct (decide (x = r)) as [->|Hxr].
    { rewrite rt_gr in Hx. injection Hx as <-. cbn. exists rt_w, J. rewrite rt_gw, Hcs. split; [done|]. split; [done|]. right. by left. }
    rewrite F7 in * by done. destruct (si_pa _ _ _ _ I x a E Hxr Hx0) as (b & K & B1 & B2 & B3).
    destruct (rt_view _ _ B1) as (b' & C & C1 & C2 & C3 & C4 & C5 & C6 & _). exists b', K. split; [done|]. split; [congruence|done].
  - intros x a' Hx _ Hx0. destruct (rt_back x a' Hx) as [[-> ->]|(Hxq & a & E & F1 & F2 & F3 & F4 & F5 & F6 & F7 & F8)].
    { cbn. split; [done|]. split; [done|]. intros E. by rewrite decide_True by (symmetry; auto). }
    destruct (decide (x = l)) as [->|Hxl]; [rewrite rt_gl in Hx; injection Hx as <-; done|].
    destruct (decide (x = r)) as [->|Hxr]; [rewrite rt_gr in Hx; injection Hx as <-; done|].
    rewrite F7 in * by done. destruct (si_top _ _ _ _ I x a E Hxr Hx0) as (U1 & U2 & U3). split; [done|]. split; [done|].
    intros EE. specialize (U3 EE). subst x. by rewrite decide_False.
  - intros x a' Hx. assert (x <> 0%N) by congruence. rewrite decide_False by done.
    destruct (rt_back x a' Hx) as [[-> ->]|(Hxq & a & E & F1 & F2 & F3 & F4 & F5 & F6 & F7 & F8)]; [done|].
    assert (Hwn : (w =? 0)%N = false) by (by apply N.eqb_neq).
    destruct (decide (x = l)) as [->|Hxl]; [rewrite rt_gl in Hx; injection Hx as <-; cbn; done|].
    destruct (decide (x = r)) as [->|Hxr]; [rewrite rt_gr in Hx; injection Hx as <-; done|].
    rewrite F7 by done. rewrite (si_rt _ _ _ _ I x a E). by rewrite decide_False.
  - intros x a' K Hx Hs. destruct (rt_back x a' Hx) as [[-> ->]|(Hxq & a & E & F1 & F2 & F3 & F4 & F5 & F6 & F7 & F8)].
    { cbn in Hs. injection Hs as <-. cbn [n_pa rt_w].
      assert (El : length (take 1 (ib_ks J)) = 1) by (by rewrite Hks). rewrite take_length in El.
      assert (Ec : length (kids J) = 2) by (by rewrite Hcs). unfold kids in Ec. rewrite take_length in Ec.
      split.
      - lia.
      - intros [?|[?|?]]; congruence.
      - lia.
      - lia.
      - rewrite Hcs. repeat constructor; [|apply not_elem_of_nil]. by intros ?%elem_of_list_singleton.
      - assert (Hb : bnds (n_gh rt_w) J = [0%N; hi nl; TOP]). { unfold bnds. rewrite Hnk, Hks. done. }
        intros i c Hi. rewrite Hcs in Hi. destruct i as [|[|i]]; cbn in Hi; [| |done]; injection Hi as <-.
        + split; [done|]. exists rt_l. rewrite rt_gl, Hb. cbn. rewrite T1. done.
        + split; [done|]. exists rt_r. rewrite rt_gr, Hb. split; [done|]. split; [done|]. split; [done|]. split; [rewrite Hht; done|].
          change (Some (hi nl) = Some (lo nr) /\ Some TOP = Some (xh nr)). rewrite P4. split; [done|]. f_equal. destruct Hgr. rewrite go_eq by done. congruence. }
    rewrite F6 in Hs. pose proof (si_inode _ _ _ _ I x a K E Hs) as HK.
    destruct (rt_notkid x a K E Hs) as [NK1 NK2].
    split; try apply HK.
    + intros Ho. apply HK. destruct (decide (x = l)) as [->|Hxl]; [by right; left|]. destruct (decide (x = r)) as [->|Hxr]; [by right; right|].
      rewrite F7 in Ho by done. destruct Ho as [Ho|[Ho|Ho]]; [by left|congruence|congruence].
    + intros i c Hi. destruct (io_kid _ _ _ _ _ _ _ HK i c Hi) as [_ (cn & E1 & E2 & E3 & E4 & E5 & E6)].
      destruct (rt_view _ _ E1) as (cn' & G & G1 & G2 & G3 & G4 & G5 & G6 & G7 & G8).
      assert (c <> l /\ c <> r) as [N1 N2]. { split; intros ->; [apply NK1|apply NK2]; by eapply elem_of_list_lookup_2. }
      split; [congruence|]. exists cn'. rewrite G7 in * by done. unfold bnds in *. rewrite F3, F4. split; [done|]. split; [done|].
      split; [congruence|]. done.
  - intros. eapply same_leaf; [exact I|apply rt_same|done|done].
  - intros *. eapply same_disj; [exact I|apply rt_same].
  - intros *. eapply same_deg; [exact I|apply rt_same].
  - intros [?|?]; done.
Qed.
End NewRoot.
