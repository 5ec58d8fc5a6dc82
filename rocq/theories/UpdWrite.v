(** Replacing a value while other threads look up and replace. *)
From Verif Require Import Base Perm PermFacts PermList PermLaws SpecPerm Key SpecKey KeyFacts Suffix SpecSuffix SuffixFacts Prog Version VersionFacts Mem Tree
  SpecTree SpecLin SpecConc TreeState TreePrim TreeInv TreeRead TreeSplit TreeSkel TreeInode TreeProp TreeLeaf TreeContent TreeInsert TreeTop UpdBase UpdRead.

(** ** facts about single changes *)
Lemma reaches_sub A A' k l d h : (forall l e, entry A l e -> entry A' l e) ->
  (forall p n, A !! p = Some n -> exists n', A' !! p = Some n' /\ g_lid (a_gh n') = g_lid (a_gh n)) ->
  reaches A k l d h -> reaches A' k l d h.
Proof.
  intros He Hn. induction 1 as [l d e H1 H2 H3|l d e n h H1 H2 H3 H4 H5 H6 IH]; [by apply r_here; auto|].
  destruct (Hn _ _ H5) as (n' & E1 & E2). eapply r_down; [by apply He|done|done|done|exact E1|by rewrite E2].
Qed.
Section Mode.
Context (A : gmap N anode) (p : N) (g : ghost) (md md' : vmode) (rt : bool) (pa : N) (b : body).
Context (Hp : A !! p = Some (mk_anode g md rt pa b)).
Local Notation A' := (<[p := mk_anode g md' rt pa b]> A).
Lemma mode_entry l e : entry A l e <-> entry A' l e.
Proof.
  split; intros (q & g1 & md1 & rt1 & pa1 & L & Hq & Hl & He); destruct (decide (q = p)) as [->|Hne].
  - rewrite Hp in Hq. injection Hq as -> -> -> -> ->. exists p, g1, md', rt1, pa1, L. by rewrite lookup_insert.
  - exists q, g1, md1, rt1, pa1, L. by rewrite lookup_insert_ne.
  - rewrite lookup_insert in Hq. injection Hq as -> -> -> -> ->. exists p, g1, md, rt1, pa1, L. done.
  - rewrite lookup_insert_ne in Hq by done. exists q, g1, md1, rt1, pa1, L. done.
Qed.
Lemma mode_reaches k l d h : reaches A k l d h <-> reaches A' k l d h.
Proof.
  split; apply reaches_sub.
  - intros l' e. apply mode_entry.
  - intros q n Hq. destruct (decide (q = p)) as [->|]; [rewrite lookup_insert|rewrite lookup_insert_ne by done; eauto].
    eexists. split; [done|]. rewrite Hp in Hq. by injection Hq as <-.
  - intros l' e. apply mode_entry.
  - intros q n Hq. destruct (decide (q = p)) as [->|]; [rewrite lookup_insert in Hq|rewrite lookup_insert_ne in Hq by done; eauto].
    eexists. split; [done|]. by injection Hq as <-.
Qed.
Lemma mode_vrefs : vrefs A' ≡ₚ vrefs A.
Proof. symmetry. apply (Permutation_app_inv_l (nrefs (mk_anode g md rt pa b))). exact (Permutation_sym (big_set nrefs A p _ (mk_anode g md' rt pa b) Hp)). Qed.
Lemma mode_same : same A A'.
Proof. eapply same_set; [exact Hp|]. repeat (split; [done|]). cbn. destruct b; [apply sleaf_refl|done]. Qed.
End Mode.
Lemma inv_grow K B s s' : Inv K B s 0 0 -> sA s' = sA s -> sR s' = sR s -> (forall h w, sV s !! h = Some w -> sV s' !! h = Some w) -> Inv K B s' 0 0.
Proof.
  intros HI HA HR HV. split; [rewrite HA, HR; apply HI|]. intros q g m rt pa L Hq. rewrite HA in *.
  eapply leaf_ok_mono; [by intros|by intros x n Hx; exists n|exact HV|apply N.le_refl|by eauto|by eapply (iv_l _ _ _ _ _ HI)].
Qed.
Lemma retired_wr p v m : retired (wr_ver p v m) = retired m.
Proof. unfold wr_ver. by destruct (heap m !! p) as [[]|]. Qed.
Lemma wp_inv {R} (f : mem -> res (R * mem)) m Q : wp (atomic f) m Q -> exists r m', f m = Ok (r, m') /\ Q r m'.
Proof. unfold wp. cbn. destruct (f m) as [[r m']|e]; [eauto|done]. Qed.

Section W.
Context (K : bytes -> N -> Prop) (B : N) (mb : mem) (sb : ast) (mu0 : gmap bytes N).
Context (HS : St mb sb) (HI : Inv K B sb 0 0) (HN : NoDead (sA sb)) (Hmu0 : forall k x, is_bytes k -> maps sb k x <-> mu0 !! k = Some x).
Context (i : nat).
Local Notation A := (sA sb).
Local Notation SA := (skels (sA sb)).
Local Notation I := (iv_s _ _ _ _ _ HI).
Local Notation WInv := (WInv K B sb mu0).
Local Notation cwp := (cwp K B sb mu0).
Local Notation places := (status -> Prop).

(** ** one step *)
Lemma step_inv w m' s' ow' fl' bk' mu' : WInv w -> St m' s' -> Inv K B s' 0 0 -> same (sA (ws w)) (sA s') ->
  sR s' = sR (ws w) -> sC s' = sC (ws w) -> sfn s' = sfn (ws w) -> sfv s' = map snd fl' ->
  (forall p n, sA s' !! p = Some n -> a_md n = if ow' !! p then MIns else MFree) -> length bk' = length (retired m') ->
  (forall k x, is_bytes k -> maps s' k x <-> mu' !! k = Some x) -> dom mu' = dom (wmu w) ->
  WInv (mk_w m' s' ow' fl' bk' (wact w) mu').
Proof.
  intros HW H1 H2 H3 H4 H5 H6 H7 H8 H9 H10 H11. destruct HW. split; cbn; try done; try congruence. by eapply same_trans.
Qed.
Lemma step_guar w m' s' ow' fl' bk' mu' new : WInv w ->
  (forall j p, j <> i -> wow w !! p = Some j <-> ow' !! p = Some j) ->
  (forall j p, j <> i -> wow w !! p = Some j -> sA s' !! p = sA (ws w) !! p) ->
  (forall j h, j <> i -> (j, h) ∈ wfl w <-> (j, h) ∈ fl') ->
  (forall h v, sV (ws w) !! h = Some v -> sV s' !! h = Some v) ->
  retired m' = new ++ retired (wm w) -> bk' = replicate (length new) (wact w) ++ wbk w ->
  (forall h, h ∈ vrefs (sA (ws w)) ++ sfv (ws w) -> h ∈ vrefs (sA s') ++ sfv s' \/ GVal h ∈ new) ->
  let w' := mk_w m' s' ow' fl' bk' (wact w) mu' in Guar i w w' /\ stamped w w'.
Proof.
  intros HW H1 H2 H3 H4 H5 H6 H7 w'. split.
  - intros j Hj. split; cbn; [by intros; apply H1|by intros; eapply H2|by intros; apply H3|done|].
    intros Ha h v Hl Hv. split; [|by apply H4]. destruct Hl as [Hl|(n & blk & L1 & L2 & L3)].
    + destruct (H7 h Hl) as [Hl'|Hn]; [by left|right]. apply elem_of_list_lookup in Hn as [n Hn]. exists n, (wact w). cbn.
      rewrite H5, H6. pose proof (lookup_lt_Some _ _ _ Hn). rewrite !lookup_app_l by (rewrite ?replicate_length; done). split; [done|]. split; [|done].
      by rewrite lookup_replicate_2.
    + right. exists (length new + n), blk. cbn. rewrite H5, H6, lookup_app_r by lia. rewrite lookup_app_r by (rewrite replicate_length; lia).
      rewrite replicate_length. replace (length new + n - length new) with n by lia. done.
  - split; [done|]. cbn. rewrite H5, app_length, (wi_bk _ _ _ _ _ HW), H6. by replace (length new + length (retired (wm w)) - length (retired (wm w))) with (length new) by lia.
Qed.
Lemma cwp_step {R} (f : mem -> res (R * mem)) w (O : places) Q :
  (forall w1, Rely i w w1 -> WInv w1 -> i ∈ wact w1 -> exists r w2,
      f (wm w1) = Ok (r, wm w2) /\ WInv w2 /\ Guar i w1 w2 /\ stamped w1 w2 /\
      (exists s, after O (wmu w1) (wmu w2) s) /\ Q r w2 (after O (wmu w1) (wmu w2))) -> cwp i (atomic f) w O Q.
Proof. intros H. exact H. Qed.
Lemma after_keep (O : places) mu s : O s -> after O mu mu s.
Proof. by left. Qed.

(** the lock and the handle the thread has *)
Definition mineO (w : world) (p : option N) : Prop := forall q, wow w !! q = Some i <-> p = Some q.
Definition mineH (w : world) (h : option N) : Prop := forall x, (i, x) ∈ wfl w <-> h = Some x.
Lemma mine_bare w : mineO w None -> mineH w None -> bare i w.
Proof. intros H1 H2. split; [intros q Hq; by apply H1 in Hq|intros x Hx; by apply H2 in Hx]. Qed.
Lemma mineO_rely w w' p : Rely i w w' -> mineO w p -> mineO w' p.
Proof. intros HR H q. rewrite <- (rl_ow _ _ _ HR). apply H. Qed.
Lemma mineH_rely w w' p : Rely i w w' -> mineH w p -> mineH w' p.
Proof. intros HR H q. rewrite <- (rl_fl _ _ _ HR). apply H. Qed.
Lemma owned_rely w w' p n : Rely i w w' -> mineO w (Some p) -> sA (ws w) !! p = Some n -> sA (ws w') !! p = Some n.
Proof. intros HR H Hp. rewrite (rl_an _ _ _ HR); [done|]. by apply H. Qed.
Definition sub (O O' : places) : Prop := forall s, O s -> O' s.

(** ** locks *)
Lemma mode_step w m' p g md md' rt pa b ow' : WInv w -> sA (ws w) !! p = Some (mk_anode g md rt pa b) ->
  St m' (setA p (mk_anode g md' rt pa b) (ws w)) -> retired m' = retired (wm w) ->
  md' = (if ow' !! p then MIns else MFree) -> (forall q, q <> p -> ow' !! q = wow w !! q) ->
  (forall j, j <> i -> wow w !! p <> Some j /\ ow' !! p <> Some j) ->
  let w' := mk_w m' (setA p (mk_anode g md' rt pa b) (ws w)) ow' (wfl w) (wbk w) (wact w) (wmu w) in
  WInv w' /\ Guar i w w' /\ stamped w w'.
Proof.
  intros HW Hp HS' Hret Hmd How Hj w'. split.
  - apply step_inv; try done; cbn [setA sA sR sV sC sfn sfv].
    + destruct (wi_in _ _ _ _ _ HW) as [I1 I2]. 
      assert (Hsk : skels (<[p := mk_anode g md' rt pa b]> (sA (ws w))) = skels (sA (ws w))) by (apply same_skels; by eapply mode_same).
      split; cbn [setA sA sR sV]; rewrite Hsk; [done|]. intros q g1 m1 rt1 pa1 L Hq. destruct (decide (q = p)) as [->|].
      * rewrite lookup_insert in Hq. injection Hq as -> -> -> -> ->. by eapply I2.
      * rewrite lookup_insert_ne in Hq by done. by eapply I2.
    + by eapply mode_same.
    + apply HW.
    + intros q n Hq. destruct (decide (q = p)) as [->|Hne].
      * rewrite lookup_insert in Hq. by injection Hq as <-.
      * rewrite lookup_insert_ne in Hq by done. rewrite How by done. by apply HW.
    + rewrite Hret. apply HW.
    + intros k x Hk. rewrite <- (wi_mu _ _ _ _ _ HW) by done. unfold maps. cbn [setA sA sV].
      split; intros (h & H1 & H2); exists h; (split; [|done]); by eapply (mode_reaches _ p g md md' rt pa b Hp).
  - apply (step_guar w _ _ _ _ _ _ []); [done| | |done|done|by rewrite Hret|done|].
    + intros j q Hne. destruct (decide (q = p)) as [->|Hqp]; [|by rewrite How]. destruct (Hj j Hne). split; intros; congruence.
    + intros j q Hne Hq. cbn [setA sA]. rewrite lookup_insert_ne; [done|]. intros <-. by destruct (Hj j Hne).
    + intros h Hh. left. cbn [setA sA sfv]. rewrite elem_of_app in Hh |- *. rewrite (mode_vrefs _ p g md md' rt pa b Hp). done.
Qed.

Section Lk.
Context (p : N) (g : ghost) (md : vmode) (rt : bool) (pa : N) (L : lbody) (Hp : A !! p = Some (LF g md rt pa L)).
Lemma c_lock (O0 : places) (Q : N -> world -> places -> Prop) : (forall lv w' (O' : places) L', WInv w' -> sub O0 O' -> mineO w' (Some p) -> mineH w' None ->
    vbits lv MIns rt true -> sA (ws w') !! p = Some (LF g MIns rt pa L') -> sleaf L L' -> Q lv w' O') ->
  forall F w (O : places), sub O0 O -> (exists s, O s) -> mineO w None -> mineH w None -> cwp i (lock F p) w O Q.
Proof.
  intros HQ. unfold lock. induction F as [|F IH]; intros w O HO Hex Hm Hh; cbn [ver_lock]; [split; [done|by apply mine_bare]|].
  apply cwp_bind, cwp_step. intros w1 HR1 HW1 Ha1.
  destruct (cur_leaf K B sb mu0 p g md rt pa L Hp w1 HW1) as (md1 & L1 & Hp1 & HL1).
  destruct (St_ver _ _ _ _ (wi_st _ _ _ _ _ HW1) Hp1) as (v & Hv & Hb & _). cbn [a_md a_rt a_bd is_leafb] in Hb.
  exists v, w1. rewrite Hv. split; [done|]. split; [done|]. split; [intros j _; apply rely_refl|]. split; [by eapply stamped_refl|].
  split; [destruct Hex as [s Hs]; exists s; by left|].
  pose proof (mineO_rely _ _ _ HR1 Hm) as Hm1. pose proof (mineH_rely _ _ _ HR1 Hh) as Hh1.
  assert (HO1 : sub O0 (after O (wmu w1) (wmu w1))) by (intros s Hs; left; split; [by apply HO|done]).
  assert (Hex1 : exists s, after O (wmu w1) (wmu w1) s) by (destruct Hex as [s Hs]; exists s; by left).
  destruct (v_can_lock v) eqn:Ecl; [|by apply IH].
  apply cwp_bind, cwp_step. intros w2 HR2 HW2 Ha2.
  destruct (cur_leaf K B sb mu0 p g md rt pa L Hp w2 HW2) as (md2 & L2 & Hp2 & HL2).
  destruct (St_ver _ _ _ _ (wi_st _ _ _ _ _ HW2) Hp2) as (v2 & Hv2 & Hb2 & Hw2). cbn [a_md a_rt a_bd a_gh a_pa is_leafb] in Hb2, Hw2.
  rewrite Hv2. pose proof (mineO_rely _ _ _ HR2 Hm1) as Hm2. pose proof (mineH_rely _ _ _ HR2 Hh1) as Hh2.
  set (O1 := after O (wmu w1) (wmu w1)) in *.
  destruct (N.eqb_spec v2 v) as [->|Hne].
  - assert (md2 = MFree).
    { pose proof (wi_md _ _ _ _ _ HW2 _ _ Hp2) as E. cbn in E. destruct (wow w2 !! p); [|done]. subst md2. exfalso.
      rewrite can_lock_bits in Ecl. pose proof (vbits_lockedf _ _ _ _ Hb2) as Hl. rewrite is_locked_bit in Hl. by rewrite Hl in Ecl. }
    subst md2.
    assert (Hno : wow w2 !! p = None).
    { pose proof (wi_md _ _ _ _ _ HW2 _ _ Hp2) as E. cbn in E. by destruct (wow w2 !! p). }
    destruct (mode_step w2 (wr_ver p (v_locked v) (wm w2)) p g MFree MIns rt pa (BLeaf L2) (<[p := i]> (wow w2)) HW2 Hp2) as (S1 & S2 & S3).
    { apply Hw2. by apply vbits_locked. } { apply retired_wr. } { by rewrite lookup_insert. } { intros q Hq. by rewrite lookup_insert_ne. }
    { intros j Hj. rewrite lookup_insert, Hno. split; congruence. }
    eexists true, (mk_w _ _ _ _ _ _ _). split; [reflexivity|]. split; [exact S1|]. split; [exact S2|]. split; [exact S3|]. cbn [wmu].
    split; [destruct Hex1 as [s Hs]; exists s; by left|]. apply cwp_ret.
    eapply (HQ _ _ _ L2); [exact S1|intros s Hs; left; split; [by apply HO1|done]| | |by apply vbits_locked|cbn [ws setA sA]; apply lookup_insert|done].
    + intros q. cbn [wow]. destruct (decide (q = p)) as [->|Hq]; [rewrite lookup_insert; split; congruence|]. rewrite lookup_insert_ne by done.
      rewrite (Hm2 q). split; congruence.
    + exact Hh2.
  - exists false, w2. split; [done|]. split; [done|]. split; [intros j _; apply rely_refl|]. split; [by eapply stamped_refl|].
    split; [destruct Hex1 as [s Hs]; exists s; by left|]. apply IH; [|destruct Hex1 as [s Hs]; exists s; by left|done|done].
    intros s Hs. left. split; [by apply HO1|done].
Qed.
Lemma c_unlock lv L' hh w (O : places) (Q : unit -> world -> places -> Prop) : (exists s, O s) -> mineO w (Some p) -> mineH w hh -> vbits lv MIns rt true ->
  sA (ws w) !! p = Some (LF g MIns rt pa L') ->
  (forall w' (O' : places), WInv w' -> sub O O' -> mineO w' None -> mineH w' hh -> i ∈ wact w' -> Q tt w' O') -> cwp i (unlock p lv) w O Q.
Proof.
  intros Hex Hm Hh Hlv Hcur HQ. unfold unlock, guard_drop. apply cwp_step. intros w1 HR1 HW1 Ha1.
  pose proof (mineO_rely _ _ _ HR1 Hm) as Hm1. pose proof (mineH_rely _ _ _ HR1 Hh) as Hh1. pose proof (owned_rely _ _ _ _ HR1 Hm Hcur) as Hp1.
  destruct (St_ver _ _ _ _ (wi_st _ _ _ _ _ HW1) Hp1) as (v & Hv & Hb & Hw). cbn [a_md a_rt a_bd a_gh a_pa is_leafb] in Hb, Hw. rewrite Hv.
  destruct (mode_step w1 (wr_ver p (v_unlock lv) (wm w1)) p g MIns MFree rt pa (BLeaf L') (delete p (wow w1)) HW1 Hp1) as (S1 & S2 & S3).
  { apply Hw. exact (vbits_unlock _ _ _ _ Hlv). } { apply retired_wr. } { by rewrite lookup_delete. } { intros q Hq. by rewrite lookup_delete_ne. }
  { intros j Hj. rewrite lookup_delete. split; [|congruence]. assert (wow w1 !! p = Some i) by (by apply Hm1). congruence. }
  eexists tt, (mk_w _ _ _ _ _ _ _). split; [reflexivity|]. split; [exact S1|]. split; [exact S2|]. split; [exact S3|]. cbn [wmu].
  split; [destruct Hex as [s Hs]; exists s; by left|]. apply HQ; [exact S1|by intros s Hs; left| |exact Hh1|done].
  intros q. cbn [wow]. destruct (decide (q = p)) as [->|Hq]; [rewrite lookup_delete; split; congruence|]. rewrite lookup_delete_ne by done.
  rewrite (Hm1 q). split; congruence.
Qed.
End Lk.

(** ** handles *)
Lemma handle_split w h : WInv w -> mineH w (Some h) -> exists fl', wfl w ≡ₚ (i, h) :: fl' /\ (forall x, (i, x) ∉ fl') /\
  (forall j x, j <> i -> (j, x) ∈ wfl w <-> (j, x) ∈ fl').
Proof.
  intros HW Hh. assert (Hin : (i, h) ∈ wfl w) by (by apply Hh). apply elem_of_Permutation in Hin as [fl' Hfl]. exists fl'. split; [done|].
  assert (Hnd : NoDup (map snd (wfl w))).
  { rewrite <- (wi_fl _ _ _ _ _ HW). destruct (st_ov _ _ (wi_st _ _ _ _ _ HW)) as [Hnd _]. apply NoDup_app in Hnd as (_ & _ & Hnd). by apply NoDup_app in Hnd as (_ & _ & Hnd). }
  rewrite Hfl in Hnd. cbn in Hnd. apply NoDup_cons in Hnd as [Hnd _]. split.
  - intros x Hx. assert (Some h = Some x) as [= ->] by (apply Hh; rewrite Hfl; by right). apply Hnd. apply elem_of_list_fmap. by exists (i, x).
  - intros j x Hj. rewrite Hfl, elem_of_cons. split; [intros [E|]; [congruence|done]|by right].
Qed.
Lemma c_to_raw v po w (O : places) (Q : N -> world -> places -> Prop) : (exists s, O s) -> mineO w po -> mineH w None ->
  (forall h w' (O' : places), WInv w' -> sub O O' -> mineO w' po -> mineH w' (Some h) -> i ∈ wact w' -> h <> 0%N -> sV (ws w') !! h = Some v ->
     (forall p, po = Some p -> sA (ws w') !! p = sA (ws w) !! p) -> (forall h v, i ∈ wact w -> live i h w -> sV (ws w) !! h = Some v -> live i h w' /\ sV (ws w') !! h = Some v) -> Q h w' O') -> cwp i (output_to_raw v) w O Q.
Proof.
  intros Hex Hm Hh HQ. apply cwp_step. intros w1 HR1 HW1 Ha1.
  pose proof (mineO_rely _ _ _ HR1 Hm) as Hm1. pose proof (mineH_rely _ _ _ HR1 Hh) as Hh1.
  assert (Hwp : wp (output_to_raw v) (wm w1) (fun h m' => h <> 0%N /\ sV (ws w1) !! h = None /\ St m' (setV (<[h := v]> (sV (ws w1))) (setfv (h :: sfv (ws w1)) (ws w1))))).
  { apply (wp_to_raw _ _ (wi_st _ _ _ _ _ HW1)). done. }
  apply wp_inv in Hwp as (h & m' & Hf & Hh0 & Hnew & HS').
  assert (Hret : retired m' = retired (wm w1)) by (by injection Hf as _ <-).
  assert (HV : forall x y, sV (ws w1) !! x = Some y -> <[h := v]> (sV (ws w1)) !! x = Some y) by (intros x y Hx; rewrite lookup_insert_ne; congruence).
  set (s' := setV _ _) in HS'.
  assert (W1 : WInv (mk_w m' s' (wow w1) ((i, h) :: wfl w1) (wbk w1) (wact w1) (wmu w1))).
  { apply step_inv; try done; cbn.
    - by eapply inv_grow; [apply HW1|..].
    - apply same_refl.
    - by rewrite (wi_fl _ _ _ _ _ HW1).
    - intros p n Hp. by apply HW1.
    - rewrite Hret. apply HW1.
    - intros k x Hk. rewrite <- (wi_mu _ _ _ _ _ HW1) by done. unfold maps. cbn. split; intros (x' & H1 & H2); exists x'; (split; [done|]); [|by apply HV].
      destruct (reaches_val _ _ _ (wi_in _ _ _ _ _ HW1) _ _ _ _ Hk (p_main _ _) H1) as (y & Hy & _). rewrite Hy. rewrite (HV _ _ Hy) in H2. done. }
  destruct (step_guar w1 m' s' (wow w1) ((i, h) :: wfl w1) (wbk w1) (wmu w1) [] HW1) as [G1 G2]; [done|done| |done|by rewrite Hret|done| |].
  { intros j x Hj. rewrite elem_of_cons. split; [by right|intros [E|]; [congruence|done]]. }
  { intros x Hx. left. cbn. rewrite elem_of_app in Hx |- *. rewrite elem_of_cons. tauto. }
  eexists h, (mk_w _ _ _ _ _ _ _). split; [exact Hf|]. split; [exact W1|]. split; [exact G1|]. split; [exact G2|]. cbn [wmu].
  split; [destruct Hex as [s Hs]; exists s; by left|]. apply HQ; [exact W1|by intros s Hs; left|done| |done|done|apply lookup_insert| |].
  - intros x. cbn [wfl]. rewrite elem_of_cons, (Hh1 x). split; [intros [E|]; [congruence|done]|intros [= ->]; by left].
  - intros p ->. cbn. apply (rl_an _ _ _ HR1). by apply Hm.
  - intros x y Ha Hl Hy. destruct (rl_live _ _ _ HR1 Ha x y Hl Hy) as [L1 L2]. split; [|by apply HV].
    destruct L1 as [L1|L1]; [left; cbn; rewrite elem_of_app in L1 |- *; rewrite elem_of_cons; tauto|right]. cbn. by rewrite Hret.
Qed.
Lemma c_retire h w (O : places) (Q : unit -> world -> places -> Prop) : (exists s, O s) -> mineO w None -> mineH w (Some h) ->
  (forall w' (O' : places), WInv w' -> sub O O' -> mineO w' None -> mineH w' None -> Q tt w' O') -> cwp i (retire (GVal h)) w O Q.
Proof.
  intros Hex Hm Hh HQ. apply cwp_step. intros w1 HR1 HW1 Ha1.
  pose proof (mineO_rely _ _ _ HR1 Hm) as Hm1. pose proof (mineH_rely _ _ _ HR1 Hh) as Hh1.
  destruct (handle_split w1 h HW1 Hh1) as (fl' & Hfl & Hno & Hoth).
  assert (Hwp : wp (retire (GVal h)) (wm w1) (fun _ m' => St m' (setfv (map snd fl') (ws w1)))).
  { eapply (wp_retire_val _ _ (wi_st _ _ _ _ _ HW1)); [|done]. by rewrite (wi_fl _ _ _ _ _ HW1), Hfl. }
  apply wp_inv in Hwp as ([] & m' & Hf & HS'). assert (Hret : retired m' = GVal h :: retired (wm w1)) by (by injection Hf as <-).
  set (s' := setfv _ _) in HS'.
  assert (W1 : WInv (mk_w m' s' (wow w1) fl' (wact w1 :: wbk w1) (wact w1) (wmu w1))).
  { apply step_inv; try done; cbn.
    - by eapply inv_grow; [apply HW1|..].
    - apply same_refl.
    - intros p n Hp. by apply HW1.
    - rewrite Hret. cbn. f_equal. apply HW1.
    - intros k x Hk. rewrite <- (wi_mu _ _ _ _ _ HW1) by done. done. }
  destruct (step_guar w1 m' s' (wow w1) fl' (wact w1 :: wbk w1) (wmu w1) [GVal h] HW1) as [G1 G2]; [done|done|done|done|done|done| |].
  { intros x Hx. cbn. rewrite elem_of_app in Hx |- *. destruct Hx as [Hx|Hx]; [auto|]. rewrite (wi_fl _ _ _ _ _ HW1), Hfl in Hx. cbn in Hx.
    apply elem_of_cons in Hx as [->|Hx]; [right; by left|auto]. }
  eexists tt, (mk_w _ _ _ _ _ _ _). split; [exact Hf|]. split; [exact W1|]. split; [exact G1|]. split; [exact G2|]. cbn [wmu].
  split; [destruct Hex as [s Hs]; exists s; by left|]. apply HQ; [exact W1|by intros s Hs; left|done|].
  intros x. cbn. split; [intros Hx; by apply Hno in Hx|done].
Qed.

(** ** the new value takes its place *)
Context (kb : bytes) (v : N) (Hkb : is_bytes kb) (Hlen : length kb <= 256) (HK : K kb v).
Lemma set_maps w p g rt pa L d j x h : WInv w -> sA (ws w) !! p = Some (LF g MIns rt pa L) -> path (sA (ws w)) kb (g_lid g) d ->
  (g_lo g <= be_word (pad8 (drop (d * 8) kb)) < g_hi g)%N ->
  j ∈ ids L -> lb_sl L !! j = Some x -> rest_of x (drop (d * 8) kb) -> h <> 0%N -> sV (ws w) !! h = Some v ->
  forall s', sA s' = <[p := LF g MIns rt pa (rep_leaf L j (sset_ptr h x) (lb_bg L) (lb_bud L))]> (sA (ws w)) -> sV s' = sV (ws w) -> sR s' = sR (ws w) ->
  Inv K B s' 0 0 /\ same (sA (ws w)) (sA s') /\ NoDead (sA s') /\
  (forall k y, is_bytes k -> maps s' k y <-> (k = kb /\ y = v) \/ (k <> kb /\ maps (ws w) k y)).
Proof.
  intros HW Hp Hpath Hik Hj Hx Hr Hh0 Hhv s' HA HV HR. set (y := sset_ptr h x) in *.
  pose proof (wi_in _ _ _ _ _ HW) as HIw. pose proof (iv_l _ _ _ _ _ HIw _ _ _ _ _ _ Hp) as HL.
  assert (HNw : NoDead (sA (ws w))) by (eapply same_NoDead; [exact HN|exact HW]).
  assert (Hgpre : g_pre g = take (d * 8) kb).
  { destruct (path_pre _ _ _ HIw _ _ _ Hkb Hpath) as (n & N1 & N2 & N3 & _). rewrite <- N3. by apply (layer_pre K B (ws w) HIw _ _ _ _ Hp N1). }
  assert (Hy : rest_of y (drop (d * 8) kb)) by exact Hr.
  assert (Hsf : s_kx y <> KSUF_KEYLENX -> s_sf y = None) by (cbn; by eapply (lk_sf _ _ _ _ _ _ HL)).
  assert (Hsl : sslot x y).
  { repeat (split; [done|]). pose proof (rest_lt _ _ Hr). cbn. lia. }
  assert (Hsame : same (sA (ws w)) (sA s')).
  { rewrite HA. eapply same_set; [exact Hp|]. repeat (split; [done|]). cbn. split; try done. cbn.
    apply Forall2_lookup. intros q. destruct (decide (q = j)) as [->|].
    - rewrite list_lookup_insert by (by eapply lookup_lt_Some). rewrite Hx. by constructor.
    - rewrite list_lookup_insert_ne by done. destruct (lb_sl L !! q); constructor. apply sslot_refl. }
  assert (HIs : Inv K B s' 0 0).
  { eapply (inv_leaf_upd K B B (ws w) s' p g MIns MIns rt pa L); [done|done|exact HA|done|by intros ?? ?; rewrite HV|lia|done|done|]. rewrite HV.
    eapply (rep_ok K B B (skels (sA (ws w))) (skels (sA (ws w))) (sV (ws w)) (sV (ws w)) g L HL j x y); try done; [by intros q n Hq; exists n|apply HL|eauto|].
    split; [done|]. left. exists (drop (d * 8) kb), v. split; [done|]. rewrite Hgpre, take_drop. done. }
  assert (HNs : NoDead (sA s')) by (by eapply same_dead).
  split; [done|]. split; [done|]. split; [done|].
  assert (Hes : forall z, z ∈ es (rep_leaf L j y (lb_bg L) (lb_bud L)) <-> z = y \/ (z ∈ es L /\ ecls z <> ecls x)).
  { intros z. eapply (rep_elem K B B (skels (sA (ws w))) (sV (ws w)) (sV (ws w)) g L HL j x y); try done; [apply HL]. }
  assert (Hxe : x ∈ es L) by (by eapply rep_x).
  assert (Hex : entry (sA (ws w)) (g_lid g) x) by (exists p, g, MIns, rt, pa, L; done).
  assert (Hux : forall z, entry (sA (ws w)) (g_lid g) z -> hit (drop (d * 8) kb) z -> z = x).
  { intros z Hz Hh'. eapply (entry_uniq K B (ws w) HIw); [done|done|done|]. rewrite (hit_rcls _ _ Hh'). symmetry. by apply rest_ecls. }
  assert (Hother : forall q g' m' rt' pa' L2 z, q <> p -> sA (ws w) !! q = Some (LF g' m' rt' pa' L2) -> g_lid g' = g_lid g -> z ∈ es L2 -> s_ik z <> be_word (pad8 (drop (d * 8) kb))).
  { intros q g' m' rt' pa' L2 z Hne Hq Hl Hz E. apply Hne. eapply (holds_uniq K B (ws w) HIw (g_lid g)).
    - exists g', m', rt', pa', L2. split; [done|]. split; [done|]. split; [|by eapply HNw]. by apply (lk_span _ _ _ _ _ _ (iv_l _ _ _ _ _ HIw _ _ _ _ _ _ Hq) z Hz).
    - exists g, MIns, rt, pa, L. rewrite E. done. }
  intros k z Hk. eapply (upd_maps K B B (ws w) s' HIw HIs HNs kb v (g_lid g) d Hkb Hpath); [|by intros ?? ?; rewrite HV|exact Hy|..|done].
  - intros q n Hq. destruct (same_node _ _ _ _ Hsame Hq) as (n' & Hn' & E & _). exists n'. split; [done|]. congruence.
  - cbn. by rewrite HV.
  - intros e He Hh'. rewrite (Hux e He Hh'). by eapply rest_lt.
  - intros l e. rewrite HA, (entry_leaf_upd _ _ _ _ _ _ _ _ _ _ Hp eq_refl). split.
    + intros [[-> Hz]|(q & g' & m' & rt' & pa' & L2 & Hne & Hq & Hl & Hz)].
      * apply Hes in Hz as [->|[Hz Hc]]; [by left|]. right. assert (entry (sA (ws w)) (g_lid g) e) by (exists p, g, MIns, rt, pa, L; done).
        split; [done|]. intros [_ Hh']. apply Hc. by rewrite (Hux e).
      * right. assert (entry (sA (ws w)) l e) by (exists q, g', m', rt', pa', L2; done). split; [done|]. intros [-> Hh'].
        eapply Hother; [exact Hne|exact Hq|done|exact Hz|apply Hh'].
    + intros [[-> ->]|[(q & g' & m' & rt' & pa' & L2 & Hq & Hl & Hz) Hn]].
      * left. split; [done|]. apply Hes. by left.
      * destruct (decide (q = p)) as [->|Hne]; [left|right; eauto 12].
        rewrite Hp in Hq. injection Hq as <- <- <- <- <-. split; [done|]. apply Hes. right. split; [done|]. intros Hc. apply Hn. split; [done|].
        assert (e = x) as ->. { eapply (entry_uniq K B (ws w) HIw (g_lid g)); [done|exists p, g, MIns, rt, pa, L; done|done|done]. }
        split; [apply Hr|by left].
Qed.
Lemma c_set_val_ptr p g rt pa L d j x h ov w (O : places) (Q : unit -> world -> places -> Prop) : WInv w -> O (Pending (Insert kb v)) -> mineO w (Some p) -> mineH w (Some h) ->
  sA (ws w) !! p = Some (LF g MIns rt pa L) -> path (sA sb) kb (g_lid g) d ->
  (g_lo g <= be_word (pad8 (drop (d * 8) kb)) < g_hi g)%N ->
  j ∈ ids L -> lb_sl L !! j = Some x -> rest_of x (drop (d * 8) kb) -> s_ptr x <> 0%N -> h <> 0%N -> sV (ws w) !! h = Some v ->
  i ∈ wact w -> sV (ws w) !! s_ptr x = Some ov ->
  (forall w' (O' : places) L', WInv w' -> O' (Done (AIns (Some ov))) -> mineO w' (Some p) -> mineH w' (Some (s_ptr x)) ->
     sA (ws w') !! p = Some (LF g MIns rt pa L') -> Q tt w' O') -> cwp i (set_val_ptr p j h) w O Q.
Proof.
  intros HW HO Hm Hh Hp Hpath Hik Hj Hx Hr Hx0 Hh0 Hhv Ha Hov HQ. apply cwp_step. intros w1 HR1 HW1 Ha1.
  pose proof (mineO_rely _ _ _ HR1 Hm) as Hm1. pose proof (mineH_rely _ _ _ HR1 Hh) as Hh1. pose proof (owned_rely _ _ _ _ HR1 Hm Hp) as Hp1.
  assert (Hhv1 : sV (ws w1) !! h = Some v).
  { eapply (rl_live _ _ _ HR1 Ha); [|done]. left. apply elem_of_app. right. rewrite (wi_fl _ _ _ _ _ HW). apply elem_of_list_fmap. exists (i, h). split; [done|]. by apply Hh. }
  assert (Hov1 : sV (ws w1) !! s_ptr x = Some ov).
  { eapply (rl_live _ _ _ HR1 Ha); [|done]. eapply slot_live; [exact Hp|by eapply elem_of_list_lookup_2|done|by eapply rest_lt]. }
  assert (Hpath1 : path (sA (ws w1)) kb (g_lid g) d) by (eapply same_path; [apply HW1|done]).
  destruct (handle_split w1 h HW1 Hh1) as (fl' & Hfl & Hno & Hoth).
  set (fl2 := (i, s_ptr x) :: fl').
  pose proof (rest_lt _ _ Hr) as Hlt. apply N.ltb_lt in Hlt.
  assert (Hsr : srefs (sset_ptr h x) ++ map snd fl2 ≡ₚ srefs x ++ sfv (ws w1)).
  { unfold srefs, sset_ptr. cbn [s_ptr s_kx]. rewrite Hlt, (proj2 (N.eqb_neq _ _) Hh0), (proj2 (N.eqb_neq _ _) Hx0). cbn.
    rewrite (wi_fl _ _ _ _ _ HW1), Hfl. cbn. apply perm_swap. }
  assert (Hwp : wp (set_val_ptr p j h) (wm w1) (fun _ m' => retired m' = retired (wm w1) /\ St m' (setfv (map snd fl2) (setA p (LF g MIns rt pa (rep_leaf L j (sset_ptr h x) (lb_bg L) (lb_bud L))) (ws w1))))).
  { assert (Hwp : wp (set_val_ptr p j h) (wm w1) (fun _ m' => St m' (setfv (map snd fl2) (setA p (LF g MIns rt pa (rep_leaf L j (sset_ptr h x) (lb_bg L) (lb_bud L))) (ws w1))))).
    { eapply (wp_set_val_ptr _ _ (wi_st _ _ _ _ _ HW1) p _ _ _ _ _ Hp1 j x h (map snd fl2) _ Hx Hsr). intros m' HS'. exact HS'. }
    unfold set_val_ptr, leaf_up in *. apply wp_inv in Hwp as (r & m' & Hf & HS'). eapply wp_atomic; [exact Hf|]. split; [|done].
    clear -Hf. destruct (heap (wm w1) !! p) as [[l|]|]; try done. destruct (_ ← list_set (l_val l) j h; _) as [[r' l']|]; [|done]. by injection Hf as _ <-. }
  unfold set_val_ptr, leaf_up in Hwp. apply wp_inv in Hwp as ([] & m' & Hf & Hret & HS').
  set (s' := setfv _ _) in HS'.
  destruct (set_maps w1 p g rt pa L d j x h HW1 Hp1 Hpath1 Hik Hj Hx Hr Hh0 Hhv1 s' eq_refl eq_refl eq_refl) as (M1 & M2 & M3 & M4).
  assert (Hmu : wmu w1 !! kb = Some ov).
  { destruct (val_now K B sb mu0 kb Hkb w1 (g_lid g) d x HW1 Hpath) as (y & Y1 & Y2); [|done|congruence].
    exists p, g, MIns, rt, pa, L. split; [done|]. split; [done|]. eapply rep_x; [|done|done]. by eapply (wi_in _ _ _ _ _ HW1). }
  assert (W1 : WInv (mk_w m' s' (wow w1) fl2 (wbk w1) (wact w1) (<[kb := v]> (wmu w1)))).
  { apply step_inv; try done.
    - cbn. intros q n Hq. destruct (decide (q = p)) as [->|].
      + rewrite lookup_insert in Hq. injection Hq as <-. cbn. assert (wow w1 !! p = Some i) as -> by (by apply Hm1). done.
      + rewrite lookup_insert_ne in Hq by done. by apply HW1.
    - rewrite Hret. apply HW1.
    - intros k y Hk. rewrite M4 by done. rewrite (wi_mu _ _ _ _ _ HW1) by done. rewrite lookup_insert_Some. naive_solver.
    - apply dom_insert_lookup_L. by eexists. }
  assert (Hvr : vrefs (sA s') ++ sfv s' ≡ₚ vrefs (sA (ws w1)) ++ sfv (ws w1)).
  { cbn [s' setfv setA sA sfv]. pose proof (big_set nrefs _ p _ (LF g MIns rt pa (rep_leaf L j (sset_ptr h x) (lb_bg L) (lb_bud L))) Hp1) as E1.
    assert (E2 : srefs x ++ nrefs (LF g MIns rt pa (rep_leaf L j (sset_ptr h x) (lb_bg L) (lb_bud L))) ≡ₚ srefs (sset_ptr h x) ++ nrefs (LF g MIns rt pa L)) by exact (srefs_set _ _ _ _ Hx).
    apply (Permutation_count_occ N.eq_dec). intros z.
    apply (proj1 (Permutation_count_occ N.eq_dec _ _)) with (x := z) in E1.
    apply (proj1 (Permutation_count_occ N.eq_dec _ _)) with (x := z) in E2.
    apply (proj1 (Permutation_count_occ N.eq_dec _ _)) with (x := z) in Hsr.
    rewrite !count_occ_app in E1, E2, Hsr |- *. lia. }
  destruct (step_guar w1 m' s' (wow w1) fl2 (wbk w1) (<[kb := v]> (wmu w1)) [] HW1) as [G1 G2]; [done| | |done|by rewrite Hret|done| |].
  { intros jj q Hne Hq. cbn. rewrite lookup_insert_ne; [done|]. intros <-. assert (wow w1 !! p = Some i) by (by apply Hm1). congruence. }
  { intros jj q Hne. rewrite Hoth by done. unfold fl2. rewrite elem_of_cons. split; [by right|intros [E|]; [congruence|done]]. }
  { intros q Hq. left. by rewrite Hvr. }
  eexists tt, (mk_w _ _ _ _ _ _ _). split; [exact Hf|]. split; [exact W1|]. split; [exact G1|]. split; [exact G2|]. cbn [wmu].
  assert (HD : after O (wmu w1) (<[kb := v]> (wmu w1)) (Done (AIns (Some ov)))).
  { right. exists (Insert kb v), (AIns (Some ov)). split; [done|]. split; [|done]. cbn. by rewrite Hmu. }
  split; [by eexists|]. eapply HQ; [exact W1|done|done| |cbn; apply lookup_insert].
  intros q. cbn. unfold fl2. rewrite elem_of_cons. split; [intros [E|Hq]; [congruence|by apply Hno in Hq]|intros [= ->]; by left].
Qed.
End W.
