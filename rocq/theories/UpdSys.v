(** Concurrent replacement: from the calls to the whole system, with its collector. *)
From Verif Require Import Base Perm PermFacts PermList PermLaws SpecPerm Key SpecKey KeyFacts Suffix SpecSuffix SuffixFacts Prog Version VersionFacts Mem Tree
  SpecTree SpecHist SpecLin SpecConc SpecAtomic SpecUpdate TreeState TreePrim TreeInv TreeRead TreeSplit TreeSkel TreeInode TreeProp TreeLeaf TreeContent TreeInsert TreeTop TreeLaws
  UpdBase UpdRead UpdWrite UpdInsert UpdCall.

Lemma own_del {X} (L L' : list N) (mp : gmap N X) a : L ≡ₚ a :: L' -> own L mp -> is_Some (mp !! a) /\ a ∉ L' /\ own L' (delete a mp).
Proof.
  intros HP HO. apply (own_perm _ _ _ HP) in HO as [H1 H2]. apply NoDup_cons in H1 as [H0 H1]. split; [apply H2; by left|]. split; [done|].
  split; [done|]. intros x. destruct (decide (x = a)) as [->|Hne].
  - rewrite lookup_delete. split; [done|]. by intros [? ?].
  - rewrite lookup_delete_ne by done. rewrite <- H2, elem_of_cons. split; [auto|]. by intros [?|?].
Qed.
Lemma leaf_ok_sub K B S V V' g L : (forall e, e ∈ es L -> (s_kx e < LAYER_KEYLENX)%N -> V' !! s_ptr e = V !! s_ptr e) -> leaf_ok K B S V g L -> leaf_ok K B S V' g L.
Proof.
  intros H HL. split; try apply HL. intros e He. destruct (lk_ent _ _ _ _ _ _ HL e He) as (H0 & H1). split; [done|].
  destruct H1 as [(r & v & R1 & R2 & R3 & R4)|H1]; [left|by right]. exists r, v. rewrite H by (done || by eapply rest_lt). done.
Qed.
Lemma slot_ref A p g md rt pa L e : A !! p = Some (LF g md rt pa L) -> e ∈ lb_sl L -> s_ptr e <> 0%N -> (s_kx e < LAYER_KEYLENX)%N -> s_ptr e ∈ vrefs A.
Proof.
  intros Hp He Hz Hk. apply big_elem. exists p, (LF g md rt pa L). split; [done|]. cbn.
  unfold nrefs. cbn. apply elem_of_list_In, in_concat. exists (srefs e). split; [by apply in_map, elem_of_list_In|]. apply elem_of_list_In. unfold srefs.
  destruct (N.eqb_spec (s_ptr e) 0); [done|]. destruct (N.ltb_spec (s_kx e) LAYER_KEYLENX); [by left|lia].
Qed.
Lemma delete_lookup {X} (l : list X) j n x : l !! n = Some x -> n <> j -> exists n', delete j l !! n' = Some x /\ n' = (if Nat.ltb n j then n else n - 1).
Proof.
  intros H Hne. eexists. split; [|done]. destruct (Nat.ltb_spec n j).
  - by rewrite lookup_delete_lt.
  - rewrite lookup_delete_ge by lia. by replace (S (n - 1)) with n by lia.
Qed.

Section S.
Context (K : bytes -> N -> Prop) (B : N) (mb : mem) (sb : ast) (mu0 : gmap bytes N).
Context (HS : St mb sb) (HI : Inv K B sb 0 0) (HN : NoDead (sA sb)) (Hmu0 : forall k x, is_bytes k -> maps sb k x <-> mu0 !! k = Some x).
Context (Hcnt : sC sb = N.of_nat (size mu0)).
Context (Hor : ((exists e, entry (sA sb) MAIN e) /\ mu0 <> ∅) \/ (sA sb = sA s0 /\ mu0 = ∅)).
Local Notation WInv := (WInv K B sb mu0).
Local Notation cwp := (cwp K B sb mu0).
Local Notation places := (status -> Prop).
Local Notation good := (upd_ok K mu0).
Local Notation mstep := (fun s o a s' => map_step s o = (a, s')).

(** ** the collector *)
Lemma collect_ok w j g : WInv w -> retired (wm w) !! j = Some g -> wbk w !! j = Some [] -> exists m' s',
  reclaim1 g (mwith_retired (delete j (retired (wm w))) (wm w)) = Ok m' /\
  WInv (mk_w m' s' (wow w) (wfl w) (delete j (wbk w)) (wact w) (wmu w)) /\
  forall i, Rely i w (mk_w m' s' (wow w) (wfl w) (delete j (wbk w)) (wact w) (wmu w)).
Proof.
  intros HW Hj Hb. pose proof (wi_st _ _ _ _ _ HW) as HSt. pose proof (wi_in _ _ _ _ _ HW) as HIw.
  pose proof (lookup_lt_Some _ _ _ Hj) as Hlt. pose proof (lookup_lt_Some _ _ _ Hb) as Hltb.
  assert (Hr : exists l1 l2, retired (wm w) = l1 ++ g :: l2 /\ delete j (retired (wm w)) = l1 ++ l2).
  { exists (take j (retired (wm w))), (drop (S j) (retired (wm w))). split; [symmetry; by apply take_drop_middle|apply delete_take_drop]. }
  destruct Hr as (l1 & l2 & Er & Ed).
  assert (Hlen : length (delete j (wbk w)) = length (delete j (retired (wm w)))).
  { rewrite !length_delete by (by eexists). by rewrite (wi_bk _ _ _ _ _ HW). }
  destruct g as [h|b].
  - assert (HP : vrefs (sA (ws w)) ++ retv (retired (wm w)) ++ sfv (ws w) ≡ₚ h :: vrefs (sA (ws w)) ++ retv (l1 ++ l2) ++ sfv (ws w)).
    { rewrite Er. unfold retv. rewrite !omap_app. cbn. solve_Permutation. }
    destruct (own_del _ _ _ _ HP (st_ov _ _ HSt)) as ([v Hv] & Hnin & Hown).
    set (s' := setV (delete h (sV (ws w))) (ws w)).
    exists (mwith_vals (delete h (vals (wm w))) (mwith_retired (delete j (retired (wm w))) (wm w))), s'.
    split; [cbn; by rewrite Hv|].
    assert (HIs : Inv K B s' 0 0).
    { split; [apply HIw|]. cbn. intros p g md rt pa L Hp. pose proof (iv_l _ _ _ _ _ HIw _ _ _ _ _ _ Hp) as HL. eapply leaf_ok_sub; [|exact HL].
      intros e He Hk. apply lookup_delete_ne. intros ->. apply Hnin. apply elem_of_app. left.
      destruct (lk_ent _ _ _ _ _ _ HL e He) as [Hz _]. apply (es_elem _ _ _ _ _ _ HL) in He as (q & _ & Hq & _).
      eapply slot_ref; [exact Hp|by eapply elem_of_list_lookup_2|done|done]. }
    split.
    + split; cbn; try apply HW; [|done|done|].
      * destruct HSt. split; cbn; try done.
        { by rewrite st_vals. }
        { intros p [x Hp]. apply lookup_delete_Some in Hp as [_ Hp]. eauto. }
        { by rewrite Ed. }
        { rewrite Ed. rewrite Er in st_ob. unfold retb in *. rewrite omap_app in *. done. }
      * intros k x Hk. rewrite <- (wi_mu _ _ _ _ _ HW) by done. unfold maps. cbn. split; intros (h' & H1 & H2); exists h'; (split; [done|]).
        { by apply lookup_delete_Some in H2 as [_ ?]. }
        { destruct (reaches_val _ _ _ HIs _ _ _ _ Hk (p_main _ _) H1) as (y & Hy & _). cbn in Hy. rewrite Hy. apply lookup_delete_Some in Hy as [_ Hy]. congruence. }
    + intros i. split; cbn; try done. intros Ha h' x Hl Hx.
      assert (h' <> h /\ live i h' (mk_w (mwith_vals (delete h (vals (wm w))) (mwith_retired (delete j (retired (wm w))) (wm w))) s' (wow w) (wfl w) (delete j (wbk w)) (wact w) (wmu w))) as [Hne Hlv].
      { destruct Hl as [Hl|(n & blk & N1 & N2 & N3)].
        - split; [|by left]. intros ->. apply Hnin. rewrite elem_of_app in Hl. rewrite !elem_of_app. tauto.
        - assert (n <> j) as Hnj by (intros ->; assert (blk = []) as -> by congruence; by apply elem_of_nil in N3).
          destruct (delete_lookup _ _ _ _ N1 Hnj) as (n' & D1 & En). destruct (delete_lookup _ _ _ _ N2 Hnj) as (n'' & D2 & En').
          assert (n'' = n') as -> by congruence. split; [|right; cbn; eauto 8].
          intros ->. apply Hnin. rewrite !elem_of_app. right. left. rewrite <- Ed. unfold retv. apply elem_of_list_omap. exists (GVal h). split; [by eapply elem_of_list_lookup_2|done]. }
      split; [done|]. by rewrite lookup_delete_ne.
  - assert (HP : brefs (sA (ws w)) ++ retb (retired (wm w)) ≡ₚ b :: brefs (sA (ws w)) ++ retb (l1 ++ l2)).
    { rewrite Er. unfold retb. rewrite !omap_app. cbn. solve_Permutation. }
    destruct (own_del _ _ _ _ HP (st_ob _ _ HSt)) as ([v Hv] & Hnin & Hown).
    exists (mwith_bags (delete b (bags (wm w))) (mwith_retired (delete j (retired (wm w))) (wm w))), (ws w).
    split; [cbn; by rewrite Hv|]. split.
    + split; cbn; try apply HW; [|done].
      destruct HSt. split; cbn; try done.
      { intros p. specialize (st_heap p). destruct (heap (wm w) !! p) as [x|] eqn:Ex, (sA (ws w) !! p) as [n|] eqn:En; try done.
        eapply node_rel_bags; [|exact st_heap]. intros b' Hb'. apply lookup_delete_ne. intros ->. apply Hnin. apply elem_of_app. left. apply big_elem. eauto. }
      { intros p [x Hp]. apply lookup_delete_Some in Hp as [_ Hp]. eauto. }
      { rewrite Ed. rewrite Er in st_ov. unfold retv in *. rewrite omap_app in *. done. }
      { by rewrite Ed. }
    + intros i. split; cbn; try done. intros Ha h' x Hl Hx. split; [|done].
      destruct Hl as [Hl|(n & blk & N1 & N2 & N3)]; [by left|].
      assert (n <> j) as Hnj by (intros ->; congruence).
      destruct (delete_lookup _ _ _ _ N1 Hnj) as (n' & D1 & En). destruct (delete_lookup _ _ _ _ N2 Hnj) as (n'' & D2 & En').
      assert (n'' = n') as -> by congruence. right. cbn. eauto 8.
Qed.

(** ** the invariant of the system *)
Lemma cwp_rely i (p : P ans) w w' (O : places) : Rely i w w' -> cwp i p w O (fin i) -> cwp i p w' O (fin i).
Proof.
  intros HR. destruct p as [a|e|R f k]; cbn.
  - intros (A1 & A2 & A3). split; [done|]. split; [by eapply mineO_rely|by eapply mineH_rely].
  - intros [H1 H2]. split; [done|by eapply bare_rely].
  - intros H w1 HR1 HI1. apply (H w1); [by eapply rely_trans|done].
Qed.
Definition thread_ok (w : world) (i : nat) (t : tstate) (ops : list op) (O : places) : Prop :=
  Forall good ops /\ (exists s, O s) /\
  match t with
  | TIdle => mineO i w None /\ mineH i w None /\ forall s, O s -> s = Idle
  | TRun p => cwp i p w O (fin i)
  end.
Record SInv (c : csys) (h : list event) (w : world) (Os : nat -> places) : Prop := {
  si_mem : wm w = c_mem c; si_blk : wbk w = c_blk c; si_act : wact w = holders (c_thr c); si_flt : c_fault c = false; si_inv : WInv w;
  si_thr : forall i t ops, c_thr c !! i = Some (t, ops) -> thread_ok w i t ops (Os i);
  si_out : forall i, length (c_thr c) <= i -> mineO i w None /\ mineH i w None;
  si_tr : forall st, length st = length (c_thr c) -> (forall j s, st !! j = Some s -> Os j s) ->
    exists acts, atomic mstep mu0 (length (c_thr c)) acts (wmu w) st /\ visible acts = h }.
Lemma thread_rely w w' i t ops (O : places) : Rely i w w' -> thread_ok w i t ops O -> thread_ok w' i t ops O.
Proof.
  intros HR (A & B' & C). split; [done|]. split; [done|]. destruct t as [|p].
  - destruct C as (C1 & C2 & C3). split; [by eapply mineO_rely|]. split; [by eapply mineH_rely|done].
  - by eapply cwp_rely.
Qed.
Lemma visible_app a b : visible (a ++ b) = visible a ++ visible b.
Proof. apply omap_app. Qed.
Definition upd (Os : nat -> places) (i : nat) (O : places) : nat -> places :=
  fun j => if Nat.eqb j i then O else Os j.
Lemma upd_same Os i O : upd Os i O i = O.
Proof. unfold upd. by rewrite Nat.eqb_refl. Qed.
Lemma upd_ne Os i O j : j <> i -> upd Os i O j = Os j.
Proof. intros H. unfold upd. by apply Nat.eqb_neq in H as ->. Qed.
Lemma holders_elem thr i : i ∈ holders thr <-> exists p ops, thr !! i = Some (TRun p, ops).
Proof.
  unfold holders. rewrite elem_of_list_In, filter_In, in_seq. split.
  - intros [_ H]. destruct (thr !! i) as [[[|p] ops]|]; try done. eauto.
  - intros (p & ops & H). rewrite H. split; [|done]. apply lookup_lt_Some in H. lia.
Qed.

Lemma sinv_step c h w Os i t ops t' ops' w' (O' : places) h' c' :
  SInv c h w Os -> c_thr c !! i = Some (t, ops) ->
  c_mem c' = wm w' -> c_thr c' = <[i := (t', ops')]> (c_thr c) -> c_blk c' = wbk w' -> c_fault c' = c_fault c -> wact w' = holders (c_thr c') ->
  WInv w' -> Guar i w w' -> thread_ok w' i t' ops' O' ->
  (forall s', O' s' -> exists s, Os i s /\ forall acts st, atomic mstep mu0 (length (c_thr c)) acts (wmu w) (<[i := s]> st) ->
      i < length st ->
      exists acts', atomic mstep mu0 (length (c_thr c)) (acts ++ acts') (wmu w') (<[i := s']> st) /\ visible acts' = h') ->
  SInv c' (h ++ h') w' (upd Os i O').
Proof.
  intros [S1 S2 S3 S4 S5 S6 S8 S7] Hc E1 E2 E3 E4 E5 HI' HG Ht Htr. pose proof (lookup_lt_Some _ _ _ Hc) as Hi. split; try done; [congruence|..].
  - rewrite E2. intros j t1 ops1 Hj. destruct (decide (j = i)) as [->|Hne].
    + rewrite list_lookup_insert in Hj by done. injection Hj as <- <-. by rewrite upd_same.
    + rewrite list_lookup_insert_ne in Hj by done. rewrite upd_ne by done. eapply thread_rely; [by apply HG|]. by apply S6.
  - rewrite E2, insert_length. intros j Hj. destruct (S8 j Hj) as [H1 H2]. assert (Hne : j <> i) by lia. split; [by eapply mineO_rely; [apply HG|]|by eapply mineH_rely; [apply HG|]].
  - rewrite E2, insert_length. intros st Hlen Hst.
    destruct (lookup_lt_is_Some_2 st i) as [s' Hs']; [lia|].
    pose proof (Hst i s' Hs') as HO'. rewrite upd_same in HO'. destruct (Htr s' HO') as (s & Hs & Hex).
    destruct (S7 (<[i := s]> st)) as (acts & Ha & Hv).
    + by rewrite insert_length.
    + intros j s1 Hj. destruct (decide (j = i)) as [->|Hne].
      * rewrite list_lookup_insert in Hj by lia. by injection Hj as <-.
      * rewrite list_lookup_insert_ne in Hj by done. specialize (Hst j s1 Hj). by rewrite upd_ne in Hst.
    + destruct (Hex acts st Ha) as (acts' & Ha' & Hv'); [lia|]. exists (acts ++ acts').
      rewrite list_insert_id in Ha' by done. split; [done|]. by rewrite visible_app, Hv, Hv'.
Qed.
Lemma sinv_same c c' h w Os : SInv c h w Os -> c_mem c' = c_mem c -> c_thr c' = c_thr c -> c_blk c' = c_blk c -> c_fault c' = c_fault c -> SInv c' h w Os.
Proof. intros [S1 S2 S3 S4 S5 S6 S8 S7] E1 E2 E3 E4. split; try congruence; rewrite ?E2; done. Qed.

Lemma c_step_ok F a c h w Os : SInv c h w Os -> exists w' Os',
  SInv (c_step F a c).1 (h ++ map snd (c_step F a c).2) w' Os' /\ length (c_thr (c_step F a c).1) = length (c_thr c).
Proof.
  intros HSI. pose proof (si_mem _ _ _ _ HSI) as Hm. pose proof (si_blk _ _ _ _ HSI) as Hbk. pose proof (si_act _ _ _ _ HSI) as Hac.
  pose proof (si_inv _ _ _ _ HSI) as HW. pose proof (wi_bk _ _ _ _ _ HW) as Hlb.
  destruct a as [i|j]; cbn [c_step].
  - assert (Hnop : replicate (length (retired (c_mem c)) - length (c_blk c)) (holders (c_thr c)) ++ c_blk c = c_blk c).
    { rewrite <- Hbk, <- Hm, Hlb, Nat.sub_diag. done. }
    unfold sys_step. cbn [fst snd]. destruct (c_thr c !! i) as [[t ops]|] eqn:Hc.
    2: { exists w, Os. cbn [fst snd map c_thr]. rewrite app_nil_r, Hnop. split; [|done]. by eapply sinv_same. }
    pose proof (si_thr _ _ _ _ HSI i t ops Hc) as (T1 & [st0 T2] & T3).
    destruct t as [|[a|e|R f k]].
    + destruct ops as [|o ops]; [exists w, Os; cbn [fst snd map c_thr]; rewrite app_nil_r, Hnop; split; [by eapply sinv_same|done]|].
      destruct T3 as (T3 & T4 & T5). apply Forall_cons in T1 as [Hg T1]. cbn [fst snd map c_thr]. rewrite insert_length, Hnop.
      set (w' := mk_w (wm w) (ws w) (wow w) (wfl w) (wbk w) (holders (<[i := (TRun (call insert F o), ops)]> (c_thr c))) (wmu w)).
      assert (HW' : WInv w') by (destruct HW; by split).
      exists w', (upd Os i (eq (Pending o))). split; [|done].
      eapply sinv_step; [exact HSI|exact Hc|done|done|done|done|done|done| | |].
      * intros j Hj. split; cbn; try done. rewrite Hac, !holders_elem, list_lookup_insert_ne by done. done.
      * split; [done|]. split; [by eexists|]. by eapply (c_call K B mb sb mu0).
      * intros s' <-. exists Idle. split; [by rewrite <- (T5 _ T2)|]. intros acts st Ha Hlt.
        exists [Ev (ECall i o)]. split; [|done]. rewrite <- (list_insert_insert st i (Pending o) Idle).
        apply at_call; [done|]. by apply list_lookup_insert.
    + destruct T3 as (T5 & T3 & T4). cbn [fst snd map c_thr]. rewrite insert_length, Hnop.
      set (w' := mk_w (wm w) (ws w) (wow w) (wfl w) (map (without i) (wbk w)) (holders (<[i := (TIdle, ops)]> (c_thr c))) (wmu w)).
      assert (HW' : WInv w') by (destruct HW; split; try done; cbn; by rewrite map_length).
      exists w', (upd Os i (eq Idle)). split; [|done].
      eapply sinv_step; [exact HSI|exact Hc|done|done|cbn; by rewrite Hbk|done|done|done| | |].
      * intros j Hj. split; cbn; try done.
        { rewrite Hac, !holders_elem, list_lookup_insert_ne by done. done. }
        { intros _ h' v' Hl Hv'. split; [|done]. destruct Hl as [Hl|(n & blk & N1 & N2 & N3)]; [by left|right]. exists n, (without i blk). cbn.
          rewrite list_lookup_fmap, N2. split; [done|]. split; [done|]. unfold without. apply elem_of_list_In, filter_In. split; [by apply elem_of_list_In|].
          apply Nat.eqb_neq in Hj. by rewrite Hj. }
      * split; [done|]. split; [by eexists|]. split; [exact T3|]. split; [exact T4|done].
      * intros s' <-. exists (Done a). split; [done|]. intros acts st Ha Hlt.
        exists [Ev (ERet i a)]. split; [|done]. rewrite <- (list_insert_insert st i Idle (Done a)).
        apply at_return; [done|]. by apply list_lookup_insert.
    + exists w, Os. cbn [fst snd map c_thr]. rewrite app_nil_r, Hnop. split; [|done]. by eapply sinv_same.
    + cbn in T3. destruct (T3 w (rely_refl i w) HW) as (r & w2 & Hf & HI2 & HG & [St1 St2] & Hex & Hk).
      { rewrite Hac, holders_elem. eauto. }
      rewrite <- Hm, Hf. cbn [fst snd map c_thr]. rewrite insert_length.
      exists w2, (upd Os i (after (Os i) (wmu w) (wmu w2))). split; [|done].
      eapply sinv_step; [exact HSI|exact Hc|done|done| |done| |done|done| |].
      * cbn. by rewrite St2, Hbk, Hac.
      * cbn [c_thr]. rewrite St1, Hac. unfold holders. rewrite insert_length. apply filter_ext_in. intros j Hj%in_seq.
        destruct (decide (j = i)) as [->|]; [|by rewrite list_lookup_insert_ne]. rewrite Hc, list_lookup_insert; [done|]. by eapply lookup_lt_Some.
      * split; [done|]. split; [done|]. done.
      * intros s' [[Hs' Hmu]|(o & a & Ho & Hst & ->)].
        { exists s'. split; [done|]. intros acts st Ha Hlt. exists []. split; [|done]. by rewrite app_nil_r, Hmu. }
        { exists (Pending o). split; [done|]. intros acts st Ha Hlt. exists [TakeEffect i]. split; [|done].
          rewrite <- (list_insert_insert st i (Done a) (Pending o)).
          eapply at_effect; [done| |exact Hst]. by apply list_lookup_insert. }
  - assert (Hno : exists w' Os', SInv (mk_csys (c_mem c) (c_thr c) (c_blk c) (c_fault c) (c_time c + 1)) (h ++ []) w' Os').
    { exists w, Os. rewrite app_nil_r. by eapply sinv_same. }
    destruct (retired (c_mem c) !! j) as [g|] eqn:Ej; [|destruct Hno as (w' & Os' & Hno); by exists w', Os'].
    destruct (c_blk c !! j) as [[|]|] eqn:Eb; [|destruct Hno as (w' & Os' & Hno); by exists w', Os'..].
    rewrite <- Hm in Ej. rewrite <- Hbk in Eb. destruct (collect_ok w j g HW Ej Eb) as (m' & s' & H1 & H2 & H3). rewrite <- Hm, H1.
    exists (mk_w m' s' (wow w) (wfl w) (delete j (wbk w)) (wact w) (wmu w)), Os. cbn [fst snd map c_thr]. rewrite app_nil_r. split; [|done].
    destruct HSI as [S1 S2 S3 S4 S5 S6 S8 S7]. split; try done; [cbn; by rewrite S2|].
    intros i t ops Hi. eapply thread_rely; [apply H3|]. by apply S6.
Qed.
Lemma c_run_ok F acts : forall c h w Os, SInv c h w Os -> exists w' Os',
  SInv (c_run F acts c).1 (h ++ map snd (c_run F acts c).2) w' Os' /\ length (c_thr (c_run F acts c).1) = length (c_thr c).
Proof.
  induction acts as [|a acts IH]; intros c h w Os HSI; cbn [c_run].
  - exists w, Os. cbn. by rewrite app_nil_r.
  - destruct (c_step_ok F a c h w Os HSI) as (w1 & Os1 & HS1 & HL1).
    destruct (c_step F a c) as [c1 h1]. cbn [fst snd] in *.
    destruct (IH c1 _ w1 Os1 HS1) as (w2 & Os2 & HS2 & HL2).
    destruct (c_run F acts c1) as [c2 h2]. cbn [fst snd] in *. exists w2, Os2.
    rewrite map_app, app_assoc. split; [done|congruence].
Qed.
Lemma pick (n : nat) (Os : nat -> places) : (forall j, j < n -> exists s, Os j s) ->
  exists st, length st = n /\ forall j s, st !! j = Some s -> Os j s.
Proof.
  induction n as [|n IH]; intros H; [by exists []|].
  destruct IH as (st & Hl & Hs); [intros; apply H; lia|]. destruct (H n) as [s Hn]; [lia|].
  exists (st ++ [s]). split; [rewrite app_length; cbn; lia|]. intros j s' Hj.
  apply lookup_app_Some in Hj as [Hj|[Hge Hj]]; [by apply Hs|].
  destruct (j - length st) eqn:E; [|done]. injection Hj as <-. by replace j with n by lia.
Qed.

Context (Hfree : free_but [] (sA sb)) (Hfv : sfv sb = []) (Hfn : sfn sb = []).
Definition w_start (m : mem) : world := mk_w mb sb ∅ [] (replicate (length (retired mb)) []) [] mu0.
Lemma sinv_start scripts : Forall (Forall good) scripts ->
  SInv (c_start_at mb scripts) [] (w_start mb) (fun _ => eq Idle).
Proof.
  intros Hg. split; try done.
  - cbn. unfold holders. symmetry. destruct (List.filter _ _) as [|j l] eqn:E; [done|exfalso].
    assert (In j (j :: l)) as Hin by (by left). rewrite <- E in Hin. apply filter_In in Hin as [_ Hin].
    rewrite list_lookup_fmap in Hin. by destruct (scripts !! j).
  - split; cbn; try done; [apply same_refl| |by rewrite replicate_length].
    intros p n Hp. rewrite lookup_empty. eapply Hfree; [exact Hp|]. apply not_elem_of_nil.
  - cbn. intros i t ops Hi. apply list_lookup_fmap_Some in Hi as (ops' & Hi & [= -> ->]).
    split; [by eapply Forall_lookup_1|]. split; [by eexists|]. split; [|split; [|done]].
    + intros q. cbn. rewrite lookup_empty. done.
    + intros x. cbn. split; [intros Hx; by apply elem_of_nil in Hx|done].
  - cbn. intros i _. split; [intros q; cbn; by rewrite lookup_empty|]. intros x. cbn. split; [intros Hx; by apply elem_of_nil in Hx|done].
  - cbn. intros st Hlen Hst. exists []. split; [|done].
    assert (st = replicate (length st) Idle) as ->.
    { symmetry. apply replicate_as_elem_of. split; [done|]. intros x [j Hj]%elem_of_list_lookup_1. by rewrite (Hst j x Hj). }
    rewrite Hlen. constructor.
Qed.
Lemma upd_sys F scripts acts c h : Forall (Forall good) scripts -> c_run F acts (c_start_at mb scripts) = (c, h) ->
  (exists mu, atomically mstep mu0 (length scripts) h mu /\
     (c_settled c -> exists s, sC s = sC sb /\ St (c_mem c) s /\ Inv K B s 0 0 /\ free_but [] (sA s) /\ sfv s = [] /\ sfn s = [] /\
       (((exists e, entry (sA s) MAIN e) /\ mu <> ∅) \/ (sA s = sA s0 /\ mu = ∅)) /\ NoDead (sA s) /\
       (forall k w, is_bytes k -> maps s k w <-> mu !! k = Some w) /\ sC s = N.of_nat (size mu))) /\
  (forall i e, c_failed c i e -> e = Fuel) /\ c_fault c = false.
Proof.
  intros Hg Hrun. destruct (c_run_ok F acts _ _ _ _ (sinv_start scripts Hg)) as (w & Os & HSI & HL).
  rewrite Hrun in HSI, HL. cbn [fst snd app] in *. cbn in HL. rewrite fmap_length in HL. split; [|split].
  - exists (wmu w). destruct (pick (length (c_thr c)) Os) as (st & Hl & Hst).
    { intros j Hj. destruct (lookup_lt_is_Some_2 (c_thr c) j Hj) as [[t ops] Hc]. by apply (si_thr _ _ _ _ HSI) in Hc as (_ & ? & _). }
    destruct (si_tr _ _ _ _ HSI st Hl Hst) as (ac & Ha & Hv). rewrite HL in Ha. split; [by exists ac, st|].
    intros Hq. pose proof (si_inv _ _ _ _ HSI) as HW.
    assert (Hm : forall i, mineO i w None /\ mineH i w None).
    { intros i. destruct (c_thr c !! i) as [[t ops]|] eqn:Ei; [|by apply (si_out _ _ _ _ HSI), lookup_ge_None_1].
      destruct t as [|p]; [by apply (si_thr _ _ _ _ HSI) in Ei as (_ & _ & H1 & H2 & _)|].
      rewrite (Hq i p ops Ei) in Ei. apply (si_thr _ _ _ _ HSI) in Ei as (_ & _ & _ & H1 & H2).
      split; [intros q; split; [intros Hx; by apply H1 in Hx|done]|intros x; split; [intros Hx; by apply H2 in Hx|done]]. }
    assert (Hfr : free_but [] (sA (ws w))).
    { intros p n Hp _. rewrite (wi_md _ _ _ _ _ HW p n Hp). destruct (wow w !! p) as [i|] eqn:Ei; [|done]. destruct (Hm i) as [H1 _]. by apply H1 in Ei. }
    exists (ws w). split; [apply HW|]. split; [rewrite <- (si_mem _ _ _ _ HSI); apply HW|]. split; [apply HW|]. split; [done|].
    split; [|split; [apply HW|split; [|split; [|split]]]].
    + rewrite (wi_fl _ _ _ _ _ HW). destruct (wfl w) as [|[i x] fl] eqn:Ef; [done|exfalso]. destruct (Hm i) as [_ H2].
      assert (None = Some x) as ?; [|done]. apply H2. rewrite Ef. by left.
    + destruct Hor as [[[e He] Hne]|[Ea Ee]]; [left|right].
      * split; [destruct (same_entry _ _ _ _ (wi_same _ _ _ _ _ HW) He) as (e' & He' & _); eauto|]. by rewrite (same_empty _ _ (wi_dom _ _ _ _ _ HW)).
      * split; [|by rewrite (same_empty _ _ (wi_dom _ _ _ _ _ HW))].
        pose proof (wi_same _ _ _ _ _ HW) as Hs. rewrite Ea in Hs. apply map_eq. intros p. specialize (Hs p).
        destruct (decide (p = 2%N)) as [->|Hne]; [|cbn in *; rewrite lookup_singleton_ne in * by done; by destruct (sA (ws w) !! p)].
        cbn in Hs |- *. rewrite lookup_singleton in Hs |- *. destruct (sA (ws w) !! 2%N) as [[g md rt pa [L'|]]|] eqn:E2; try done; destruct Hs as (E4 & E5 & E6 & E7); cbn in *; try done.
        subst g rt pa. f_equal. pose proof (Hfr _ _ E2 (not_elem_of_nil _)) as Emd. cbn in Emd. subst md. f_equal. f_equal.
        pose proof (iv_l _ _ _ _ _ (wi_in _ _ _ _ _ HW) _ _ _ _ _ _ E2) as HL'.
        destruct E7 as [G1 G2 G3 G4 G5 G6]. destruct L' as [pm sl bg bud nx pv]. cbn in *. subst. unfold L0 at 1. f_equal.
        change (Forall2 sslot (repeat slot0 24) sl) in G2. apply list_eq. intros i. destruct (sl !! i) as [y|] eqn:Ey.
        { destruct (Forall2_lookup_r _ _ _ _ _ G2 Ey) as (x & Ex & F1 & F2 & F3 & _). rewrite Ex. f_equal.
          destruct (lk_free _ _ _ _ _ _ HL' i y Ey) as [P1 _]; [by apply not_elem_of_nil|].
          apply elem_of_list_lookup_2, elem_of_list_In, repeat_spec in Ex. subst x. destruct y as [y1 y2 y3 y4]. cbn in *. unfold slot0. subst. done. }
        { symmetry. apply lookup_ge_None_2. apply Forall2_length in G2. rewrite G2. by apply lookup_ge_None_1. }
    + eapply same_dead; [apply HW|done].
    + apply HW.
    + rewrite (wi_C _ _ _ _ _ HW), Hcnt. by rewrite (same_size _ _ (wi_dom _ _ _ _ _ HW)).
  - intros i e [ops Hc]. by apply (si_thr _ _ _ _ HSI) in Hc as (_ & _ & ? & _).
  - apply HSI.
Qed.
End S.

Lemma inserts_elem ops k v : (k, v) ∈ inserts ops <-> Insert k v ∈ ops.
Proof.
  unfold inserts. rewrite elem_of_list_omap. split.
  - intros (o & Ho & E). destruct o; try done. by injection E as -> ->.
  - intros H. by exists (Insert k v).
Qed.
Lemma map_run_keeps ops : forall mu k, is_Some (mu !! k) -> is_Some ((map_run mu ops).2 !! k).
Proof.
  induction ops as [|o ops IH]; intros mu k Hk; cbn [map_run]; [done|].
  destruct (map_step mu o) as [a mu1] eqn:E. specialize (IH mu1 k). destruct (map_run mu1 ops). cbn [snd] in *. apply IH.
  destruct o as [k0 v| | | |]; injection E as <- <-; try done. destruct (decide (k0 = k)) as [->|]; [by rewrite lookup_insert|by rewrite lookup_insert_ne].
Qed.
Lemma map_run_has ops : forall mu k v, (k, v) ∈ inserts ops -> is_Some ((map_run mu ops).2 !! k).
Proof.
  induction ops as [|o ops IH]; intros mu k v Hk; [by apply elem_of_nil in Hk|]. apply inserts_elem in Hk.
  pose proof (map_run_keeps (o :: ops)) as Hkeep. cbn [map_run]. destruct (map_step mu o) as [a mu1] eqn:E. apply elem_of_cons in Hk as [<-|Hk].
  - pose proof (map_run_keeps ops mu1 k) as Hk. destruct (map_run mu1 ops). cbn [snd] in *. apply Hk. injection E as <- <-. by rewrite lookup_insert.
  - specialize (IH mu1 k v). destruct (map_run mu1 ops). cbn [snd] in *. apply IH. by apply inserts_elem.
Qed.

Lemma costs_app a b : costs (a ++ b) = (costs a + costs b)%N.
Proof. induction a as [|o a IH]; cbn; [done|]. fold (costs (a ++ b)) (costs a). rewrite IH. lia. Qed.

Lemma free_unlocked m s : St m s -> free_but [] (sA s) -> forall p, ~ node_locked m p.
Proof.
  intros HS Hf p Hl. unfold node_locked in Hl. pose proof (st_heap _ _ HS p) as Hh. destruct (heap m !! p) as [x|] eqn:Ex; [|done].
  destruct (sA s !! p) as [n|] eqn:En; [|done]. destruct (St_ver _ _ _ _ HS En) as (w & Hw & Hb & _). rewrite (Hf _ _ En (not_elem_of_nil _)) in Hb.
  apply vbits_lockedf in Hb. unfold rd_ver in Hw. rewrite Ex in Hw. destruct x; injection Hw as <-; congruence.
Qed.

(** ** every call comes to an end *)
Definition returns (h : list (N * event)) : Prop := Forall (fun e => exists i a, e.2 = ERet i a) h.
Lemma c_run_app F acts acts' : forall c, c_run F (acts ++ acts') c =
  let '(c1, h1) := c_run F acts c in let '(c2, h2) := c_run F acts' c1 in (c2, h1 ++ h2).
Proof.
  induction acts as [|a acts IH]; intros c; cbn [app c_run]; [by destruct (c_run F acts' c)|].
  destruct (c_step F a c) as [c1 h1]. rewrite IH. destruct (c_run F acts c1) as [c2 h2]. destruct (c_run F acts' c2) as [c3 h3]. by rewrite app_assoc.
Qed.
Lemma solo F i : forall (p : P ans) c ops, c_thr c !! i = Some (TRun p, ops) -> exists n c' h' t', c_run F (repeat (Thread i) n) c = (c', h') /\ returns h' /\
  c_thr c' = <[i := (t', ops)]> (c_thr c) /\ (t' = TIdle \/ exists e, t' = TRun (Fail e)).
Proof.
  induction p as [a|e|R f k IH]; intros c ops Hc.
  - eexists 1, _, _, TIdle. split; [cbn; unfold sys_step; cbn; by rewrite Hc|]. cbn. split; [|split; [done|by left]]. repeat constructor. by exists i, a.
  - eexists 0, _, _, _. split; [done|]. split; [constructor|]. rewrite list_insert_id by done. split; [done|]. right. by eexists.
  - destruct (f (c_mem c)) as [[r m']|e] eqn:Ef.
    + set (c1 := (c_step F (Thread i) c).1).
      assert (E1 : c_thr c1 = <[i := (TRun (k r), ops)]> (c_thr c) /\ (c_step F (Thread i) c).2 = []).
      { unfold c1. cbn. unfold sys_step. cbn. rewrite Hc, Ef. done. }
      destruct E1 as [E1 E2]. destruct (IH r c1 ops) as (n & c' & h' & t' & H1 & H2 & H3 & H4).
      { rewrite E1. apply list_lookup_insert. by eapply lookup_lt_Some. }
      exists (S n), c', h', t'. split; [cbn [repeat c_run]; rewrite (surjective_pairing (c_step F (Thread i) c)), E2; fold c1; by rewrite H1|].
      split; [done|]. rewrite H3, E1, list_insert_insert. done.
    + eexists 1, _, _, (TRun (Fail e)). split; [cbn; unfold sys_step; cbn; by rewrite Hc, Ef|]. cbn. split; [constructor|]. split; [done|]. right. by exists e.
Qed.
Lemma settle F k : forall c, exists turns c' h', c_run F (map Thread turns) c = (c', h') /\ returns h' /\ length (c_thr c') = length (c_thr c) /\
  forall j p ops, j < k -> c_thr c' !! j = Some (TRun p, ops) -> exists e, p = Fail e.
Proof.
  induction k as [|k IH]; intros c.
  { exists [], c, []. split; [done|]. split; [constructor|]. split; [done|]. intros; lia. }
  destruct (IH c) as (tu & c1 & h1 & E1 & R1 & Hle & H1).
  destruct (c_thr c1 !! k) as [[[|p] ops]|] eqn:Ek.
  2: { destruct (solo F k p c1 ops Ek) as (n & c' & h' & t' & E2 & R2 & Hth & Ht).
    exists (tu ++ repeat k n), c', (h1 ++ h'). split; [|split; [by apply Forall_app|split; [by rewrite Hth, insert_length|]]].
    - rewrite map_app, c_run_app, E1. replace (map Thread (repeat k n)) with (repeat (Thread k) n) by (clear; induction n; cbn; congruence). by rewrite E2.
    - rewrite Hth. intros j p' ops' Hj Hl. destruct (decide (j = k)) as [->|Hne].
      + rewrite list_lookup_insert in Hl by (by eapply lookup_lt_Some). injection Hl as -> _. destruct Ht as [?|[e [= ->]]]; [done|by exists e].
      + rewrite list_lookup_insert_ne in Hl by done. eapply H1; [|exact Hl]. lia. }
  all: exists tu, c1, h1; split; [done|]; split; [done|]; split; [done|]; intros j p' ops' Hj Hl; destruct (decide (j = k)) as [->|Hne]; [congruence|eapply H1; [|exact Hl]; lia].
Qed.

Theorem updates_linearizable F0 F before l m scripts acts c h : 300 <= F0 -> history_ok before -> unambiguous before ->
  run_calls insert F0 before tree_new = Ok (l, m) -> Forall (Forall op_ok) scripts -> only_updates before scripts ->
  c_run F acts (c_start_at m scripts) = (c, h) ->
  (exists mu, atomically (fun s o a s' => map_step s o = (a, s')) (map_run ∅ before).2 (length scripts) h mu /\
     (c_settled c -> forall ops, history_ok (before ++ ops) -> unambiguous (before ++ ops) ->
        exists m', run_calls insert F0 ops (c_mem c) = Ok ((map_run mu ops).1, m')) /\
     (c_settled c -> forall p, ~ node_locked (c_mem c) p)) /\
  (forall i e, c_failed c i e -> e = Fuel) /\ c_fault c = false.
Proof.
  intros HF [Hok HB] Hun Hrun Hops Hupd Hcr. rewrite key_bytes_costs in HB.
  set (K := Kof (before ++ concat scripts)).
  destruct (run_ok false K F0 before HF 6144 tree_new ∅ 0) as (l' & m' & E & R & _ & _).
  - done.
  - apply Kof_mono. intros x Hx. unfold inserts in *. rewrite omap_app. apply elem_of_app. by left.
  - unfold U32_MAX. lia.
  - apply rel_new.
  - change (insert_gen false) with insert in E. rewrite Hrun in E. injection E as <- <-.
    destruct R as (_ & s & Hc & HS & HI & Hfree & Hfv & Hfn & Hor & Hex).
    assert (Hsf : split_fine false K).
    { right. intros k1 k2 v1 v2 H1 H2 Hcl. apply clash_amb in Hcl.
      assert (Hk : forall k v, K k v -> exists v', (k, v') ∈ inserts before).
      { intros k v Hk. unfold K, Kof in Hk. unfold inserts in Hk. rewrite omap_app, elem_of_app in Hk. destruct Hk as [Hk|Hk]; [by exists v|]. by apply (Hupd k v). }
      destruct (Hk _ _ H1) as [v1' H1']. destruct (Hk _ _ H2) as [v2' H2']. exact (Hun k1 k2 v1' v2' H1' H2' Hcl). }
    destruct (Hex Hsf) as (HN & Hmaps & Hcnt).
    destruct (upd_sys K _ m s _ HS HI HN Hmaps Hcnt Hor Hfree Hfv Hfn F scripts acts c h) as ((mu & Hat & Hqt) & Hrest); [|done|].
    2: { split; [|done]. exists mu. split; [done|]. split.
      2: { intros Hq. destruct (Hqt Hq) as (s' & _ & HS' & _ & Hfree' & _). by eapply free_unlocked. }
      intros Hq ops [Hok' HB'] Hun'. rewrite key_bytes_costs in HB'.
      destruct (Hqt Hq) as (s' & Hc' & HS' & HI' & Hfree' & Hfv' & Hfn' & Hor' & HN' & Hmaps' & Hcnt').
      set (K' := Kof (before ++ concat scripts ++ ops)).
      assert (HKK : forall k v, K k v -> K' k v).
      { intros k v. unfold K, K', Kof, inserts. rewrite !omap_app, !elem_of_app. tauto. }
      assert (Hsf' : split_fine false K').
      { right. intros k1 k2 v1 v2 H1 H2 Hcl. apply clash_amb in Hcl.
        assert (Hk : forall k v, K' k v -> exists v', (k, v') ∈ inserts (before ++ ops)).
        { intros k v Hk. unfold K', Kof, inserts in Hk. rewrite !omap_app, !elem_of_app in Hk. unfold inserts. rewrite omap_app.
          destruct Hk as [Hk|[Hk|Hk]]; [exists v; apply elem_of_app; by left| |exists v; apply elem_of_app; by right].
          destruct (Hupd k v Hk) as [v' Hv']. exists v'. apply elem_of_app. by left. }
        destruct (Hk _ _ H1) as [v1' H1']. destruct (Hk _ _ H2) as [v2' H2']. exact (Hun' k1 k2 v1' v2' H1' H2' Hcl). }
      destruct (run_ok false K' F0 ops HF (6144 + costs before) (c_mem c) mu (sC s')) as (l2 & m2 & E2 & _ & _ & El).
      - apply Forall_app in Hok' as [_ ?]. done.
      - apply Kof_mono. intros x Hx. unfold inserts in *. rewrite !omap_app, !elem_of_app. tauto.
      - rewrite costs_app in HB'. unfold U32_MAX. lia.
      - split; [lia|]. exists s'. split; [done|]. split; [done|]. split.
        { split; [apply HI'|]. intros p g md rt pa L Hp. eapply leaf_ok_mono; [exact HKK| |done|apply N.le_refl| |by eapply (iv_l _ _ _ _ _ HI')].
          - intros x n Hx. eauto.
          - intros qn _ Q1 Q2. eauto. }
        do 4 (split; [done|]). done.
      - exists m2. rewrite (El Hsf') in E2. done. }
    rewrite Forall_forall in Hops |- *. intros ops Hin. specialize (Hops ops Hin). rewrite Forall_forall in Hops |- *. intros o Ho. split; [by apply Hops|].
    destruct o as [k v| | | |]; try done.
    assert (Hkv : (k, v) ∈ inserts (concat scripts)).
    { apply inserts_elem, elem_of_list_In, in_concat. exists ops. by rewrite <- !elem_of_list_In. }
    split.
    + unfold K, Kof. unfold inserts. rewrite omap_app. apply elem_of_app. by right.
    + destruct (Hupd k v Hkv) as [v' Hv']. by eapply map_run_has.
Qed.

Theorem updates_settle F0 F before l m scripts acts c h : 300 <= F0 -> history_ok before -> unambiguous before ->
  run_calls insert F0 before tree_new = Ok (l, m) -> Forall (Forall op_ok) scripts -> only_updates before scripts ->
  c_run F acts (c_start_at m scripts) = (c, h) ->
  exists turns c' h', c_run F (map Thread turns) c = (c', h') /\ Forall (fun e => exists i a, e.2 = ERet i a) h' /\ c_settled c' /\
    (forall p, ~ node_locked (c_mem c') p) /\
    exists mu, atomically (fun s o a s' => map_step s o = (a, s')) (map_run ∅ before).2 (length scripts) (h ++ h') mu /\
      forall ops, history_ok (before ++ ops) -> unambiguous (before ++ ops) ->
        exists m', run_calls insert F0 ops (c_mem c') = Ok ((map_run mu ops).1, m').
Proof.
  intros HF Hh Hun Hrun Hok Hup Hcr. destruct (settle F (length (c_thr c)) c) as (tu & c' & h' & E & Hret & Hle & Hs).
  assert (Hcr' : c_run F (acts ++ map Thread tu) (c_start_at m scripts) = (c', h ++ h')) by (by rewrite c_run_app, Hcr, E).
  destruct (updates_linearizable F0 F before l m scripts _ _ _ HF Hh Hun Hrun Hok Hup Hcr') as ((mu & H1 & H2 & H3) & H4 & _).
  assert (Hst : c_settled c').
  { intros i p ops Hi. destruct (Hs i p ops) as [e ->]; [|done|f_equal; apply (H4 i); by exists ops].
    rewrite <- Hle. by eapply lookup_lt_Some. }
  exists tu, c', h'. do 2 (split; [done|]). split; [done|]. split; [by apply H3|]. exists mu. split; [done|]. by apply H2.
Qed.

Theorem updates_quiet F0 F before l m scripts acts c h : 300 <= F0 -> history_ok before -> unambiguous before ->
  run_calls insert F0 before tree_new = Ok (l, m) -> Forall (Forall op_ok) scripts -> only_updates before scripts ->
  c_run F acts (c_start_at m scripts) = (c, h) ->
  exists mu, atomically (fun s o a s' => map_step s o = (a, s')) (map_run ∅ before).2 (length scripts) h mu /\
    (c_quiet c -> forall ops, history_ok (before ++ ops) -> unambiguous (before ++ ops) ->
       exists m', run_calls insert F0 ops (c_mem c) = Ok ((map_run mu ops).1, m')).
Proof.
  intros H1 H2 H3 H4 H5 H6 H7. destruct (updates_linearizable F0 F before l m scripts acts c h H1 H2 H3 H4 H5 H6 H7) as ((mu & A & B & _) & _).
  exists mu. split; [done|]. intros Hq. apply B. intros i p ops Hi. by specialize (Hq i _ _ Hi).
Qed.
Theorem updates_settled F0 F before l m scripts acts c h : 300 <= F0 -> history_ok before -> unambiguous before ->
  run_calls insert F0 before tree_new = Ok (l, m) -> Forall (Forall op_ok) scripts -> only_updates before scripts ->
  c_run F acts (c_start_at m scripts) = (c, h) -> c_settled c ->
  (forall p, ~ node_locked (c_mem c) p) /\
  exists mu, atomically (fun s o a s' => map_step s o = (a, s')) (map_run ∅ before).2 (length scripts) h mu /\
    forall ops, history_ok (before ++ ops) -> unambiguous (before ++ ops) ->
      exists m', run_calls insert F0 ops (c_mem c) = Ok ((map_run mu ops).1, m').
Proof.
  intros H1 H2 H3 H4 H5 H6 H7 Hs. destruct (updates_linearizable F0 F before l m scripts acts c h H1 H2 H3 H4 H5 H6 H7) as ((mu & A & B & C) & _).
  split; [by apply C|]. exists mu. split; [done|]. by apply B.
Qed.
