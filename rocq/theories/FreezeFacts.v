(** The shared permutation of a leaf behaves as the object of SpecFreeze.v. *)
From Verif Require Import Base Perm SpecPerm PermFacts PermList PermLaws Prog Version VersionFacts Mem Tree Freeze SpecFreeze.

Lemma perm_unfrozen w : is_permutation P24 w -> is_frozen w = false.
Proof.
  intros (_ & _ & H). rewrite is_frozen_get. apply Nat.eqb_neq. intros E.
  assert (31 < 24) as ?; [|lia]. change (31 < pW P24). apply H. rewrite <- E. unfold slots_of. apply elem_of_list_In, in_map_iff. exists 23. split; [done|]. apply in_seq. cbn. lia.
Qed.

(** ** worlds *)
Record fw := mk_fw { fm : mem; fown : option (nat * N); fcur : N * bool }.
Definition shown (s : N * bool) : N := if s.2 then freeze_raw s.1 else s.1.
Definition places := fstatus -> Prop.

Section S.
Context (p : N).
Record FInv (w : fw) : Prop := {
  fi_leaf : exists l, heap (fm w) !! p = Some (NLeaf l) /\ vok (l_ver l) /\ l_perm l = shown (fcur w) /\
    match fown w with None => v_can_lock (l_ver l) = true | Some (_, lv) => l_ver l = lv /\ bit lv 0 = true end;
  fi_cur : is_frozen (fcur w).1 = false;
  fi_own : (fcur w).2 = true -> fown w <> None }.
Record Rely (i : nat) (w w' : fw) : Prop := {
  fr_own : forall x, fown w = Some (i, x) <-> fown w' = Some (i, x);
  fr_flag : forall x, fown w = Some (i, x) -> (fcur w').2 = (fcur w).2;
  fr_cur : forall x, fown w = Some (i, x) -> (fcur w).2 = true -> fcur w' = fcur w }.
Lemma rely_refl i w : Rely i w w. Proof. by split. Qed.
Lemma rely_trans i a b c : Rely i a b -> Rely i b c -> Rely i a c.
Proof.
  intros [A1 A2 A3] [B1 B2 B3]. split.
  - intros x. by rewrite A1, B1.
  - intros x Hx. rewrite (B2 x) by (by apply A1). by apply (A2 x).
  - intros x Hx Hf. rewrite (B3 x); [by apply (A3 x)|by apply A1|]. by rewrite (A2 x).
Qed.
Definition after (O : places) (s s' : N * bool) : places := fun st =>
  (O st /\ s = s') \/ exists o a, O (FPending o) /\ word_step s o a s' /\ st = FDone a.
Fixpoint cwp {A} (i : nat) (pr : P A) (w : fw) (O : places) (Q : A -> fw -> places -> Prop) : Prop :=
  match pr with
  | Ret a => Q a w O
  | Fail e => e = Fuel
  | Step f k => forall w1, Rely i w w1 -> FInv w1 -> exists r w2, f (fm w1) = Ok (r, fm w2) /\ FInv w2 /\
      (forall j, j <> i -> Rely j w1 w2) /\ (exists st, after O (fcur w1) (fcur w2) st) /\
      cwp i (k r) w2 (after O (fcur w1) (fcur w2)) Q
  end.
Lemma cwp_bind {A B} i (pr : P A) (f : A -> P B) : forall w O Q,
  cwp i pr w O (fun a w' O' => cwp i (f a) w' O' Q) -> cwp i (bind pr f) w O Q.
Proof.
  induction pr as [a|e|R g k IH]; intros w O Q H; cbn in *; [done|done|].
  intros w1 H1 H2. destruct (H w1 H1 H2) as (r & w2 & E1 & E2 & E3 & E4 & E5). exists r, w2. repeat (split; [done|]). by apply IH.
Qed.
Lemma cwp_mono {A} i (pr : P A) : forall w O (Q Q' : A -> fw -> places -> Prop), (forall a w' O', Q a w' O' -> Q' a w' O') -> cwp i pr w O Q -> cwp i pr w O Q'.
Proof.
  induction pr as [a|e|R g k IH]; intros w O Q Q' HQ H; cbn in *; [by apply HQ|done|].
  intros w1 H1 H2. destruct (H w1 H1 H2) as (r & w2 & E1 & E2 & E3 & E4 & E5). exists r, w2. repeat (split; [done|]). eapply IH; [done|done].
Qed.
(** the places only grow as long as the object does not change *)
Definition sub (O O' : places) : Prop := forall st, O st -> O' st.
Lemma after_same O s : sub O (after O s s).
Proof. intros st H. by left. Qed.

(** a load *)
Lemma cwp_load {A} i (f : leaf -> option A) w O (Q : A -> fw -> places -> Prop) : (exists st, O st) ->
  (forall w1 l, Rely i w w1 -> FInv w1 -> heap (fm w1) !! p = Some (NLeaf l) ->
     exists r, f l = Some r /\ Q r w1 (after O (fcur w1) (fcur w1))) ->
  cwp i (leaf_ld p f) w O Q.
Proof.
  intros [st Hst] H w1 HR HI. destruct (fi_leaf _ HI) as (l & Hl & _). destruct (H w1 l HR HI Hl) as (r & Hr & HQ).
  exists r, w1. rewrite Hl, Hr. split; [done|]. split; [done|]. split; [intros; apply rely_refl|]. split; [exists st; by left|]. done.
Qed.
Lemma cwp_vload i w O (Q : N -> fw -> places -> Prop) : (exists st, O st) ->
  (forall w1 l, Rely i w w1 -> FInv w1 -> heap (fm w1) !! p = Some (NLeaf l) -> Q (l_ver l) w1 (after O (fcur w1) (fcur w1))) ->
  cwp i (version p) w O Q.
Proof.
  intros [st Hst] H w1 HR HI. destruct (fi_leaf _ HI) as (l & Hl & _). exists (l_ver l), w1. unfold rd_ver. rewrite Hl.
  split; [done|]. split; [done|]. split; [intros; apply rely_refl|]. split; [exists st; by left|]. by apply H.
Qed.
Lemma wr_ver_leaf m l v : heap m !! p = Some (NLeaf l) -> wr_ver p v m = mwith_heap (<[p := NLeaf (with_ver v l)]> (heap m)) m.
Proof. intros H. unfold wr_ver. by rewrite H. Qed.

(** what a thread holds *)
Definition held (i : nat) (g : fheld) (w : fw) : Prop :=
  match g with
  | None => forall x, fown w <> Some (i, x)
  | Some (lv, fg) => fown w = Some (i, lv) /\ fcur w = (fg_snapshot fg, true) /\ fg_active fg = true
  end.
Lemma held_rely i g w w' : Rely i w w' -> held i g w -> held i g w'.
Proof.
  intros [R1 R2 R3]. destruct g as [[lv fg]|]; cbn.
  - intros (H1 & H2 & H3). split; [by apply R1|]. split; [|done]. rewrite (R3 lv); [done|done|by rewrite H2].
  - intros H x Hx. by apply R1, H in Hx.
Qed.
(** the lock held, nothing frozen yet *)
Definition owns (i : nat) (lv : N) (w : fw) : Prop := fown w = Some (i, lv) /\ (fcur w).2 = false.
Lemma owns_rely i lv w w' : Rely i w w' -> owns i lv w -> owns i lv w'.
Proof. intros [R1 R2 R3] [H1 H2]. split; [by apply R1|]. by rewrite (R2 lv). Qed.

Lemma c_read (i : nat) w (O : places) (g : fheld) (Q : option N -> fw -> places -> Prop) : O (FPending FRead) -> held i g w ->
  (forall r w' (O' : places), held i g w' -> O' (FDone (APerm r)) -> Q r w' O') -> cwp i (permutation_try p) w O Q.
Proof.
  intros HO Hh HQ. unfold permutation_try. apply cwp_bind, cwp_load; [by eexists|]. intros w1 l HR HI Hl. exists (l_perm l). split; [done|]. cbn.
  apply HQ; [by eapply held_rely|]. destruct (fi_leaf _ HI) as (l' & Hl' & _ & E & _). assert (l' = l) as -> by congruence. rewrite E. right.
  exists FRead. eexists. split; [done|]. split; [|done]. pose proof (fi_cur _ HI) as Hu. destruct (fcur w1) as [c [|]]; cbn in *; unfold shown; cbn.
  - rewrite freeze_is_frozen. constructor.
  - rewrite Hu. constructor.
Qed.
Lemma c_stable F : forall (i : nat) w (O : places) (g : fheld) (Q : N -> fw -> places -> Prop) o, O (FPending o) -> held i g w ->
  (forall r w' (O' : places), held i g w' -> O' (FPending o) -> Q r w' O') -> cwp i (stable F p) w O Q.
Proof.
  unfold stable. induction F as [|F IH]; intros i w O g Q o HO Hh HQ; cbn [ver_stable]; [done|].
  apply cwp_bind. apply cwp_vload; [by eexists|]. intros w1 l HR HI Hl. assert (held i g w1) as Hh1 by (by eapply held_rely).
  destruct (v_is_dirty _); [eapply IH; [by left|done|done]|]. apply HQ; [done|by left].
Qed.
Lemma wait_read i w (O : places) (g : fheld) w1 l : O (FPending FWait) -> held i g w -> Rely i w w1 -> FInv w1 -> heap (fm w1) !! p = Some (NLeaf l) ->
  held i g w1 /\ after O (fcur w1) (fcur w1) (FPending FWait) /\ (is_frozen (l_perm l) = false -> after O (fcur w1) (fcur w1) (FDone (APerm (Some (l_perm l))))).
Proof.
  intros HO Hh HR HI Hl. split; [by eapply held_rely|]. split; [by left|]. destruct (fi_leaf _ HI) as (l' & Hl' & _ & E & _). assert (l' = l) as -> by congruence.
  rewrite E. intros Hf. right. exists FWait. eexists. split; [done|]. split; [|done]. destruct (fcur w1) as [c [|]]; unfold shown in *; cbn in *.
  - by rewrite freeze_is_frozen in Hf.
  - constructor.
Qed.
Lemma c_wait F n : forall (i : nat) w (O : places) (g : fheld) (Q : N -> fw -> places -> Prop), O (FPending FWait) -> held i g w ->
  (forall r w' (O' : places), held i g w' -> O' (FDone (APerm (Some r))) -> Q r w' O') -> cwp i (wait_loop F n p) w O Q.
Proof.
  induction n as [|n IH]; intros i w O g Q HO Hh HQ; cbn [wait_loop]; [done|].
  apply cwp_bind, cwp_load; [by eexists|]. intros w1 l HR HI Hl. exists (l_perm l). split; [done|].
  destruct (wait_read i w O g w1 l HO Hh HR HI Hl) as (Hh1 & HO1 & HD1). destruct (is_frozen (l_perm l)); [|apply HQ; auto].
  apply cwp_bind. eapply cwp_mono with (Q := fun r w' (O' : places) => held i g w' /\
    match r with Some x => O' (FDone (APerm (Some x))) | None => O' (FPending FWait) end).
  - intros r w2 O2 [Hh2 HO2]. destruct r as [r|]; [by apply HQ|]. apply cwp_bind. eapply c_stable; [exact HO2|exact Hh2|]. intros _ w3 O3 Hh3 HO3. by eapply IH.
  - generalize MAX_SPIN_ITERS. revert HO1 Hh1. generalize (after O (fcur w1) (fcur w1)). clear HD1 HR Hl HI. revert w1. intros w1 O1 HO1 Hh1 k. revert w1 O1 HO1 Hh1.
    induction k as [|k IHk]; intros w1 O1 HO1 Hh1; cbn [wait_spin]; [done|].
    apply cwp_bind, cwp_load; [by eexists|]. intros w2 l2 HR HI Hl. exists (l_perm l2). split; [done|].
    destruct (wait_read i w1 O1 g w2 l2 HO1 Hh1 HR HI Hl) as (Hh2 & HO2 & HD2). destruct (is_frozen (l_perm l2)); [by apply IHk|]. cbn. auto.
Qed.

(** a store to the permutation word *)
Lemma put_perm w1 l x own s : FInv w1 -> heap (fm w1) !! p = Some (NLeaf l) -> x = shown s -> is_frozen s.1 = false -> own = fown w1 -> (s.2 = true -> own <> None) ->
  FInv (mk_fw (mwith_heap (<[p := NLeaf (with_perm x l)]> (heap (fm w1))) (fm w1)) own s).
Proof.
  intros HI Hl -> Hs -> Ho. destruct (fi_leaf _ HI) as (l' & Hl' & H1 & H2 & H3). assert (l' = l) as -> by congruence.
  split; [|done|done]. exists (with_perm (shown s) l). cbn. by rewrite lookup_insert.
Qed.
Lemma shown_inj_unfrozen s e : is_frozen e = false -> is_frozen s.1 = false -> shown s = e -> s = (e, false).
Proof. destruct s as [c [|]]; unfold shown; cbn; [intros H _ <-; by rewrite freeze_is_frozen in H|]. by intros _ _ ->. Qed.
Lemma c_cas (i : nat) w (O : places) (g : fheld) e n (Q : option N -> fw -> places -> Prop) : O (FPending (FCas e n)) -> held i g w -> is_frozen e = false -> is_frozen n = false ->
  (forall r w' (O' : places), held i g w' ->
     O' (FDone (match r with None => APublished | Some raw => match as_permuter raw with Some x => AOther x | None => AFrozen end end)) -> Q r w' O') ->
  cwp i (cas_permutation_raw p e n) w O Q.
Proof.
  intros HO Hh He Hn HQ w1 HR HI. destruct (fi_leaf _ HI) as (l & Hl & L1 & L2 & L3). assert (held i g w1) as Hh1 by (by eapply held_rely).
  pose proof (fi_cur _ HI) as Hu. cbn [cas_permutation_raw]. rewrite Hl. destruct (N.eqb_spec (l_perm l) e) as [E|E].
  - assert (Ec : fcur w1 = (e, false)) by (apply shown_inj_unfrozen; congruence).
    exists None, (mk_fw (mwith_heap (<[p := NLeaf (with_perm n l)]> (heap (fm w1))) (fm w1)) (fown w1) (n, false)). split; [done|].
    assert (Ha : after O (fcur w1) (n, false) (FDone APublished)).
    { right. exists (FCas e n), APublished. rewrite Ec. split; [done|]. split; [constructor|done]. }
    split; [by apply put_perm|]. split; [|split; [eexists; exact Ha|]].
    + intros j Hj. rewrite <- Ec at 1 || idtac. split; cbn; [done|by rewrite Ec|]. intros x Hx. by rewrite Ec.
    + apply HQ; [|exact Ha]. destruct g as [[lv fg]|]; cbn in *; [|done]. destruct Hh1 as (_ & H2 & _). congruence.
  - exists (Some (l_perm l)), w1. split; [f_equal; f_equal; rewrite insert_id by done; by destruct (fm w1)|]. split; [done|]. split; [intros; apply rely_refl|].
    assert (Ha : after O (fcur w1) (fcur w1) (FDone (match as_permuter (l_perm l) with Some x => AOther x | None => AFrozen end))).
    { right. exists (FCas e n). eexists. split; [done|]. split; [|done]. rewrite L2 in E |- *. unfold as_permuter. destruct (fcur w1) as [c [|]]; unfold shown in *; cbn in *.
      - rewrite freeze_is_frozen. constructor.
      - rewrite Hu. by constructor. }
    split; [eexists; exact Ha|]. by apply HQ.
Qed.

(** ** locking *)
Lemma can_lock_bit0 v : v_can_lock v = true -> bit v 0 = false.
Proof. rewrite can_lock_bits. destruct (bit v 0); [done|done]. Qed.
Lemma locked_ok v : vok v -> vok (v_locked v) /\ bit (v_locked v) 0 = true.
Proof.
  intros H. split.
  - unfold v_locked. apply vok_lor; [apply vok_lor; [done|]|]; apply vok_const; done.
  - unfold v_locked. rewrite !bit_lor. by destruct (bit v 0).
Qed.
Lemma c_lock F : forall (i : nat) w (O : places) (Q : N -> fw -> places -> Prop) o, O (FPending o) -> held i None w ->
  (forall lv w' (O' : places), owns i lv w' -> O' (FPending o) -> Q lv w' O') -> cwp i (lock F p) w O Q.
Proof.
  unfold lock. induction F as [|F IH]; intros i w O Q o HO Hh HQ; cbn [ver_lock]; [done|].
  apply cwp_bind. apply cwp_vload; [by eexists|]. intros w1 l HR HI Hl. apply (held_rely i None _ _ HR) in Hh.
  destruct (v_can_lock (l_ver l)) eqn:Ecl; [|eapply IH; [by left|done|done]].
  apply cwp_bind. intros w2 HR2 HI2. apply (held_rely i None _ _ HR2) in Hh. destruct (fi_leaf _ HI2) as (l2 & Hl2 & L1 & L2 & L3). unfold rd_ver at 1. rewrite Hl2.
  destruct (N.eqb_spec (l_ver l2) (l_ver l)) as [E|E].
  - assert (Eo : fown w2 = None). { destruct (fown w2) as [[j lv]|]; [|done]. destruct L3 as [L3 L4]. rewrite E in L3. apply can_lock_bit0 in Ecl. congruence. }
    assert (Ef : (fcur w2).2 = false). { pose proof (fi_own _ HI2) as Hf. destruct (fcur w2).2; [|done]. by destruct (Hf eq_refl). }
    rewrite (wr_ver_leaf _ _ _ Hl2). exists true, (mk_fw (mwith_heap (<[p := NLeaf (with_ver (v_locked (l_ver l)) l2)]> (heap (fm w2))) (fm w2)) (Some (i, v_locked (l_ver l))) (fcur w2)).
    split; [done|]. destruct (locked_ok (l_ver l)) as [V1 V2]; [by rewrite <- E|]. split.
    { split; cbn; [|apply HI2|by rewrite Ef]. exists (with_ver (v_locked (l_ver l)) l2). rewrite lookup_insert. done. }
    split; [|split].
    + intros j Hj. split; cbn; rewrite ?Eo; try done. intros x. split; [done|]. intros [= ? _]. congruence.
    + exists (FPending o). left. split; [by left|done].
    + cbn. apply HQ; [done|]. left. split; [by left|done].
  - exists false, w2. split; [done|]. split; [done|]. split; [intros; apply rely_refl|]. split; [exists (FPending o); left; split; [by left|done]|].
    cbn. eapply IH; [left; split; [by left|done]|done|done].
Qed.
Lemma own_ver i lv w l : FInv w -> fown w = Some (i, lv) -> heap (fm w) !! p = Some (NLeaf l) -> l_ver l = lv /\ bit lv 0 = true /\ vok lv.
Proof. intros HI Ho Hl. destruct (fi_leaf _ HI) as (l' & Hl' & L1 & L2 & L3). rewrite Ho in L3. assert (l' = l) as -> by congruence. destruct L3 as [<- ?]. done. Qed.
(** a store of the version word by the owner of the lock *)
Lemma c_vstore (i : nat) w (O : places) lv nv own (Q : unit -> fw -> places -> Prop) : (exists st, O st) -> fown w = Some (i, lv) ->
  (vok lv -> bit lv 0 = true -> vok nv /\ (own = Some (i, nv) /\ bit nv 0 = true \/ own = None /\ v_can_lock nv = true /\ (fcur w).2 = false)) ->
  (forall w1, Rely i w w1 -> forall m, Q tt (mk_fw m own (fcur w1)) (after O (fcur w1) (fcur w1))) ->
  cwp i (ver_store (rd_ver p) (wr_ver p) nv) w O Q.
Proof.
  intros [st Hst] Ho Hown HQ w1 HR HI. pose proof (proj1 (fr_own _ _ _ HR lv) Ho) as Ho1. pose proof (fr_flag _ _ _ HR lv Ho) as Hfl.
  destruct (fi_leaf _ HI) as (l & Hl & L1 & L2 & L3). destruct (own_ver _ _ _ _ HI Ho1 Hl) as (V1 & V2 & V3). destruct (Hown V3 V2) as [Hv Hown']. clear Hown. rename Hown' into Hown. unfold rd_ver. rewrite Hl, (wr_ver_leaf _ _ _ Hl).
  eexists tt, (mk_fw _ own (fcur w1)). split; [done|]. split.
  { split; cbn; [|apply HI|].
    - exists (with_ver nv l). rewrite lookup_insert. split; [done|]. split; [done|]. split; [done|]. destruct Hown as [[-> ?]|(-> & ? & _)]; done.
    - intros Hf. destruct Hown as [[-> _]|(_ & _ & ?)]; [done|congruence]. }
  split; [|split; [exists st; by left|by apply (HQ w1)]].
  intros j Hj. split; cbn; try done; rewrite Ho1. intros x. split; [intros [= ? _]; congruence|]. destruct Hown as [[-> _]|(-> & _)]; [intros [= ? _]; congruence|done].
Qed.
Lemma c_mark (i : nat) w (O : places) lv (Q : N -> fw -> places -> Prop) o : O (FPending o) -> owns i lv w ->
  (forall lv' w' (O' : places), owns i lv' w' -> bit lv' 2 = true -> O' (FPending o) -> Q lv' w' O') -> cwp i (mark_split p lv) w O Q.
Proof.
  intros HO Hw HQ. unfold mark_split, guard_mark_split. apply cwp_bind. apply cwp_vload; [by eexists|]. intros w1 l HR HI Hl.
  assert (owns i lv w1) as [Ho Hf] by (by eapply owns_rely). destruct (own_ver _ _ _ _ HI Ho Hl) as (-> & V2 & V3).
  apply cwp_bind. eapply (c_vstore i w1 _ lv _ (Some (i, N.lor lv SPLITTING_BIT))); [exists (FPending o); by left|done| |].
  - intros _ _. split; [apply vok_lor; [done|]; by apply vok_const|]. left. split; [done|]. by rewrite bit_lor, V2.
  - intros w2 HR2 m. apply HQ.
    + split; [done|]. cbn. by rewrite (fr_flag _ _ _ HR2 lv).
    + rewrite bit_lor. apply orb_true_r.
    + left. split; [by left|done].
Qed.
Lemma c_unlock (i : nat) w (O : places) lv (Q : unit -> fw -> places -> Prop) a : O (FDone a) -> owns i lv w ->
  (forall w' (O' : places), held i None w' -> O' (FDone a) -> Q tt w' O') -> cwp i (unlock p lv) w O Q.
Proof.
  intros HO [Ho Hf] HQ. unfold unlock, guard_drop. eapply (c_vstore i w _ lv _ None); [by eexists|done| |].
  - intros V1 V2. destruct (unlock_fields lv V1) as (U1 & U2 & U3 & U4 & _). split; [done|]. right. split; [done|]. split; [|done]. by rewrite can_lock_bits, U2, U3, U4.
  - intros w1 HR m. apply HQ; [done|]. by left.
Qed.

(** ** freezing *)
Definition froze (o : fop) : Prop := o = FFreeze \/ o = FTryFreeze.
Lemma froze_step o c : froze o -> word_step (c, false) o (ASnapshot c) (c, true).
Proof. intros [->| ->]; constructor. Qed.
(** the load and the compare-and-swap of both freezing loops *)
Lemma c_freeze_body {A} (i : nat) w (O : places) lv o (yes : N -> P A) (no frz : P A) (Q : A -> fw -> places -> Prop) : froze o -> O (FPending o) -> owns i lv w ->
  (forall s w' (O' : places), held i (Some (lv, mk_fg s true)) w' -> O' (FDone (ASnapshot s)) -> cwp i (yes s) w' O' Q) ->
  (forall w' (O' : places), owns i lv w' -> O' (FPending o) -> cwp i no w' O' Q) ->
  cwp i (raw <- permutation p ;; if is_frozen raw then frz else ok <- cas_permutation p raw (freeze_raw raw) ;; if ok : bool then yes raw else no) w O Q.
Proof.
  intros Hfr HO Hw Hy Hn. apply cwp_bind, cwp_load; [by eexists|]. intros w1 l HR HI Hl. exists (l_perm l). split; [done|].
  assert (owns i lv w1) as Hw1 by (by eapply owns_rely). destruct (fi_leaf _ HI) as (l' & Hl' & _ & E & _). assert (l' = l) as -> by congruence. pose proof (fi_cur _ HI) as Hu.
  assert (El : l_perm l = (fcur w1).1). { rewrite E. unfold shown. by rewrite (proj2 Hw1). }
  rewrite El, Hu. apply cwp_bind. intros w2 HR2 HI2. assert (owns i lv w2) as Hw2 by (by eapply owns_rely).
  destruct (fi_leaf _ HI2) as (l2 & Hl2 & _ & E2 & _). pose proof (fi_cur _ HI2) as Hu2. cbn [cas_permutation]. rewrite Hl2.
  set (c := (fcur w1).1) in *. destruct (N.eqb_spec (l_perm l2) c) as [Ec|Ec].
  - assert (Es : fcur w2 = (c, false)) by (apply shown_inj_unfrozen; congruence).
    exists true, (mk_fw (mwith_heap (<[p := NLeaf (with_perm (freeze_raw c) l2)]> (heap (fm w2))) (fm w2)) (fown w2) (c, true)). split; [done|].
    assert (Ha : after (after O (fcur w1) (fcur w1)) (fcur w2) (c, true) (FDone (ASnapshot c))).
    { right. exists o, (ASnapshot c). split; [by left|]. split; [|done]. rewrite Es. by apply froze_step. }
    destruct Hw2 as [Ho2 _]. split; [apply put_perm; try done; by rewrite Ho2|]. split; [|split; [eexists; exact Ha|]].
    + intros j Hj. split; cbn; [done|..]; rewrite Ho2; intros x [= ? _]; congruence.
    + apply Hy; [|exact Ha]. done.
  - exists false, w2. split; [f_equal; f_equal; rewrite insert_id by done; by destruct (fm w2)|]. split; [done|]. split; [intros; apply rely_refl|].
    split; [exists (FPending o); left; split; [by left|done]|]. apply Hn; [done|]. left. split; [by left|done].
Qed.
Lemma c_flags {A} (i : nat) w (O : places) lv o (pr : P A) (Q : A -> fw -> places -> Prop) : O (FPending o) -> owns i lv w -> bit lv 2 = true ->
  (forall w' (O' : places), owns i lv w' -> O' (FPending o) -> cwp i pr w' O' Q) ->
  cwp i (lk <- flag p v_is_locked ;; sp <- flag p v_is_splitting ;; if lk && sp then pr else Fail Panic) w O Q.
Proof.
  intros HO Hw H2 Hpr. apply cwp_bind. unfold flag. apply cwp_bind. apply cwp_vload; [by eexists|]. intros w1 l HR HI Hl. assert (owns i lv w1) as Hw1 by (by eapply owns_rely).
  destruct (own_ver _ _ _ _ HI (proj1 Hw1) Hl) as (-> & V2 & _). cbn [cwp]. apply cwp_bind. apply cwp_bind. apply cwp_vload; [exists (FPending o); by left|]. intros w2 l2 HR2 HI2 Hl2.
  assert (owns i lv w2) as Hw2 by (by eapply owns_rely). destruct (own_ver _ _ _ _ HI2 (proj1 Hw2) Hl2) as (-> & _ & _). cbn [cwp]. rewrite is_locked_bit, is_splitting_bit, V2, H2. cbn [andb].
  apply Hpr; [done|]. left. split; [by left|done].
Qed.
Lemma c_freeze F : forall (i : nat) w (O : places) lv o (Q : N -> fw -> places -> Prop), froze o -> O (FPending o) -> owns i lv w ->
  (forall s w' (O' : places), held i (Some (lv, mk_fg s true)) w' -> O' (FDone (ASnapshot s)) -> Q s w' O') ->
  cwp i (freeze_loop F p) w O Q.
Proof.
  induction F as [|F IH]; intros i w O lv o Q Hfr HO Hw HQ; cbn [freeze_loop]; [done|].
  eapply (c_freeze_body i w O lv o Ret (freeze_loop F p)); [done|done|done|done|]. intros w' O' H1 H2. by eapply IH.
Qed.
Lemma c_try_freeze F : forall (i : nat) w (O : places) lv o (Q : option N -> fw -> places -> Prop), froze o -> O (FPending o) -> owns i lv w ->
  (forall s w' (O' : places), held i (Some (lv, mk_fg s true)) w' -> O' (FDone (ASnapshot s)) -> Q (Some s) w' O') ->
  cwp i (try_freeze_loop F p) w O Q.
Proof.
  induction F as [|F IH]; intros i w O lv o Q Hfr HO Hw HQ; cbn [try_freeze_loop]; [done|].
  eapply (c_freeze_body i w O lv o (fun s => Ret (Some s)) (try_freeze_loop F p)); [done|done|done|done|]. intros w' O' H1 H2. by eapply IH.
Qed.
(** the store that ends a freeze *)
Lemma c_thaw (i : nat) w (O : places) lv fg n o (Q : unit -> fw -> places -> Prop) : O (FPending o) -> held i (Some (lv, fg)) w -> (forall w1, fcur w1 = (fg_snapshot fg, true) -> FInv w1 -> is_frozen n = false) ->
  word_step (fg_snapshot fg, true) o AUnit (n, false) ->
  (forall w' (O' : places), owns i lv w' -> O' (FDone AUnit) -> Q tt w' O') -> cwp i (set_permutation p n) w O Q.
Proof.
  intros HO Hh Hn Hst HQ w1 HR HI. apply (held_rely _ _ _ _ HR) in Hh as (Ho & Hc & _). specialize (Hn w1 Hc HI). destruct (fi_leaf _ HI) as (l & Hl & L1 & L2 & L3). rewrite Hl.
  exists tt, (mk_fw (mwith_heap (<[p := NLeaf (with_perm n l)]> (heap (fm w1))) (fm w1)) (fown w1) (n, false)). split; [done|].
  assert (Ha : after O (fcur w1) (n, false) (FDone AUnit)). { right. exists o, AUnit. rewrite Hc. done. }
  split; [by apply put_perm|]. split; [|split; [eexists; exact Ha|]].
  - intros j Hj. split; cbn; [done|..]; rewrite Ho; intros x [= ? _]; congruence.
  - apply HQ; [|exact Ha]. done.
Qed.

(** ** calls *)
Definition fin (i : nat) (r : fans * fheld) (w : fw) (O : places) : Prop := O (FDone r.1) /\ held i r.2 w.
Lemma c_fcall F (i : nat) (g : fheld) o pr w (O : places) : f_call F p g o = Some pr -> fop_ok o -> O (FPending o) -> held i g w -> cwp i pr w O (fin i).
Proof.
  intros Hc Hok HO Hh. destruct o as [| |e n| | |n|]; cbn [f_call] in Hc.
  - apply (inj Some) in Hc; subst pr. apply cwp_bind. eapply c_read; [done|done|]. intros r w' O' H1 H2. by split.
  - apply (inj Some) in Hc; subst pr. apply cwp_bind. eapply c_wait; [done|done|]. intros r w' O' H1 H2. by split.
  - apply (inj Some) in Hc; subst pr. destruct Hok as [He%perm_unfrozen Hn%perm_unfrozen]. apply cwp_bind. eapply c_cas; [done|done|done|done|]. intros r w' O' H1 H2. by split.
  - destruct g; [done|]. apply (inj Some) in Hc; subst pr. apply cwp_bind. eapply c_lock; [done|done|]. intros lv w1 O1 Hw1 HO1. apply cwp_bind. eapply c_mark; [done|done|].
    intros lv' w2 O2 Hw2 Hb HO2. apply cwp_bind. eapply c_flags; [done|done|done|]. intros w3 O3 Hw3 HO3. eapply c_freeze; [by left|done|done|]. intros s w4 O4 H1 H2. by split.
  - destruct g; [done|]. apply (inj Some) in Hc; subst pr. apply cwp_bind. eapply c_lock; [done|done|]. intros lv w1 O1 Hw1 HO1. apply cwp_bind. eapply c_mark; [done|done|].
    intros lv' w2 O2 Hw2 Hb HO2. apply cwp_bind. eapply c_flags; [done|done|done|]. intros w3 O3 Hw3 HO3. eapply c_try_freeze; [by right|done|done|]. intros s w4 O4 H1 H2. by split.
  - destruct g as [[lv fg]|]; [|done]. apply (inj Some) in Hc; subst pr. apply cwp_bind. unfold unfreeze_set_permutation, fguard_drop. cbn [fg_active]. apply cwp_bind. apply perm_unfrozen in Hok.
    eapply c_thaw; [done|done|done|constructor|]. intros w1 O1 Hw1 HO1. cbn [cwp fguard_drop fg_active]. apply cwp_bind. eapply c_unlock; [done|done|]. intros w2 O2 H1 H2. by split.
  - destruct g as [[lv fg]|]; [|done]. apply (inj Some) in Hc; subst pr. apply cwp_bind. unfold fguard_drop. pose proof Hh as (_ & _ & ->).
    eapply c_thaw; [done|done| |constructor|].
    { intros w1 Hcu HI. pose proof (fi_cur _ HI) as Hf. by rewrite Hcu in Hf. }
    intros w2 O2 Hw2 HO2. apply cwp_bind. eapply c_unlock; [done|done|]. intros w3 O3 H1 H2. by split.
Qed.

(** ** the system *)
Lemma cwp_rely i (pr : P (fans * fheld)) w w' (O : places) : Rely i w w' -> cwp i pr w O (fin i) -> cwp i pr w' O (fin i).
Proof.
  intros HR. destruct pr as [a|e|R f k]; cbn.
  - intros [A1 A2]. split; [done|by eapply held_rely].
  - done.
  - intros H w1 HR1 HI1. apply (H w1); [by eapply rely_trans|done].
Qed.
Definition thread_ok (w : fw) (i : nat) (t : fthread) (ops : list fop) (O : places) : Prop :=
  Forall fop_ok ops /\ (exists s, O s) /\
  match t with
  | FIdle g => held i g w /\ forall s, O s -> s = FNone
  | FRun pr => cwp i pr w O (fin i)
  end.
Record SInv (s0 : N * bool) (c : fsys) (h : list fevent) (w : fw) (Os : nat -> places) : Prop := {
  si_mem : fm w = c.1; si_inv : FInv w;
  si_thr : forall i t ops, c.2 !! i = Some (t, ops) -> thread_ok w i t ops (Os i);
  si_tr : forall st, length st = length c.2 -> (forall j s, st !! j = Some s -> Os j s) ->
    exists acts, f_atomic s0 (length c.2) acts (fcur w) st /\ f_visible acts = h }.
Lemma thread_rely w w' i t ops (O : places) : Rely i w w' -> thread_ok w i t ops O -> thread_ok w' i t ops O.
Proof.
  intros HR (A & B' & C). split; [done|]. split; [done|]. destruct t as [g|pr].
  - destruct C as [C1 C2]. split; [by eapply held_rely|done].
  - by eapply cwp_rely.
Qed.
Lemma visible_app a b : f_visible (a ++ b) = f_visible a ++ f_visible b.
Proof. apply omap_app. Qed.
Definition upd (Os : nat -> places) (i : nat) (O : places) : nat -> places :=
  fun j => if Nat.eqb j i then O else Os j.
Lemma upd_same Os i O : upd Os i O i = O.
Proof. unfold upd. by rewrite Nat.eqb_refl. Qed.
Lemma upd_ne Os i O j : j <> i -> upd Os i O j = Os j.
Proof. intros H. unfold upd. by apply Nat.eqb_neq in H as ->. Qed.
Lemma sinv_step s0 c h w Os i t ops t' ops' w' (O' : places) h' :
  SInv s0 c h w Os -> c.2 !! i = Some (t, ops) ->
  FInv w' -> (forall j, j <> i -> Rely j w w') -> thread_ok w' i t' ops' O' ->
  (forall s', O' s' -> exists s, Os i s /\ forall acts st, f_atomic s0 (length c.2) acts (fcur w) (<[i := s]> st) ->
      i < length st ->
      exists acts', f_atomic s0 (length c.2) (acts ++ acts') (fcur w') (<[i := s']> st) /\ f_visible acts' = h') ->
  SInv s0 (fm w', <[i := (t', ops')]> c.2) (h ++ h') w' (upd Os i O').
Proof.
  intros [S1 S2 S3 S4] Hc HI' HG Ht Htr. pose proof (lookup_lt_Some _ _ _ Hc) as Hi. split; cbn [fst snd]; try done.
  - intros j t1 ops1 Hj. destruct (decide (j = i)) as [->|Hne].
    + rewrite list_lookup_insert in Hj by done. injection Hj as <- <-. by rewrite upd_same.
    + rewrite list_lookup_insert_ne in Hj by done. rewrite upd_ne by done. eapply thread_rely; [by apply HG|]. by apply S3.
  - rewrite insert_length. intros st Hlen Hst.
    destruct (lookup_lt_is_Some_2 st i) as [s' Hs']; [lia|].
    pose proof (Hst i s' Hs') as HO'. rewrite upd_same in HO'. destruct (Htr s' HO') as (s & Hs & Hex).
    destruct (S4 (<[i := s]> st)) as (acts & Ha & Hv).
    + by rewrite insert_length.
    + intros j s1 Hj. destruct (decide (j = i)) as [->|Hne].
      * rewrite list_lookup_insert in Hj by lia. by injection Hj as <-.
      * rewrite list_lookup_insert_ne in Hj by done. specialize (Hst j s1 Hj). by rewrite upd_ne in Hst.
    + destruct (Hex acts st Ha) as (acts' & Ha' & Hv'); [lia|]. exists (acts ++ acts').
      rewrite list_insert_id in Ha' by done. split; [done|]. by rewrite visible_app, Hv, Hv'.
Qed.
Lemma f_step_ok F s0 i c h w Os : SInv s0 c h w Os -> exists w' Os',
  SInv s0 (f_step F p i c).1 (h ++ (f_step F p i c).2) w' Os' /\ length (f_step F p i c).1.2 = length c.2.
Proof.
  intros HSI. destruct c as [m thr]. pose proof (si_mem _ _ _ _ _ HSI) as Hm. cbn [fst] in Hm. subst m. pose proof (si_inv _ _ _ _ _ HSI) as HI.
  unfold f_step. cbn [fst snd]. destruct (thr !! i) as [[t ops]|] eqn:Hc; [|exists w, Os; cbn; by rewrite app_nil_r].
  pose proof (si_thr _ _ _ _ _ HSI i t ops Hc) as (T1 & [st0 T2] & T3).
  destruct t as [g|[[a g]|e|R f k]].
  - destruct ops as [|o ops]; [exists w, Os; cbn; by rewrite app_nil_r|].
    destruct T3 as [T3 T4]. apply Forall_cons in T1 as [Hg T1]. destruct (f_call F p g o) as [pr|] eqn:Epr; cbn [fst snd].
    + exists w, (upd Os i (eq (FPending o))). rewrite insert_length. split; [|done].
      eapply (sinv_step s0 (fm w, thr)); [exact HSI|exact Hc|done|intros; apply rely_refl| |].
      * split; [done|]. split; [by eexists|]. by eapply c_fcall.
      * intros s' <-. exists FNone. split; [by rewrite <- (T4 _ T2)|]. intros acts st Ha Hlt.
        exists [FEv (FCall i o)]. split; [|done]. rewrite <- (list_insert_insert st i (FPending o) FNone).
        apply fa_call; [done|]. by apply list_lookup_insert.
    + exists w, (upd Os i (Os i)). rewrite insert_length. split; [|done].
      eapply (sinv_step s0 (fm w, thr)); [exact HSI|exact Hc|done|intros; apply rely_refl| |].
      * split; [done|]. split; [by eexists|done].
      * intros s' Hs'. exists s'. split; [done|]. intros acts st Ha Hlt. exists []. split; [|done]. by rewrite app_nil_r.
  - cbn in T3. destruct T3 as [T3 T4]. cbn [fst snd] in *. exists w, (upd Os i (eq FNone)). rewrite insert_length. split; [|done].
    eapply (sinv_step s0 (fm w, thr)); [exact HSI|exact Hc|done|intros; apply rely_refl| |].
    + split; [done|]. split; [by eexists|]. done.
    + intros s' <-. exists (FDone a). split; [done|]. intros acts st Ha Hlt.
      exists [FEv (FRet i a)]. split; [|done]. rewrite <- (list_insert_insert st i FNone (FDone a)).
      apply fa_return; [done|]. by apply list_lookup_insert.
  - exists w, Os. cbn. by rewrite app_nil_r.
  - cbn in T3. destruct (T3 w (rely_refl i w) HI) as (r & w2 & Hf & HI2 & HG & Hex & Hk). rewrite Hf. cbn [fst snd].
    exists w2, (upd Os i (after (Os i) (fcur w) (fcur w2))). rewrite insert_length. split; [|done].
    eapply (sinv_step s0 (fm w, thr)); [exact HSI|exact Hc|done|done| |].
    + split; [done|]. split; [done|]. done.
    + intros s' [[Hs' Hmu]|(o & a & Ho & Hst & ->)].
      * exists s'. split; [done|]. intros acts st Ha Hlt. exists []. split; [|done]. by rewrite app_nil_r, <- Hmu.
      * exists (FPending o). split; [done|]. intros acts st Ha Hlt. exists [FEffect i]. split; [|done].
        rewrite <- (list_insert_insert st i (FDone a) (FPending o)). eapply fa_effect; [done| |exact Hst]. by apply list_lookup_insert.
Qed.
Lemma f_run_ok F s0 sched : forall c h w Os, SInv s0 c h w Os -> exists w' Os',
  SInv s0 (f_run F p sched c).1 (h ++ (f_run F p sched c).2) w' Os' /\ length (f_run F p sched c).1.2 = length c.2.
Proof.
  induction sched as [|i sched IH]; intros c h w Os HSI; cbn [f_run].
  - exists w, Os. cbn. by rewrite app_nil_r.
  - destruct (f_step_ok F s0 i c h w Os HSI) as (w1 & Os1 & HS1 & HL1). destruct (f_step F p i c) as [c1 h1]. cbn [fst snd] in *.
    destruct (IH c1 _ w1 Os1 HS1) as (w2 & Os2 & HS2 & HL2). destruct (f_run F p sched c1) as [c2 h2]. cbn [fst snd] in *. exists w2, Os2.
    rewrite app_assoc. split; [done|congruence].
Qed.
Lemma pick (n : nat) (Os : nat -> places) : (forall j, j < n -> exists s, Os j s) ->
  exists st, length st = n /\ forall j s, st !! j = Some s -> Os j s.
Proof.
  induction n as [|n IH]; intros H; [by exists []|].
  destruct IH as (st & Hl & Hs); [intros; apply H; lia|]. destruct (H n) as [s Hn]; [lia|].
  exists (st ++ [s]). split; [rewrite app_length; cbn; lia|]. intros j s' Hj.
  apply lookup_app_Some in Hj as [Hj|[Hge Hj]]; [by apply Hs|].
  destruct (j - length st) eqn:E; [|done]. injection Hj as <-. by replace j with n by lia.
Qed.
Theorem freeze_protocol F m w0 scripts sched c h : free_leaf m p w0 -> is_permutation P24 w0 -> Forall (Forall fop_ok) scripts ->
  f_run F p sched (f_start m scripts) = (c, h) ->
  (exists s, f_atomically (w0, false) (length scripts) h s /\ word_at c.1 p = Some (if s.2 then freeze_raw s.1 else s.1)) /\
  (forall i e, f_failed c i e -> e = Fuel).
Proof.
  intros (l & Hl & Ew & V1 & V2 & V3) Hp Hops Hrun.
  assert (HSI : SInv (w0, false) (f_start m scripts) [] (mk_fw m None (w0, false)) (fun _ => eq FNone)).
  { split; cbn; try done.
    - split; cbn; [|by apply perm_unfrozen|done]. exists l. split; [done|]. split; [by split|]. done.
    - intros i t ops Hi. apply list_lookup_fmap_Some in Hi as (ops' & Hi & [= -> ->]). split; [by eapply Forall_lookup_1|]. split; [by eexists|]. split; [|done]. intros x. done.
    - intros st Hlen Hst. exists []. split; [|done].
      assert (st = replicate (length st) FNone) as ->.
      { symmetry. apply replicate_as_elem_of. split; [done|]. intros x [j Hj]%elem_of_list_lookup_1. by rewrite (Hst j x Hj). }
      rewrite Hlen. constructor. }
  destruct (f_run_ok F (w0, false) sched _ _ _ _ HSI) as (w & Os & HS2 & HL). rewrite Hrun in HS2, HL. cbn [fst snd app] in *. cbn in HL. rewrite fmap_length in HL. split.
  - exists (fcur w). split.
    + destruct (pick (length c.2) Os) as (st & Hlen & Hst).
      { intros j Hj. destruct (lookup_lt_is_Some_2 c.2 j Hj) as [[t ops] Hc]. by apply (si_thr _ _ _ _ _ HS2) in Hc as (_ & ? & _). }
      destruct (si_tr _ _ _ _ _ HS2 st Hlen Hst) as (ac & Ha & Hv). rewrite HL in Ha. by exists ac, st.
    + destruct (fi_leaf _ (si_inv _ _ _ _ _ HS2)) as (l' & Hl' & _ & E & _). rewrite (si_mem _ _ _ _ _ HS2) in Hl'. unfold word_at. rewrite Hl', E. done.
  - intros i e [ops Hc]. by apply (si_thr _ _ _ _ _ HS2) in Hc as (_ & _ & ?).
Qed.
End S.

(** the asserting exchange *)
Lemma strict_exchange m p l w (frozen : bool) e n :
  heap m !! p = Some (NLeaf l) -> is_permutation P24 w -> is_permutation P24 e ->
  l_perm l = (if frozen then freeze_raw w else w) ->
  match cas_permutation_strict p e n with Step f k => forall x, match k x with Step _ _ => False | _ => True end | _ => False end /\
  run (cas_permutation_strict p e n) m =
    if frozen then Er Panic
    else if decide (w = e) then Ok (None, mwith_heap (<[p := NLeaf (with_perm n l)]> (heap m)) m)
    else Ok (Some w, m).
Proof.
  intros Hp Hw He Hl. apply perm_unfrozen in Hw, He. split.
  - unfold cas_permutation_strict, cas_permutation_raw, leaf_up. cbn. intros [raw|]; cbn; [destruct (is_frozen raw)|]; done.
  - unfold cas_permutation_strict, cas_permutation_raw, leaf_up. cbn. rewrite Hp. rewrite Hl.
    assert (Em : mwith_heap (<[p := NLeaf l]> (heap m)) m = m) by (rewrite insert_id by done; by destruct m).
    destruct frozen.
    + destruct (N.eqb_spec (freeze_raw w) e) as [<-|Hne]; [by rewrite freeze_is_frozen in He|].
      cbn. by rewrite freeze_is_frozen.
    + destruct (N.eqb_spec w e) as [Heq|Hne]; cbn; [by rewrite decide_True|].
      rewrite Hw, decide_False by done. cbn. by rewrite Em.
Qed.
