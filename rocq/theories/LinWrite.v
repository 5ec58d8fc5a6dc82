(** Inserts on one leaf under interference. *)
From Verif Require Import Base Perm PermFacts PermList PermLaws SpecPerm Key SpecKey KeyFacts Prog Version VersionFacts Mem Tree
  SpecTree TreeState TreeRead TreeTop SpecLin Lin LinRead.

Section K.
Context (K : list bytes) (HK : Forall (fun k => length k <= 8 /\ is_bytes k) K).
Local Notation Inv := (Inv K).
Local Notation cwp := (cwp K).
Local Notation reads := (reads K).
Local Notation places := (status -> Prop).
Local Notation anyΦ := (fun _ _ _ _ => True).

Definition set_leaf (l : leaf) (m : mem) : mem := mwith_heap (<[2%N := NLeaf l]> (heap m)) m.

(** *** steps *)
Lemma guar_intro i w w' l l' : Inv w l -> lf w' l' ->
  (forall s, s ∈ active_slots (l_perm l) -> s ∈ active_slots (l_perm l') /\ forall k, has_key l s k -> has_key l' s k) ->
  vals (wm w) ⊆ vals (wm w') -> (forall j, j <> i -> wow w <> Some j /\ wow w' <> Some j) ->
  (forall j, j <> i -> j ∈ wowe w <-> j ∈ wowe w') -> Guar i w w'.
Proof.
  intros HI Hl' Ha Hv Ho Hw j Hj. destruct (Ho j Hj) as [O1 O2]. split; [|done|done|done|by apply Hw].
  intros l0 Hl0. exists l'. assert (l0 = l) as -> by (pose proof (iv_lf _ _ _ HI) as E; unfold lf in *; congruence).
  done.
Qed.
Lemma guar_same i w w' l : Inv w l -> lf w' l -> vals (wm w) ⊆ vals (wm w') -> wow w' = wow w -> wmu w' = wmu w ->
  (forall j, j <> i -> j ∈ wowe w <-> j ∈ wowe w') -> Guar i w w'.
Proof.
  intros HI Hl Hv Ho Hm Hw j Hj. split; [|done|by rewrite Ho|done|by apply Hw].
  intros l0 Hl0. exists l. assert (l0 = l) as -> by (pose proof (iv_lf _ _ _ HI) as E; unfold lf in *; congruence).
  done.
Qed.
Lemma cwp_step {A} i (f : mem -> res (A * mem)) w (O : places) (Q : A -> world -> places -> Prop) :
  (forall w1 l1, Rely i w w1 -> Inv w1 l1 -> exists r w2 l2, f (wm w1) = Ok (r, wm w2) /\ Inv w2 l2 /\ Guar i w1 w2 /\
     (exists s, after O (wmu w1) (wmu w2) s) /\ Q r w2 (after O (wmu w1) (wmu w2))) ->
  cwp i (atomic f) w O Q.
Proof. done. Qed.

(** the lock holder finds the leaf as it left it *)
Definition own (i : nat) (w : world) (l : leaf) : Prop := Inv w l /\ wow w = Some i /\ i ∉ wowe w.
Lemma own_rely i w w' l l' : Rely i w w' -> own i w l -> Inv w' l' -> l' = l /\ own i w' l /\ wmu w' = wmu w.
Proof.
  intros HR (HI & Ho & Hn) HI'. destruct (rl_lf _ _ _ HR l (iv_lf _ _ _ HI)) as (l2 & H2 & _ & E).
  rewrite (E Ho) in H2. assert (l' = l) as -> by (pose proof (iv_lf _ _ _ HI') as E'; unfold lf in *; congruence).
  split; [done|]. split; [|by apply (rl_mu _ _ _ HR)]. split; [done|]. split; [by apply (rl_own _ _ _ HR)|].
  by rewrite <- (rl_owe _ _ _ HR).
Qed.

(** *** version words *)
Lemma inv_ver w l v (ow : option nat) : Inv w l -> vbits v (if ow then MIns else MFree) true true ->
  Inv (mk_w (set_leaf (with_ver v l) (wm w)) (wmu w) ow (wowe w)) (with_ver v l).
Proof.
  intros [A1 A2 A3 A4 A5 A6 A7 A8 A9 A10 A11 A12 A13 A14 A15] Hv. split; try done.
  unfold lf. cbn. by rewrite lookup_insert.
Qed.
Lemma wr_ver_at w l v : lf w l -> wr_ver 2 v (wm w) = set_leaf (with_ver v l) (wm w).
Proof. intros H. unfold wr_ver. unfold lf in H. by rewrite H. Qed.
Lemma rd_ver_at w l : lf w l -> rd_ver 2 (wm w) = Some (l_ver l).
Proof. intros H. unfold rd_ver. unfold lf in H. by rewrite H. Qed.

Lemma cwp_lock i F w (O : places) (Q : N -> world -> places -> Prop) : (exists s, O s) ->
  wow w <> Some i -> i ∉ wowe w ->
  (forall w' l' (O' : places), own i w' l' -> (forall s, O s -> O' s) -> Q (l_ver l') w' O') ->
  cwp i (lock F 2) w O Q.
Proof.
  intros Hs Hw Hi HQ. unfold lock. revert w O Hs Hw Hi HQ. induction F as [|F IH]; intros w O Hs Hw Hi HQ; cbn [ver_lock]; [reflexivity|].
  apply cwp_bind. apply (reads_ver K i w O anyΦ Hs ltac:(done)). intros v w1 l1 O1 HR1 HI1 HO1 _.
  assert (wow w1 <> Some i) as Hw1 by (by rewrite <- (rl_own _ _ _ HR1)).
  assert (i ∉ wowe w1) as Hi1 by (by rewrite <- (rl_owe _ _ _ HR1)).
  destruct (v_can_lock v) eqn:Ec; [|apply IH; [by eapply mono_ex|done|done|auto]].
  apply cwp_bind. apply cwp_step. intros w2 l2 HR2 HI2.
  assert (wow w2 <> Some i) as Hw2 by (by rewrite <- (rl_own _ _ _ HR2)).
  assert (i ∉ wowe w2) as Hi2 by (by rewrite <- (rl_owe _ _ _ HR2)).
  rewrite (rd_ver_at w2 l2) by apply HI2. destruct Hs as [s Hs].
  destruct (N.eqb_spec (l_ver l2) v) as [<-|Hne].
  - assert (wow w2 = None) as Hnone.
    { destruct (wow w2) as [j|] eqn:E; [|done]. pose proof (iv_ver _ _ _ HI2) as Hv. rewrite E in Hv.
      destruct Hv as (_ & _ & _ & _ & B0 & _). rewrite can_lock_bits, B0 in Ec. done. }
    pose proof (iv_ver _ _ _ HI2) as Hv. rewrite Hnone in Hv. apply vbits_locked in Hv.
    exists true, (mk_w (set_leaf (with_ver (v_locked (l_ver l2)) l2) (wm w2)) (wmu w2) (Some i) (wowe w2)), (with_ver (v_locked (l_ver l2)) l2).
    pose proof (inv_ver w2 l2 (v_locked (l_ver l2)) (Some i) HI2 Hv) as HI3.
    split; [by rewrite (wr_ver_at w2 l2) by apply HI2|]. split; [done|]. split.
    { eapply guar_intro; [done|apply HI3|done|done| |done]. intros j Hj. rewrite Hnone. cbn. split; congruence. }
    split; [exists s; left; auto|]. apply cwp_ret.
    apply (HQ _ (with_ver (v_locked (l_ver l2)) l2)); [done|]. intros s' Hs'. left. auto.
  - exists false, w2, l2. split; [done|]. split; [done|]. split; [intros ??; apply rely_refl|]. split; [exists s; left; auto|].
    apply IH; [exists s; left; auto|done|done|]. intros w' l' O' Ho HO'. apply HQ; [done|]. intros s' Hs'. apply HO'. left. auto.
Qed.
Lemma cwp_unlock i w l (O : places) (Q : unit -> world -> places -> Prop) : (exists s, O s) -> own i w l ->
  (forall w' l' (O' : places), Inv w' l' -> wow w' <> Some i -> (i ∉ wowe w') -> (forall s, O s -> O' s) -> Q tt w' O') ->
  cwp i (unlock 2 (l_ver l)) w O Q.
Proof.
  intros Hs Ho HQ. apply cwp_step. intros w1 l1 HR1 HI1. destruct (own_rely _ _ _ _ _ HR1 Ho HI1) as (-> & Ho1 & Hm).
  destruct Ho1 as (_ & Hw1 & Hn1). pose proof (iv_ver _ _ _ HI1) as Hv. rewrite Hw1 in Hv. apply vbits_unlock in Hv. cbn in Hv.
  exists tt, (mk_w (set_leaf (with_ver (v_unlock (l_ver l)) l) (wm w1)) (wmu w1) None (wowe w1)), (with_ver (v_unlock (l_ver l)) l).
  pose proof (inv_ver w1 l _ None HI1 Hv) as HI2.
  split; [by rewrite (rd_ver_at w1 l), (wr_ver_at w1 l) by apply HI1|]. split; [done|]. split.
  { eapply guar_intro; [done|apply HI2|done|done| |done]. intros j Hj. rewrite Hw1. cbn. split; congruence. }
  destruct Hs as [s Hs]. split; [exists s; by left|]. eapply HQ; [done|done|done|]. intros; by left.
Qed.
(** the same, after an entry was added that is not yet counted *)
Definition own_owe (i : nat) (w : world) (l : leaf) : Prop := Inv w l /\ wow w = Some i /\ i ∈ wowe w.
Lemma cwp_unlock_owe i w l (O : places) (Q : unit -> world -> places -> Prop) : (exists s, O s) -> own_owe i w l ->
  (forall w' l' (O' : places), Inv w' l' -> wow w' <> Some i -> (i ∈ wowe w') -> (forall s, O s -> O' s) -> Q tt w' O') ->
  cwp i (unlock 2 (l_ver l)) w O Q.
Proof.
  intros Hs (HI & Ho & Hn) HQ. apply cwp_step. intros w1 l1 HR1 HI1.
  destruct (rl_lf _ _ _ HR1 l (iv_lf _ _ _ HI)) as (l2 & H2 & _ & E). rewrite (E Ho) in H2. clear E.
  assert (l1 = l) as -> by (pose proof (iv_lf _ _ _ HI1) as E'; unfold lf in *; congruence).
  assert (wow w1 = Some i) as Hw1 by (by apply (rl_own _ _ _ HR1)).
  assert (i ∈ wowe w1) as Hn1 by (by apply (rl_owe _ _ _ HR1)).
  pose proof (iv_ver _ _ _ HI1) as Hv. rewrite Hw1 in Hv. apply vbits_unlock in Hv. cbn in Hv.
  exists tt, (mk_w (set_leaf (with_ver (v_unlock (l_ver l)) l) (wm w1)) (wmu w1) None (wowe w1)), (with_ver (v_unlock (l_ver l)) l).
  pose proof (inv_ver w1 l _ None HI1 Hv) as HI2.
  split; [by rewrite (rd_ver_at w1 l), (wr_ver_at w1 l) by apply HI1|]. split; [done|]. split.
  { eapply guar_intro; [done|apply HI2|done|done| |done]. intros j Hj. rewrite Hw1. cbn. split; congruence. }
  destruct Hs as [s Hs]. split; [exists s; by left|]. eapply HQ; [done|done|done|]. intros; by left.
Qed.

(** *** values *)
Lemma cwp_new_val i v w l (O : places) (Q : N -> world -> places -> Prop) : (exists s, O s) -> own i w l ->
  (forall w' h (O' : places), own i w' l -> wmu w' = wmu w -> h <> 0%N -> vals (wm w') !! h = Some v -> (forall s, O s -> O' s) -> Q h w' O') ->
  cwp i (output_to_raw v) w O Q.
Proof.
  intros Hs Ho HQ. apply cwp_step. intros w1 l1 HR1 HI1. destruct (own_rely _ _ _ _ _ HR1 Ho HI1) as (-> & Ho1 & Hm).
  pose proof (iv_vals _ _ _ HI1) as [Hn0 Hfr].
  assert (vals (wm w1) !! nxt (wm w1) = None) as Hfresh.
  { destruct (vals (wm w1) !! nxt (wm w1)) as [x|] eqn:E; [|done]. apply Hfr in E. lia. }
  set (m2 := mwith_nxt (nxt (wm w1) + 2) (mwith_vals (<[nxt (wm w1) := v]> (vals (wm w1))) (wm w1))).
  assert (vals (wm w1) ⊆ vals m2) as Hsub by (by apply insert_subseteq).
  exists (nxt (wm w1)), (mk_w m2 (wmu w1) (wow w1) (wowe w1)), l.
  assert (HI2 : Inv (mk_w m2 (wmu w1) (wow w1) (wowe w1)) l).
  { destruct HI1 as [A1 A2 A3 A4 A5 A6 A7 A8 A9 A10 A11 A12 A13 A14 A15]. split; try done.
    - intros s Hs'. destruct (A9 s Hs') as (k & h & v' & B1 & B2 & B3 & B4 & B5 & B6). exists k, h, v'.
      do 4 (split; [done|]). split; [|done]. by eapply lookup_weaken.
    - cbn. split; [lia|]. intros h v'. destruct (decide (h = nxt (wm w1))) as [->|Hne]; [lia|].
      rewrite lookup_insert_ne by done. intros H. apply Hfr in H. lia. }
  split; [done|]. split; [done|]. split.
  { eapply guar_same; try done. apply HI1. }
  destruct Hs as [s Hs]. split; [exists s; by left|]. destruct Ho1 as (_ & Ho1 & Ho2).
  apply HQ; [done|done|lia| |by left]. cbn. apply lookup_insert.
Qed.
Lemma cwp_retire i g w (O : places) (Q : unit -> world -> places -> Prop) : (exists s, O s) -> wow w <> Some i -> i ∉ wowe w ->
  (forall w' l' (O' : places), Inv w' l' -> wow w' <> Some i -> i ∉ wowe w' -> (forall s, O s -> O' s) -> Q tt w' O') ->
  cwp i (retire g) w O Q.
Proof.
  intros [s Hs] Hw Hi HQ. apply cwp_step. intros w1 l1 HR1 HI1.
  set (m2 := mwith_retired (g :: retired (wm w1)) (wm w1)). exists tt, (mk_w m2 (wmu w1) (wow w1) (wowe w1)), l1.
  assert (HI2 : Inv (mk_w m2 (wmu w1) (wow w1) (wowe w1)) l1) by (by destruct HI1; split).
  split; [done|]. split; [done|]. split; [eapply guar_same; try done; apply HI1|]. split; [exists s; by left|].
  eapply HQ; [done| | |by left]; cbn; [by rewrite <- (rl_own _ _ _ HR1)|by rewrite <- (rl_owe _ _ _ HR1)].
Qed.
Lemma cwp_inc i w (O : places) (Q : unit -> world -> places -> Prop) : (exists s, O s) -> wow w <> Some i -> i ∈ wowe w ->
  (forall w' l' (O' : places), Inv w' l' -> wow w' <> Some i -> i ∉ wowe w' -> (forall s, O s -> O' s) -> Q tt w' O') ->
  cwp i inc_count w O Q.
Proof.
  intros [s Hs] Hw Hi HQ. apply cwp_step. intros w1 l1 HR1 HI1.
  assert (i ∈ wowe w1) as Hi1 by (by apply (rl_owe _ _ _ HR1)).
  set (m2 := mwith_cnt (cnt (wm w1) + 1) (wm w1)). exists tt, (mk_w m2 (wmu w1) (wow w1) (wowe w1 ∖ {[i]})), l1.
  assert (HI2 : Inv (mk_w m2 (wmu w1) (wow w1) (wowe w1 ∖ {[i]})) l1).
  { destruct HI1 as [A1 A2 A3 A4 A5 A6 A7 A8 A9 A10 A11 A12 A13 A14 A15]. split; try done. cbn.
    assert (size (wowe w1) = S (size (wowe w1 ∖ {[i]}))) as E; [|lia].
    assert ({[i]} ⊆ wowe w1) as Hsub by set_solver. pose proof (size_difference (wowe w1) {[i]} Hsub) as E. rewrite size_singleton in E.
    assert (size (wowe w1) <> 0); [|lia]. apply size_non_empty_iff. set_solver. }
  split; [done|]. split; [done|]. split.
  { eapply guar_same; try done; [apply HI1|]. intros j Hj. cbn. set_solver. }
  split; [exists s; by left|].
  eapply HQ; [done| | |by left]; cbn; [by rewrite <- (rl_own _ _ _ HR1)|set_solver].
Qed.

(** *** filling a free slot *)
Lemma cwp_fill i w l l' s (f : leaf -> option (unit * leaf)) (O : places) (Q : unit -> world -> places -> Prop) : (exists s, O s) -> own i w l ->
  s ∉ active_slots (l_perm l) -> f l = Some (tt, l') ->
  l_ver l' = l_ver l -> l_perm l' = l_perm l -> l_next l' = l_next l -> l_prev l' = l_prev l -> l_parent l' = l_parent l ->
  length (l_ikey l') = 24 /\ length (l_klx l') = 24 /\ length (l_val l') = 24 ->
  (forall s', s' <> s -> l_ikey l' !! s' = l_ikey l !! s' /\ l_klx l' !! s' = l_klx l !! s' /\ l_val l' !! s' = l_val l !! s') ->
  (forall w' (O' : places), own i w' l' -> wmu w' = wmu w -> vals (wm w) ⊆ vals (wm w') -> (forall s, O s -> O' s) -> Q tt w' O') ->
  cwp i (leaf_up 2 f) w O Q.
Proof.
  intros [st Hs] Ho Hna Hf E1 E2 E3 E4 E5 E6 E7 HQ. apply cwp_step. intros w1 l1 HR1 HI1.
  destruct (own_rely _ _ _ _ _ HR1 Ho HI1) as (-> & Ho1 & Hm).
  assert (Hslot : forall s', s' ∈ active_slots (l_perm l) -> s' <> s) by (intros s' H ->; done).
  assert (Hhk : forall s' k, s' <> s -> has_key l s' k <-> has_key l' s' k).
  { intros s' k Hne. destruct (E7 s' Hne) as (F1 & F2 & _). unfold has_key. by rewrite F1, F2. }
  exists tt, (mk_w (set_leaf l' (wm w1)) (wmu w1) (wow w1) (wowe w1)), l'.
  assert (HI2 : Inv (mk_w (set_leaf l' (wm w1)) (wmu w1) (wow w1) (wowe w1)) l').
  { destruct HI1 as [A1 A2 A3 A4 A5 A6 A7 A8 A9 A10 A11 A12 A13 A14 A15]. split; rewrite ?E1, ?E2, ?E3, ?E4, ?E5; try done.
    - unfold lf. cbn. by rewrite lookup_insert.
    - intros s' Hs'. destruct (A9 s' Hs') as (k & h & v & B1 & B2 & B3 & B4 & B5 & B6). exists k, h, v.
      split; [done|]. split; [apply Hhk; [by apply Hslot|done]|]. split; [|done].
      destruct (E7 s' (Hslot _ Hs')) as (_ & _ & ->). done.
    - intros k v Hk. destruct (A10 k v Hk) as (B0 & s' & B1 & B2). split; [done|]. exists s'. split; [done|]. apply Hhk; [by apply Hslot|done].
    - intros s1 s2 k B1 B2 B3 B4. apply (A11 s1 s2 k); try done; apply Hhk; try done; by apply Hslot.
    - intros a b s1 s2 x1 x2 Hab B1 B2. 
      destruct (E7 s1) as (-> & _ & _); [apply Hslot; by eapply elem_of_list_lookup_2|].
      destruct (E7 s2) as (-> & _ & _); [apply Hslot; by eapply elem_of_list_lookup_2|]. by apply (A12 a b). }
  split. { pose proof (iv_lf _ _ _ HI1) as Hl. unfold lf in Hl. by rewrite Hl, Hf. }
  split; [done|]. destruct Ho1 as (_ & Ho1 & Ho2). split.
  { eapply guar_intro; [done|apply HI2| |done| |done].
    - rewrite E2. intros s' Hs'. split; [done|]. intros k. apply Hhk. by apply Hslot.
    - cbn. intros j Hj. rewrite Ho1. split; congruence. }
  split; [exists st; by left|]. apply HQ; [done|done|apply HR1|by left].
Qed.

(** *** search *)
Definition found (l : leaf) (kb : bytes) (r : ins_search) : Prop :=
  let a := active_slots (l_perm l) in
  match r with
  | Found s => s ∈ a /\ has_key l s kb
  | NotFound pos => pos <= length a /\ (forall s, s ∈ a -> ~ has_key l s kb) /\
      forall j s x, a !! j = Some s -> l_ikey l !! s = Some x -> (j < pos -> (x <= kik kb)%N) /\ (pos <= j -> (kik kb <= x)%N)
  | _ => False
  end.
Lemma reads_search i kb w l (O : places) : length kb <= 8 -> is_bytes kb -> (exists s, O s) -> own i w l ->
  reads i (search_for_insert 2 (l_perm l) (kpos kb 0)) w O (fun r w' l' _ => found l kb r).
Proof.
  intros H8 Hb Hs Ho. unfold search_for_insert. 
  assert (Hgen : forall slots n, drop n (active_slots (l_perm l)) = slots -> n <= length (active_slots (l_perm l)) ->
    (forall j s x, j < n -> active_slots (l_perm l) !! j = Some s -> l_ikey l !! s = Some x -> (x <= kik kb)%N) ->
    (forall j s, j < n -> active_slots (l_perm l) !! j = Some s -> ~ has_key l s kb) ->
    forall w (O : places), (exists s, O s) -> own i w l -> reads i (search_slots 2 (kpos kb 0) n slots) w O (fun r w' l' _ => found l kb r)).
  2:{ apply (Hgen (active_slots (l_perm l)) 0); try done; lia. }
  clear w O Hs Ho. induction slots as [|s slots IH]; intros n Hd Hn Hlow Hnk w O Hs Ho; cbn [search_slots].
  { assert (n = length (active_slots (l_perm l))) as ->.
    { apply (f_equal length) in Hd. rewrite drop_length in Hd. cbn in Hd. lia. }
    eapply reads_ret; [apply Ho|]. split; [done|]. split.
    - intros s [j Hj]%elem_of_list_lookup_1. apply (Hnk j); [|done]. by eapply lookup_lt_Some.
    - intros j s x Hj Hx. pose proof (lookup_lt_Some _ _ _ Hj). split; [|lia]. intros _. by eapply Hlow. }
  assert (Hsn : active_slots (l_perm l) !! n = Some s).
  { rewrite <- (Nat.add_0_r n), <- lookup_drop, Hd. done. }
  assert (Hd' : drop (n + 1) (active_slots (l_perm l)) = slots).
  { rewrite <- drop_drop, Hd. done. }
  pose proof (lookup_lt_Some _ _ _ Hsn) as Hlt.
  assert (Hsa : s ∈ active_slots (l_perm l)) by (by eapply elem_of_list_lookup_2).
  destruct (iv_act _ _ _ (proj1 Ho) s Hsa) as (k & h & v & Hk & Hh & Hval & Hnz & Hv & Hmu).
  destruct (K_in K HK k Hk) as [Hk8 Hkb].
  assert (Hrec : (kik k <= kik kb)%N -> ~ has_key l s kb -> forall w (O : places), (exists s, O s) -> own i w l ->
    reads i (search_slots 2 (kpos kb 0) (n + 1) slots) w O (fun r w' l' _ => found l kb r)).
  { intros Hle Hnh. apply IH; [done|lia| |].
    - intros j s' x Hj Hs' Hx. destruct (decide (j = n)) as [->|]; [|apply (Hlow j s'); [lia|done..]].
      assert (s' = s) as -> by congruence. destruct Hh as [E _]. congruence.
    - intros j s' Hj Hs'. destruct (decide (j = n)) as [->|]; [|apply (Hnk j s'); [lia|done..]]. congruence. }
  assert (Hnext : ~ has_key l s kb -> forall w (O : places), (exists s, O s) -> own i w l ->
    reads i (if (k_ikey (kpos kb 0) <? kik k)%N then Ret (NotFound n) else search_slots 2 (kpos kb 0) (n + 1) slots) w O (fun r w' l' _ => found l kb r)).
  { intros Hnh w' O' Hs' Ho'. change (k_ikey (kpos kb 0)) with (kik kb).
    destruct (N.ltb_spec (kik kb) (kik k)) as [Hl|Hge]; [|apply Hrec; try done; lia].
    eapply reads_ret; [apply Ho'|]. split; [lia|].
    assert (Hup : forall j s' x, n <= j -> active_slots (l_perm l) !! j = Some s' -> l_ikey l !! s' = Some x -> (kik kb < x)%N).
    { intros j s' x Hj Hs2 Hx. destruct (decide (j = n)) as [->|].
      - assert (s' = s) as -> by congruence. destruct Hh as [E _]. assert (x = kik k) by congruence. lia.
      - destruct Hh as [E _]. pose proof (iv_sort _ _ _ (proj1 Ho) n j s s' (kik k) x ltac:(lia) Hsn Hs2 E Hx). lia. }
    split.
    - intros s' Hs2 Hh'. apply elem_of_list_lookup_1 in Hs2 as [j Hj]. destruct (decide (j < n)) as [Hjn|Hjn].
      + by eapply (Hnk j s').
      + pose proof (Hup j s' (kik kb) ltac:(lia) Hj ltac:(apply Hh')). lia.
    - intros j s' x Hj Hx. split; [intros; by eapply Hlow|]. intros Hnj. pose proof (Hup j s' x Hnj Hj Hx). lia. }
  eapply reads_bind.
  { apply (reads_leaf K i _ w O (fun r w' l' _ => r = kik k /\ own i w' l)); [done|]. intros w' l' HR HI'.
    destruct (own_rely _ _ _ _ _ HR Ho HI') as (-> & Ho' & _). exists (kik k). split; [apply Hh|done]. }
  intros r w1 l1 O1 HR1 HI1 HO1 [-> Ho1]. assert (exists s, O1 s) as Hs1 by (by eapply mono_ex).
  cbv zeta. change (k_ikey (kpos kb 0)) with (kik kb) in *.
  destruct (N.eqb_spec (kik k) (kik kb)) as [He|Hne].
  2:{ apply Hnext; [|done|done]. intros [E _]. destruct Hh as [E' _]. congruence. }
  eapply reads_bind.
  { apply (reads_leaf K i _ w1 O1 (fun r w' l' _ => r = N.of_nat (length k) /\ own i w' l)); [done|]. intros w' l' HR HI'.
    destruct (own_rely _ _ _ _ _ HR Ho1 HI') as (-> & Ho' & _). exists (N.of_nat (length k)). split; [apply Hh|done]. }
  intros r w2 l2 O2 HR2 HI2 HO2 [-> Ho2]. assert (exists s, O2 s) as Hs2 by (by eapply mono_ex).
  eapply reads_bind.
  { apply (reads_leaf K i _ w2 O2 (fun r w' l' _ => r = h /\ own i w' l)); [done|]. intros w' l' HR HI'.
    destruct (own_rely _ _ _ _ _ HR Ho2 HI') as (-> & Ho' & _). exists h. done. }
  intros r w3 l3 O3 HR3 HI3 HO3 [-> Ho3]. assert (exists s, O3 s) as Hs3 by (by eapply mono_ex).
  apply N.eqb_neq in Hnz. rewrite Hnz.
  assert (LAYER_KEYLENX <=? N.of_nat (length k) = false)%N as -> by (apply N.leb_gt; unfold LAYER_KEYLENX; lia).
  assert (N.of_nat (length k) =? KSUF_KEYLENX = false)%N as -> by (apply N.eqb_neq; unfold KSUF_KEYLENX; lia).
  cbn [andb]. unfold search_keylenx. rewrite has_suffix_pos, current_len_pos. cbn [Nat.mul]. change (drop 0 kb) with kb.
  destruct (Nat.ltb_spec 8 (length kb)); [lia|].
  destruct (N.eqb_spec (N.of_nat (length k)) (N.of_nat (length kb))) as [El|Nl].
  - assert (k = kb) as -> by (apply key_same; try done; lia). eapply reads_ret; [done|]. by split.
  - apply Hnext; [|done|done]. intros [_ E]. destruct Hh as [_ E']. rewrite E' in E. injection E. lia.
Qed.
End K.
