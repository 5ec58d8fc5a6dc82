(** Concurrent executions on the whole tree: splitting a leaf. *)
From Verif Require Import Base Perm PermFacts PermList PermLaws SpecPerm Key SpecKey KeyFacts Prog Version VersionFacts Mem Tree
  SpecTree TreeState TreeRead SpecLin Suffix SpecSuffix SuffixFacts Conc ConcStep ConcRules ConcRead ConcPar ConcMem ConcAlloc ConcOwn ConcBag ConcLeaf ConcIns ConcInode ConcProp ConcUp.
From Verif Require LinInsert TreeSplit.

(** ** choosing the position *)
Lemma actv_get l j : j < perm_size (l_perm l) -> actv l !! j = Some (perm_get (l_perm l) j).
Proof. intros H. unfold actv, active_slots. rewrite list_lookup_fmap, lookup_seq_lt by done. done. Qed.
Section Choose.
Context (i : nat) (σ : ls) (p : N) (l : leaf) (w0 : world) (A0 : At i σ w0) (Hp : nl σ !! p = Some (NLeaf l)).
Context (Hg : leaf_good l) (Hsp : spl l = false) (H23 : 23 <= perm_size (l_perm l)).
Local Notation sz := (perm_size (l_perm l)).

Lemma ent j : j < sz -> exists k, has_key l (perm_get (l_perm l) j) k.
Proof.
  intros Hj. pose proof (at_leaf_ok _ _ _ _ _ A0 Hp) as Hok.
  destruct (slot_key w0 l (perm_get (l_perm l) j) (at_inv _ _ _ A0)) as (k & v & h & Hh & _).
  - apply (lo_tag _ _ _ Hok (lo_frz _ _ _ Hok Hsp)). eapply elem_of_list_lookup_2. by apply actv_get.
  - by exists k.
Qed.
Definition ikp (j : nat) (x : N) : Prop := l_ikey l !! perm_get (l_perm l) j = Some x.
Lemma ikp_ex j : j < sz -> exists x, ikp j x.
Proof. intros Hj. destruct (ent j Hj) as (k & [H _]). by exists (kik k). Qed.
Lemma sz24 : sz <= 24.
Proof. rewrite <- ids_len. apply ids_size, Hg. Qed.
(** at most ten entries share a slice *)
Definition klxn (x : N) : nat := if decide (x <= 8)%N then N.to_nat x else 9.
Lemma klxn_inj k k' : klxn (kklx k) = klxn (kklx k') -> kklx k = kklx k'.
Proof. unfold klxn, kklx, KSUF_KEYLENX. repeat case_match; lia. Qed.
Lemma klxn_lt x : klxn x < 10.
Proof. unfold klxn. case_decide; lia. Qed.
Lemma group10 a b x : b < sz -> (forall j, a <= j <= b -> ikp j x) -> b < a + 10.
Proof.
  intros Hb Hx. destruct (decide (b < a + 10)) as [|Hge]; [done|exfalso].
  set (f := fun j => match l_klx l !! perm_get (l_perm l) (a + j) with Some y => klxn y | None => 0 end).
  assert (Hf : forall j, j < 11 -> exists k, has_key l (perm_get (l_perm l) (a + j)) k /\ f j = klxn (kklx k)).
  { intros j Hj. destruct (ent (a + j)) as (k & Hk); [lia|]. exists k. split; [done|]. unfold f. by destruct Hk as [_ ->]. }
  assert (Hnd : NoDup (map f (seq 0 11))).
  { apply NoDup_alt. intros u v y Hu Hv. rewrite list_lookup_fmap in Hu, Hv.
    destruct (seq 0 11 !! u) as [u'|] eqn:E1; [|done]. destruct (seq 0 11 !! v) as [v'|] eqn:E2; [|done].
    apply lookup_seq in E1 as [-> Hu']. apply lookup_seq in E2 as [-> Hv']. cbn [Nat.add] in *.
    destruct (Hf u Hu') as (k1 & K1 & F1). destruct (Hf v Hv') as (k2 & K2 & F2).
    assert (F : f u = f v) by (cbn in Hu, Hv; congruence).
    assert (perm_get (l_perm l) (a + u) = perm_get (l_perm l) (a + v)) as E.
    { apply (lg_uniq _ Hg _ _ k1).
      - eapply elem_of_list_lookup_2, actv_get. lia.
      - eapply elem_of_list_lookup_2, actv_get. lia.
      - done.
      - pose proof (Hx (a + u) ltac:(lia)) as X1. pose proof (Hx (a + v) ltac:(lia)) as X2. unfold ikp in *.
        destruct K1 as [K1 _], K2 as [K2 K3]. split; [congruence|]. rewrite K3. f_equal. apply klxn_inj. congruence. }
    assert (a + u = a + v); [|lia]. eapply (NoDup_lookup (actv l)); [apply ids_nodup, Hg|apply actv_get; lia|]. rewrite E. apply actv_get. lia. }
  assert (Hsub : map f (seq 0 11) ⊆+ seq 0 10).
  { apply NoDup_submseteq; [done|]. intros y Hy. apply elem_of_list_lookup in Hy as [u Hu]. rewrite list_lookup_fmap in Hu.
    destruct (seq 0 11 !! u) as [u'|] eqn:E1; [|done]. apply lookup_seq in E1 as [-> Hu']. cbn [Nat.add] in *.
    destruct (Hf u Hu') as (k1 & _ & F1). cbn in Hu. injection Hu as <-. apply elem_of_seq. rewrite F1. pose proof (klxn_lt (kklx k1)). lia. }
  apply submseteq_length in Hsub. rewrite map_length, !seq_length in Hsub. lia.
Qed.

Lemma cwp_ik j x w (Q : N -> world -> Prop) : At i σ w -> ikp j x -> (forall w', At i σ w' -> Rely i w w' -> Q x w') ->
  cwp i (ikey p (perm_get (l_perm l) j)) w Q.
Proof. intros A Hx HQ. eapply cwp_rleaf; [exact A|exact Hp|intros pv pa; exact Hx|done]. Qed.

Lemma cwp_adjust_down ik x (Q : nat -> world -> Prop) : (ik < x)%N ->
  forall n pos w, At i σ w -> pos <= n -> 1 < pos <= sz / 2 -> (forall j, pos <= j <= sz / 2 -> ikp j x) ->
  (forall pos' w', 0 < pos' < sz -> At i σ w' -> Rely i w w' -> Q pos' w') -> cwp i (adjust_split false n p (l_perm l) ik sz pos) w Q.
Proof.
  intros Hc. assert (Hm : sz / 2 = 11 \/ sz / 2 = 12).
  { pose proof sz24. assert (sz = 23 \/ sz = 24) as [-> | ->] by lia; [left|right]; reflexivity. }
  induction n as [|n IH]; intros pos w A Hn Hpos Hall HQ; [lia|]. cbn [adjust_split].
  destruct (Nat.ltb_spec 0 pos); [|lia]. destruct (Nat.ltb_spec pos sz); [|lia]. cbn [andb].
  destruct (ikp_ex (pos - 1)) as [y Hy]; [lia|]. pose proof (Hall pos ltac:(lia)) as Hx.
  apply cwp_bind. eapply cwp_ik; [exact A|exact Hy|]. intros w1 A1 R1. apply cwp_bind. eapply cwp_ik; [exact A1|exact Hx|]. intros w2 A2 R2.
  assert (Rely i w w2) as R by (by eapply rely_trans).
  destruct (N.eqb_spec y x) as [->|E].
  - assert (Hall' : forall j, pos - 1 <= j <= sz / 2 -> ikp j x).
    { intros j Hj. destruct (decide (j = pos - 1)) as [->|]; [done|]. apply Hall. lia. }
    pose proof (group10 (pos - 1) (sz / 2) x ltac:(lia) Hall').
    destruct (N.compare_spec ik x); [lia| |lia]. apply IH; [done|lia|lia|done|]. intros pos' w' Y1 Y2 Y3. apply HQ; [done|done|by eapply rely_trans].
  - apply cwp_ret, HQ; [lia|done|done].
Qed.
Lemma cwp_adjust_up ik (Q : nat -> world -> Prop) : forall n pos w, At i σ w -> sz <= n + pos -> sz / 2 < pos < sz ->
  (forall j, sz / 2 - 1 <= j <= pos - 1 -> ikp j ik) ->
  (forall pos' w', 0 < pos' < sz -> At i σ w' -> Rely i w w' -> Q pos' w') -> cwp i (adjust_split false n p (l_perm l) ik sz pos) w Q.
Proof.
  assert (Hm : sz / 2 = 11 \/ sz / 2 = 12).
  { pose proof sz24. assert (sz = 23 \/ sz = 24) as [-> | ->] by lia; [left|right]; reflexivity. }
  induction n as [|n IH]; intros pos w A Hn Hpos Hall HQ; [lia|]. cbn [adjust_split].
  destruct (Nat.ltb_spec 0 pos); [|lia]. destruct (Nat.ltb_spec pos sz); [|lia]. cbn [andb].
  destruct (ikp_ex pos) as [y Hy]; [lia|]. pose proof (Hall (pos - 1) ltac:(lia)) as Hx.
  apply cwp_bind. eapply cwp_ik; [exact A|exact Hx|]. intros w1 A1 R1. apply cwp_bind. eapply cwp_ik; [exact A1|exact Hy|]. intros w2 A2 R2.
  assert (Rely i w w2) as R by (by eapply rely_trans).
  destruct (N.eqb_spec ik y) as [<-|E].
  - assert (Hall' : forall j, sz / 2 - 1 <= j <= pos -> ikp j ik).
    { intros j Hj. destruct (decide (j = pos)) as [->|]; [done|]. apply Hall. lia. }
    pose proof (group10 (sz / 2 - 1) pos ik ltac:(lia) Hall'). rewrite N.compare_refl.
    apply IH; [done|lia|lia| |]. 
    + intros j Hj. apply Hall'. lia.
    + intros pos' w' Y1 Y2 Y3. apply HQ; [done|done|by eapply rely_trans].
  - apply cwp_ret, HQ; [lia|done|done].
Qed.
(** leaf24.rs:1185-1244: a full leaf always has a split position *)
Lemma cwp_split_point ik (Q : option nat -> world -> Prop) :
  (forall pos w', 0 < pos < sz -> At i σ w' -> Rely i w0 w' -> Q (Some pos) w') -> cwp i (calculate_split_point false p ik) w0 Q.
Proof.
  intros HQ. unfold calculate_split_point. apply cwp_bind. eapply (cwp_rleaf _ σ _ _ _ _ (l_perm l)); [exact A0|exact Hp|done|]. intros w1 A1 R1.
  cbv zeta. assert (Hm : sz / 2 = 11 \/ sz / 2 = 12).
  { pose proof sz24. assert (sz = 23 \/ sz = 24) as [-> | ->] by lia; [left|right]; reflexivity. }
  destruct (Nat.eqb_spec sz 0); [lia|]. destruct (Nat.eqb_spec (sz / 2) 0); [lia|]. cbn [orb]. apply cwp_bind.
  assert (Hend : forall pos w', 0 < pos < sz -> At i σ w' -> Rely i w1 w' -> cwp i (if Nat.eqb pos 0 || Nat.leb sz pos then Ret None
    else ikey p (perm_get (l_perm l) pos) ;;; Ret (Some pos)) w' Q).
  { intros pos w' Hb A2 R2. destruct (Nat.eqb_spec pos 0); [lia|]. destruct (Nat.leb_spec sz pos); [lia|].
    cbn [orb]. destruct (ikp_ex pos) as [e He]; [lia|]. apply cwp_bind. eapply cwp_ik; [exact A2|exact He|]. intros w3 A3 R3.
    apply cwp_ret, HQ; [done|done|]. eapply rely_trans; [exact R1|]. by eapply rely_trans. }
  pose proof (TreeSplit.adjust_S false p (sz - 1) (l_perm l) ik sz (sz / 2)) as EA. replace (S (sz - 1)) with sz in EA by lia. rewrite EA. clear EA.
  destruct (Nat.ltb_spec 0 (sz / 2)); [|lia]. destruct (Nat.ltb_spec (sz / 2) sz); [|lia]. cbn [andb].
  destruct (ikp_ex (sz / 2 - 1)) as [x Hx]; [lia|]. destruct (ikp_ex (sz / 2)) as [y Hy]; [lia|].
  apply cwp_bind. eapply cwp_ik; [exact A1|exact Hx|]. intros w2 A2 R2. apply cwp_bind. eapply cwp_ik; [exact A2|exact Hy|]. intros w3 A3 R3.
  assert (Rely i w1 w3) as R by (by eapply rely_trans).
  destruct (N.eqb_spec x y) as [->|E].
  - destruct (N.compare_spec ik y) as [Hc|Hc|Hc].
    + subst ik. apply cwp_adjust_up; [done|lia|lia| |].
      * intros j Hj. assert (j = sz / 2 - 1 \/ j = sz / 2) as [-> | ->] by lia; done.
      * intros pos' w' Y1 Y2 Y3. apply Hend; [done|done|by eapply rely_trans].
    + eapply (cwp_adjust_down ik y); [done|done|lia|lia| |].
      * intros j Hj. assert (j = sz / 2 - 1 \/ j = sz / 2) as [-> | ->] by lia; done.
      * intros pos' w' Y1 Y2 Y3. apply Hend; [done|done|by eapply rely_trans].
    + apply cwp_ret, Hend; [lia|done|done].
  - apply cwp_ret, Hend; [lia|done|done].
Qed.
End Choose.

(** ** moving the entries *)
Section Sp.
Context (i : nat) (w0 : world) (un : gset N) (pe : gmap N (list N)) (tp zs : gset N).
Notation A nl hs w := (Aw i w0 (L nl hs un ∅ ∅ pe tp zs) w).
(** a locked leaf that is being split *)
Definition split_locked (l : leaf) : Prop := spl l = true /\ v_is_locked (l_ver l) = true.
Lemma aw_wleaf {R} nl hs w p l l2 (f : leaf -> option (R * leaf)) r (Q : R -> world -> Prop) :
  A nl hs w -> nl !! p = Some (NLeaf l) -> split_locked l -> l_ver l2 = l_ver l -> l_val l2 = l_val l -> l_ksuf l2 = l_ksuf l ->
  length (l_ikey l2) = 24 -> length (l_klx l2) = 24 -> (forall s x, l_klx l2 !! s = Some x -> (x <= 8)%N \/ x = KSUF_KEYLENX) ->
  ptr_ok w 0 (unmark_ptr (l_next l2)) -> (is_frozen (l_perm l2) = false -> p_wf P24 (l_perm l2)) ->
  (forall pv pa, f (with_prev pv (with_parent pa l)) = Some (r, with_prev pv (with_parent pa l2))) ->
  (forall w1, Mono w w1 -> same_bags nl w w1 -> leaf_ok w1 p l -> is_frozen (l_perm l2) = false -> forall s, s ∈ actv l2 -> slot_ok w1 l2 s) ->
  (forall w', A (<[p := NLeaf l2]> nl) hs w' -> Mono w w' -> same_bags nl w w' -> Q r w') -> cwp i (leaf_up p f) w Q.
Proof.
  intros [A0 M0] Hp [Hs Hl] E1 E2 E3 L1 L2 Hk Hn Hpm Hf Hso HQ.
  eapply (cwp_wleaf_r i nl hs un ∅ ∅ pe tp zs w p l l2); [exact A0|done|apply not_elem_of_empty|by right|done|done| |].
  - intros w1 R1 Hsb1 A1 Hok. specialize (Hso w1 (rl_mono _ _ _ R1) Hsb1 Hok). destruct Hok as [B1 B2 B3 B4 B5 B6 B7 B8 B9 B10 B11]. unfold spl in *. split; unfold spl; rewrite ?E1, ?E2, ?E3, ?Hs; try done.
    + split; [done|]. split; [done|apply B1].
    + eapply ptr_ok_mono; [apply R1|done].
  - intros w' A1 M1 Hsb. apply HQ; [|done|done]. split; [done|by eapply mono_trans].
Qed.
Lemma aw_rleaf {R} nl hs w p l (f : leaf -> option R) r (Q : R -> world -> Prop) : A nl hs w -> nl !! p = Some (NLeaf l) ->
  (forall pv pa, f (with_prev pv (with_parent pa l)) = Some r) -> (forall w', A nl hs w' -> Rely i w w' -> Q r w') -> cwp i (leaf_ld p f) w Q.
Proof.
  intros [A0 M0] Hp Hf HQ. eapply cwp_rleaf; [exact A0|exact Hp|exact Hf|]. intros w' A1 R1. apply HQ; [|done]. split; [done|].
  eapply mono_trans; [exact M0|apply R1].
Qed.
Lemma aw_ok nl hs w p l : A nl hs w -> nl !! p = Some (NLeaf l) -> leaf_ok w p l.
Proof. intros [A0 _] Hp. by apply (at_leaf_ok _ _ _ _ _ A0). Qed.
Lemma aw_set_perm nl hs w p l v (Q : unit -> world -> Prop) : A nl hs w -> nl !! p = Some (NLeaf l) -> split_locked l -> (is_frozen v = false -> p_wf P24 v) ->
  (forall w1, Mono w w1 -> same_bags nl w w1 -> forall s, s ∈ active_slots v -> slot_ok w1 (with_perm v l) s) ->
  (forall w', A (<[p := NLeaf (with_perm v l)]> nl) hs w' -> Mono w w' -> same_bags nl w w' -> Q tt w') -> cwp i (set_permutation p v) w Q.
Proof.
  intros A0 Hp Hl Hv Hso HQ. destruct (aw_ok _ _ _ _ _ A0 Hp) as [(B1 & B1' & _) B2 B3 B4 B5 B6 B7 B8 B9 B10 B11].
  eapply aw_wleaf; [exact A0|exact Hp|done| | | | | | | | | | |exact HQ]; try done. intros w1 M1 Hsb _ _ s Hs. by apply Hso.
Qed.
Lemma aw_set_next nl hs w p l v (Q : unit -> world -> Prop) : A nl hs w -> nl !! p = Some (NLeaf l) -> split_locked l -> ptr_ok w 0 (unmark_ptr v) ->
  (forall w', A (<[p := NLeaf (with_next v l)]> nl) hs w' -> Mono w w' -> Q tt w') -> cwp i (set_next p v) w Q.
Proof.
  intros A0 Hp Hl Hv HQ. destruct (aw_ok _ _ _ _ _ A0 Hp) as [(B1 & B1' & _) B2 B3 B4 B5 B6 B7 B8 B9 B10 B11].
  eapply (aw_wleaf nl hs w p l (with_next v l)); [exact A0|exact Hp|done| | | | | | | | | | |intros w' A1 M1 _; by apply HQ]; try done.
  intros w1 M1 _ Hok Hf s Hs. eapply (slot_ok_eq w1); [..|exact (lo_tag _ _ _ Hok Hf s Hs)]; done.
Qed.
Lemma aw_set_ikey nl hs w p l s v (Q : unit -> world -> Prop) : A nl hs w -> nl !! p = Some (NLeaf l) -> split_locked l -> s < 24 ->
  (is_frozen (l_perm l) = false -> s ∉ actv l) ->
  (forall w', A (<[p := NLeaf (with_ikey (<[s := v]> (l_ikey l)) l)]> nl) hs w' -> Mono w w' -> same_bags nl w w' -> Q tt w') -> cwp i (set_ikey p s v) w Q.
Proof.
  intros A0 Hp Hl Hv Hq HQ. destruct (aw_ok _ _ _ _ _ A0 Hp) as [(B1 & B1' & _) B2 B3 B4 B5 B6 B7 B8 B9 B10 B11].
  eapply (aw_wleaf nl hs w p l (with_ikey (<[s := v]> (l_ikey l)) l)); [exact A0|exact Hp|done| | | | | | | | | | |exact HQ]; try done.
  - cbn. by rewrite insert_length.
  - intros pv pa. cbn [l_ikey with_prev with_parent]. by rewrite LinInsert.list_set_at by lia.
  - intros w1 M1 _ Hok Hf s' Hs'. eapply (slot_ok_eq w1); [..|exact (lo_tag _ _ _ Hok Hf s' Hs')]; try done. cbn. rewrite list_lookup_insert_ne; [done|].
    intros ->. by apply (Hq Hf).
Qed.
Lemma aw_set_klx nl hs w p l s v (Q : unit -> world -> Prop) : A nl hs w -> nl !! p = Some (NLeaf l) -> split_locked l -> s < 24 -> (v <= 8)%N \/ v = KSUF_KEYLENX ->
  (is_frozen (l_perm l) = false -> s ∉ actv l) ->
  (forall w', A (<[p := NLeaf (with_klx (<[s := v]> (l_klx l)) l)]> nl) hs w' -> Mono w w' -> same_bags nl w w' -> Q tt w') -> cwp i (set_keylenx p s v) w Q.
Proof.
  intros [A0 M0] Hp [_ Hl] Hs H8 Hq HQ. eapply (cwp_set_klx i nl hs un ∅ ∅ pe tp zs w p l s v); [exact A0|done|apply not_elem_of_empty|by right|done|done|done|].
  intros w' A1 M1 Hsb. apply HQ; [|done|done]. split; [done|by eapply mono_trans].
Qed.
Lemma frame_vals {R} p (f : leaf -> option (R * leaf)) b : bag_frame (fun m => match heap m !! p with
  | Some (NLeaf l) => match f l with Some (r, l') => Ok (r, mwith_heap (<[p := NLeaf l']> (heap m)) m) | None => Er Panic end
  | _ => Er UB end) b.
Proof. apply frame_leaf_up. Qed.
(** a value moves out of a slot, and into one *)
Lemma aw_take nl w p l s h (Q : N -> world -> Prop) : A nl ∅ w -> nl !! p = Some (NLeaf l) -> is_frozen (l_perm l) = true -> l_val l !! s = Some h -> h <> 0%N ->
  (forall w', A (<[p := NLeaf (with_val (<[s := 0%N]> (l_val l)) l)]> nl) {[h]} w' -> Mono w w' -> same_bags nl w w' -> Q h w') -> cwp i (take_val_ptr p s) w Q.
Proof.
  intros [A0 M0] Hp Hfr Hh Hz HQ. pose proof (lookup_lt_Some _ _ _ Hh). unfold take_val_ptr, leaf_up.
  eapply (cwp_same_at i); [exact A0|intros b; apply frame_leaf_up|].
  eapply (cwp_swap i nl ∅ un ∅ ∅ pe tp zs w p l s 0 h); [exact A0|exact Hp|exact Hh|by left| | |].
  - intros m pv pa E. rewrite E. cbn [rep with_prev with_parent l_val]. rewrite Hh. cbn [mbind option_bind]. by rewrite LinInsert.list_set_at by done.
  - intros w1 _ _ H0. congruence.
  - intros w' A1 M1 Hsb. apply HQ; [|done|done]. split; [|by eapply mono_trans]. unfold hmove in A1. rewrite decide_False in A1 by done.
    by replace ((∅ ∖ {[0%N]}) ∪ {[h]} : gset N) with ({[h]} : gset N) in A1 by set_solver.
Qed.
Lemma aw_put nl w p l s h (Q : unit -> world -> Prop) : A nl {[h]} w -> nl !! p = Some (NLeaf l) -> s ∉ actv l -> l_val l !! s = Some 0%N -> is_Some (wtag w !! h) ->
  (forall w', A (<[p := NLeaf (with_val (<[s := h]> (l_val l)) l)]> nl) ∅ w' -> Mono w w' -> same_bags nl w w' -> Q tt w') -> cwp i (set_val_ptr p s h) w Q.
Proof.
  intros [A0 M0] Hp Hna Hh Htg HQ. pose proof (lookup_lt_Some _ _ _ Hh). unfold set_val_ptr, leaf_up.
  eapply (cwp_same_at i); [exact A0|intros b; apply frame_leaf_up|].
  eapply (cwp_swap i nl {[h]} un ∅ ∅ pe tp zs w p l s h 0); [exact A0|exact Hp|exact Hh|right; split; [by apply elem_of_singleton|done]| | |].
  - intros m pv pa E. rewrite E. cbn [rep with_prev with_parent l_val]. by rewrite LinInsert.list_set_at by done.
  - intros w1 _ _ _ H0. done.
  - intros w' A1 M1 Hsb. apply HQ; [|done|done]. split; [|by eapply mono_trans]. unfold hmove in A1. rewrite decide_True in A1 by done.
    by replace (({[h]} ∖ {[h]}) ∪ ∅ : gset N) with (∅ : gset N) in A1 by set_solver.
Qed.

Context (p q : N) (Hne : p <> q) (l lq : leaf) (perm : N) (pos : nat) (Hwf : p_wf P24 perm) (Sx : nat -> option bytes).
Local Notation gone a := (take a (drop pos (active_slots perm))).
Record moved_from (a : nat) (w : world) (l' : leaf) : Prop := {
  mf_ver : l_ver l' = l_ver l; mf_perm : l_perm l' = l_perm l; mf_ikey : l_ikey l' = l_ikey l; mf_next : l_next l' = l_next l;
  mf_klx : forall s, s ∈ active_slots perm -> s ∉ gone a -> l_klx l' !! s = l_klx l !! s;
  mf_sfx : forall s, s ∈ active_slots perm -> s ∉ gone a -> sfx w l' s = Sx s;
  mf_val : forall s, s < 24 -> l_val l' !! s = if decide (s ∈ gone a) then Some 0%N else l_val l !! s }.
Record moved_to (a : nat) (w : world) (l' : leaf) : Prop := {
  mt_ver : l_ver l' = l_ver lq; mt_perm : l_perm l' = l_perm lq; mt_next : l_next l' = l_next lq;
  mt_ent : forall j s, j < a -> active_slots perm !! (pos + j) = Some s ->
    l_ikey l' !! j = l_ikey l !! s /\ l_klx l' !! j = l_klx l !! s /\ l_val l' !! j = l_val l !! s /\ (l_klx l !! s = Some KSUF_KEYLENX -> sfx w l' j = Sx s);
  mt_bag : forall bg, bags (wm w) !! l_ksuf l' = Some bg -> exists mm, bag_inv 24 (248 * N.of_nat a) bg mm;
  mt_free : forall j, a <= j < 24 -> l_val l' !! j = Some 0%N }.
Definition moving (a : nat) (w : world) : Prop := exists l1 l2, A (<[p := NLeaf l1]> (<[q := NLeaf l2]> ∅)) ∅ w /\ moved_from a w l1 /\ moved_to a w l2.

Lemma set_p (n1 n1' n2 : node) : <[p := n1']> (<[p := n1]> (<[q := n2]> (∅ : gmap N node))) = <[p := n1']> (<[q := n2]> ∅).
Proof. apply insert_insert. Qed.
Lemma set_q (n1 n2 n2' : node) : <[q := n2']> (<[p := n1]> (<[q := n2]> (∅ : gmap N node))) = <[p := n1]> (<[q := n2']> ∅).
Proof. rewrite insert_commute by done. by rewrite insert_insert. Qed.
Lemma at_p (n1 n2 : node) : <[p := n1]> (<[q := n2]> (∅ : gmap N node)) !! p = Some n1. Proof. apply lookup_insert. Qed.
Lemma at_q (n1 n2 : node) : <[p := n1]> (<[q := n2]> (∅ : gmap N node)) !! q = Some n2. Proof. rewrite lookup_insert_ne by done. apply lookup_insert. Qed.

Definition two_bags (b1 b2 : N) (B1 B2 : option bag) (w : world) : Prop := bags (wm w) !! b1 = B1 /\ bags (wm w) !! b2 = B2.
Lemma two_step l1 l2 B1 B2 w w' : same_bags (<[p := NLeaf l1]> (<[q := NLeaf l2]> ∅)) w w' ->
  two_bags (l_ksuf l1) (l_ksuf l2) B1 B2 w -> two_bags (l_ksuf l1) (l_ksuf l2) B1 B2 w'.
Proof. intros H [E1 E2]. split; [rewrite (H p l1 (at_p _ _))|rewrite (H q l2 (at_q _ _))]; done. Qed.
Lemma two_rely l1 l2 B1 B2 hs w w' : A (<[p := NLeaf l1]> (<[q := NLeaf l2]> ∅)) hs w -> Rely i w w' -> Inv w' ->
  two_bags (l_ksuf l1) (l_ksuf l2) B1 B2 w -> two_bags (l_ksuf l1) (l_ksuf l2) B1 B2 w'.
Proof. intros [A0 _] R I. apply two_step. exact (same_rely i _ w w' A0 R I). Qed.
Lemma gone_S a os s : active_slots perm !! (pos + a) = Some os -> s ∈ gone (a + 1) <-> s = os \/ s ∈ gone a.
Proof. intros H. replace (a + 1) with (S a) by lia. rewrite (take_S_r _ a os) by (by rewrite lookup_drop). rewrite elem_of_app, elem_of_list_singleton. tauto. Qed.

Lemma aw_move_entry a w (Hlp : split_locked l) (Hfr : is_frozen (l_perm l) = true) (Hlq : split_locked lq) (Hqe : actv lq = []) : pos + a < perm_size perm -> a < 24 ->
  (forall s, s ∈ active_slots perm -> exists k h, has_key l s k /\ length k <= 256 /\ l_val l !! s = Some h /\ h <> 0%N /\ (8 < length k -> longs w0 /\ Sx s = Some (drop 8 k))) -> moving a w ->
  cwp i (move_entry p q perm pos a) w (fun _ => moving (a + 1)).
Proof.
  intros Ha Ha24 Hent (l1 & l2 & A0 & F & T). unfold move_entry. set (os := perm_get perm (pos + a)).
  assert (Hos : active_slots perm !! (pos + a) = Some os).
  { unfold active_slots. rewrite list_lookup_fmap, lookup_seq_lt by done. done. }
  assert (Hosin : os ∈ active_slots perm) by (by eapply elem_of_list_lookup_2).
  destruct (Hent os Hosin) as (k & h & [K1 K2] & K8 & Hh & Hz & Hsx).
  assert (Hos24 : os < 24) by (by eapply ids_lt).
  assert (Hnot : os ∉ gone a).
  { intros Hin. apply elem_of_take in Hin as (j & Hj & Hja). rewrite lookup_drop in Hj.
    pose proof (NoDup_lookup _ _ _ _ (ids_nodup _ Hwf) Hj Hos). lia. }
  assert (Hs1 : split_locked l1) by (unfold split_locked, spl; by rewrite (mf_ver _ _ _ F)).
  assert (Hs2 : split_locked l2) by (unfold split_locked, spl; by rewrite (mt_ver _ _ _ T)).
  assert (Hf1 : is_frozen (l_perm l1) = true) by (by rewrite (mf_perm _ _ _ F)).
  assert (Hna : forall j, j ∉ actv l2).
  { intros j. unfold actv. rewrite (mt_perm _ _ _ T). fold (actv lq). rewrite Hqe. apply not_elem_of_nil. }
  set (B1 := bags (wm w) !! l_ksuf l1). set (B2 := bags (wm w) !! l_ksuf l2).
  assert (TB0 : two_bags (l_ksuf l1) (l_ksuf l2) B1 B2 w) by done.
  assert (Hv1 : l_val l1 !! os = Some h) by (rewrite (mf_val _ _ _ F) by done; by rewrite decide_False).
  pose proof (aw_ok _ _ _ _ _ A0 (at_p _ _)) as Ok1. pose proof (aw_ok _ _ _ _ _ A0 (at_q _ _)) as Ok2.
  destruct (lo_len _ _ _ Ok1) as (_ & L0 & L1). destruct (lo_len _ _ _ Ok2) as (L2 & L3 & L4).
  destruct (lo_isval _ _ _ Ok1 os h Hv1 Hz) as [tg Htg].
  assert (Hkx : (kklx k <= 8)%N \/ kklx k = KSUF_KEYLENX) by (unfold kklx; destruct (Nat.leb_spec (length k) 8); [left; lia|by right]).
  apply cwp_bind. eapply (aw_rleaf _ _ _ p l1 _ (kik k)); [exact A0|apply at_p|intros pv pa; cbn; by rewrite (mf_ikey _ _ _ F)|]. intros w1 A1 R1.
  pose proof (two_rely l1 l2 _ _ _ _ _ A0 R1 (at_inv _ _ _ (proj1 A1)) TB0) as TB1.
  apply cwp_bind. eapply (aw_rleaf _ _ _ p l1 _ (kklx k)); [exact A1|apply at_p|intros pv pa; cbn; by rewrite (mf_klx _ _ _ F)|]. intros w2 A2 R2.
  pose proof (two_rely l1 l2 _ _ _ _ _ A1 R2 (at_inv _ _ _ (proj1 A2)) TB1) as TB2.
  apply cwp_bind. eapply (aw_set_ikey _ _ _ q l2); [exact A2|apply at_q|done|done|by intros _|]. intros w3 A3 M3 SB3. rewrite set_q in A3.
  apply two_step with (B1 := B1) (B2 := B2) in SB3; [|done]. rename SB3 into TB3.
  set (l3 := with_ikey (<[a := kik k]> (l_ikey l2)) l2) in *.
  apply cwp_bind. eapply (aw_set_klx _ _ _ q l3); [exact A3|apply at_q|done|done|done|intros _; apply Hna|]. intros w4 A4 M4 SB4. rewrite set_q in A4.
  apply two_step with (B1 := B1) (B2 := B2) in SB4; [|done]. rename SB4 into TB4.
  set (l4 := with_klx (<[a := kklx k]> (l_klx l3)) l3) in *.
  apply cwp_bind. eapply (aw_take _ _ p l1 os h); [exact A4|apply at_p|done|done|done|].
  intros w5 A5 M5 SB5. rewrite set_p in A5. apply two_step with (B1 := B1) (B2 := B2) in SB5; [|done]. rename SB5 into TB5. apply cwp_bind.
  set (l5 := with_val (<[os := 0%N]> (l_val l1)) l1) in *.
  eapply (aw_put _ _ q l4 a h); [exact A5|apply at_q|apply Hna|apply (mt_free _ _ _ T); lia| |].
  { exists tg. apply (mo_tag _ _ M5), (mo_tag _ _ M4), (mo_tag _ _ M3), (mo_tag _ _ (rl_mono _ _ _ R2)), (mo_tag _ _ (rl_mono _ _ _ R1)), Htg. }
  intros w6 A6 M6 SB6. rewrite set_q in A6. apply two_step with (B1 := B1) (B2 := B2) in SB6; [|done]. rename SB6 into TB6.
  set (l6 := with_val (<[a := h]> (l_val l4)) l4) in *.
  assert (Hfval : forall s, s < 24 -> <[os := 0%N]> (l_val l1) !! s = if decide (s ∈ gone (a + 1)) then Some 0%N else l_val l !! s).
  { intros s Hs. destruct (decide (s = os)) as [->|Hn].
    + rewrite list_lookup_insert by lia. rewrite decide_True; [done|]. apply (gone_S a os); [done|by left].
    + rewrite list_lookup_insert_ne, (mf_val _ _ _ F) by done. destruct (decide (s ∈ gone a)) as [H|H].
      * rewrite decide_True; [done|]. apply (gone_S a os); [done|by right].
      * rewrite decide_False; [done|]. rewrite (gone_S a os) by done. tauto. }
  assert (Hnotb : forall s, s ∉ gone (a + 1) -> s <> os /\ s ∉ gone a).
  { intros s H. rewrite (gone_S a os) in H by done. tauto. }
  assert (Hsx1 : forall w', bags (wm w') !! l_ksuf l1 = B1 -> forall s, sfx w' l5 s = sfx w l1 s).
  { intros w' E s. unfold sfx. cbn [l5 with_val l_ksuf]. by rewrite E. }
  assert (Hsx2 : forall w', bags (wm w') !! l_ksuf l2 = B2 -> forall s, sfx w' l6 s = sfx w l2 s).
  { intros w' E s. unfold sfx. cbn [l6 l4 l3 with_val with_klx with_ikey l_ksuf]. by rewrite E. }
  destruct (N.eqb_spec (kklx k) KSUF_KEYLENX) as [E|E].
  2:{ apply cwp_ret. exists l5, l6. split; [exact A6|]. destruct TB6 as [TB61 TB62]. split.
    - destruct F as [F1 F2 F3 F4 F5 F6 F7]. split; try done.
      + intros s Hs Hg. by apply F5, Hnotb.
      + intros s Hs Hg. rewrite Hsx1 by done. by apply F6, Hnotb.
    - destruct T as [T1 T2 T3 T4 T5 T6]. split; try done.
      + intros j s Hj Hs. destruct (decide (j = a)) as [->|Hn].
        * cbn. rewrite !list_lookup_insert by lia. assert (s = os) as -> by congruence. rewrite K1, K2, Hh. split; [done|]. split; [done|]. split; [done|]. congruence.
        * destruct (T4 j s) as (E1 & E2 & E3 & E4); [lia|done|]. cbn. rewrite !list_lookup_insert_ne by done. split; [done|]. split; [done|]. split; [done|].
          intros Hk64. rewrite Hsx2 by done. by apply E4.
      + intros bg Hbg. pose proof (eq_trans (eq_sym TB62) Hbg : B2 = Some bg) as Hbg'. clear Hbg. rename Hbg' into Hbg. destruct (T5 bg Hbg) as [mm Hmm]. exists mm. eapply inv_mono; [exact Hmm|lia].
      + intros j Hj. cbn. rewrite list_lookup_insert_ne by lia. apply T6. lia. }
  assert (H8 : 8 < length k) by (by apply kklx_long).
  apply cwp_bind. eapply (cwp_ksuf i _ w6 p l5 os); [exact (proj1 A6)|apply at_p|done| |].
  { cbn. rewrite (mf_klx _ _ _ F) by done. by rewrite K2, E. }
  intros w7 A7 R7 SB7. apply two_step with (B1 := B1) (B2 := B2) in SB7; [|done]. destruct SB7 as [TB71 TB72]. destruct TB6 as [TB61 TB62].
  rewrite (Hsx1 w6) by done. destruct (Hsx H8) as [Hlg Hsx']. clear Hsx. rewrite (mf_sfx _ _ _ F os Hosin Hnot), Hsx'. apply cwp_bind.
  pose proof (mono_trans _ _ _ (proj2 A6) (rl_mono _ _ _ R7)) as M07.
  eapply (cwp_assign_ksuf i _ ∅ un ∅ ∅ pe tp zs w7 q l6 a (drop 8 k) (248 * N.of_nat a)); [exact A7|apply at_q|apply not_elem_of_empty|right; apply Hs2|done|intros _; apply Hna| | | | |by eapply longs_mono].
  { rewrite drop_length. lia. }
  { unfold bnd. lia. }
  { intros bg Hbg. pose proof (eq_trans (eq_sym TB72) Hbg : B2 = Some bg) as Hbg'. by apply (mt_bag _ _ _ T). }
  intros w8 b nb mm A8 M8 Hb8 Hmm8 Hms8 Hmo8 Ho8. rewrite set_q in A8. set (l8 := replaced l6 b a KSUF_KEYLENX) in *.
  pose proof (eq_trans (Ho8 p l5 Hne (at_p _ _)) TB71 : bags (wm w8) !! l_ksuf l1 = B1) as TB81.
  eapply (cwp_clear_ksuf i _ ∅ un ∅ ∅ pe tp zs w8 p l5 os); [exact A8|apply at_p|apply not_elem_of_empty|right; apply Hs1|done|cbn; congruence| |eapply longs_mono; [exact M8|by eapply longs_mono]].
  intros w9 b' A9 M9 Hsx9 Ho9. rewrite set_p in A9. set (l9 := replaced l5 b' os 0) in *.
  pose proof (eq_trans (Ho9 q l8 (not_eq_sym Hne) (at_q _ _)) Hb8 : bags (wm w9) !! b = Some nb) as TB92.
  exists l9, l8. split; [split; [exact A9|eapply mono_trans; [exact M07|by eapply mono_trans]]|]. split.
  - destruct F as [F1 F2 F3 F4 F5 F6 F7]. split; try done.
    + intros s Hs Hg. destruct (Hnotb s Hg) as [Hne' Hg']. cbn. rewrite list_lookup_insert_ne by done. by apply F5.
    + intros s Hs Hg. destruct (Hnotb s Hg) as [Hne' Hg']. rewrite Hsx9; [|done|by eapply ids_lt]. rewrite (Hsx1 w8) by done. by apply F6.
  - destruct T as [T1 T2 T3 T4 T5 T6]. split; try done.
    + intros j s Hj Hs. destruct (decide (j = a)) as [->|Hn].
      * assert (s = os) as -> by congruence. cbn. rewrite !list_lookup_insert by (rewrite ?insert_length; lia). rewrite K1, K2, Hh, E. split; [done|]. split; [done|]. split; [done|].
        intros _. rewrite (sfx_bag w9 l8 nb) by done. rewrite (bsfx_inv _ _ _ a Hmm8 Ha24), Hms8. by rewrite Hsx'.
      * destruct (T4 j s) as (E1 & E2 & E3 & E4); [lia|done|]. cbn. rewrite !list_lookup_insert_ne by done. split; [done|]. split; [done|]. split; [done|].
        intros Hk64. rewrite (sfx_bag w9 l8 nb) by done. rewrite (bsfx_inv _ _ _ j Hmm8) by lia. rewrite Hmo8 by lia. rewrite Hsx2 by done. by apply E4.
    + intros bg Hbg. pose proof (eq_trans (eq_sym TB92) Hbg : Some nb = Some bg) as Hbg'. injection Hbg' as <-. exists mm. eapply inv_mono; [exact Hmm8|lia].
    + intros j Hj. cbn. rewrite list_lookup_insert_ne by lia. apply T6. lia.
Qed.
End Sp.

Lemma new_split_vcnt v : vcnt (v_new_for_split v) = 0%N.
Proof.
  unfold v_new_for_split. rewrite !lor_vcnt by enum_bits. change 0%N with (vcnt 0). apply vcnt_ext. intros k Hk.
  rewrite bit_land. assert (bit ISLEAF_BIT k = false) as ->; [|by rewrite andb_false_r]. revert k Hk. enum_bits.
Qed.
Lemma set_size_active v n : p_wf P24 v -> n <= perm_size v -> p_wf P24 (perm_set_size v n) /\ active_slots (perm_set_size v n) = take n (active_slots v).
Proof.
  intros Hwf Hn. pose proof (wf_size _ _ Hwf) as Hsz. change (pW P24) with 24 in Hsz. change (p_size P24 v) with (perm_size v) in Hsz.
  destruct (set_size_law_holds P24 P24_ok v n (proj2 (perm_word_wf P24 _) Hwf) ltac:(change (pW P24) with 24; lia)) as (H1 & H2 & H3).
  apply perm_word_wf in H1. change (p_set_size P24 v n) with (perm_set_size v n) in *. split; [done|].
  rewrite !ids_active by done. unfold active. rewrite H2, H3, take_take. f_equal. change (p_size P24 v) with (perm_size v). lia.
Qed.
Lemma make_sorted_active n : n <= 24 -> p_wf P24 (perm_make_sorted n) /\ active_slots (perm_make_sorted n) = seq 0 n.
Proof.
  intros Hn. destruct (make_sorted_law_holds P24 P24_ok n Hn) as (H1 & H2 & _). apply perm_word_wf in H1.
  change (p_make_sorted P24 n) with (perm_make_sorted n) in *. split; [done|]. by rewrite ids_active.
Qed.

(** ** the two leaves after the split *)
Section Ready.
Context (w w0 : world) (l : leaf) (Hg : leaf_good l) (Hslots : forall s, s ∈ actv l -> slot_ok w l s) (Sx : nat -> option bytes) (HSx : forall s, Sx s = sfx w l s).
Context (pos : nat) (Hpos : 0 < pos < perm_size (l_perm l)).
Local Notation perm := (l_perm l).
Local Notation lf := (with_perm (freeze_raw (l_perm l)) l).
Lemma left_part : let l2 := take pos (actv l) in take (perm_size perm - pos) (drop pos (active_slots perm)) = drop pos (actv l) /\ NoDup (actv l) /\
  (forall s, s ∈ l2 -> s ∈ actv l /\ s ∉ drop pos (actv l)).
Proof.
  assert (Hlen : length (actv l) = perm_size perm) by apply ids_len. assert (Hnd : NoDup (actv l)) by (apply ids_nodup, Hg).
  split; [apply take_ge; rewrite drop_length; unfold actv in *; lia|]. split; [done|]. intros s Hs. split.
  - apply elem_of_take in Hs as (j & Hj & _). by eapply elem_of_list_lookup_2.
  - rewrite <- (take_drop pos (actv l)) in Hnd. apply NoDup_app in Hnd as (_ & Hnd & _). by apply Hnd.
Qed.
Lemma ready_left pe p l1 w1 : moved_from lf perm pos Sx (perm_size perm - pos) w1 l1 -> ready w0 pe p (NLeaf (with_perm (perm_set_size perm pos) l1)).
Proof.
  intros [F1 F1' F2 F4 F3 F6 F5]. destruct (set_size_active perm pos (lg_perm _ Hg) ltac:(lia)) as [Hwf Hact].
  set (l2 := with_perm _ l1). assert (Ha : actv l2 = take pos (actv l)) by exact Hact.
  destruct left_part as (Ht & Hnd & Hleft). cbn [l_klx l_ikey l_val l_next with_perm] in *.
  split; [|by apply ids_not_frozen].
  split; [done|cbn; rewrite F4; apply Hg| | |].
  + intros s Hs Hn. cbn. rewrite F5 by done. case_decide as Hd; [done|]. apply (lg_free _ Hg); [done|]. intros H. rewrite Ht in Hd.
    rewrite Ha in Hn. rewrite <- (take_drop pos (actv l)) in H. apply elem_of_app in H as [?|?]; done.
  + intros a b s s' x x' Hab H1 H2 H3 H4. rewrite Ha in H1, H2. apply lookup_take_Some in H1 as [H1 _]. apply lookup_take_Some in H2 as [H2 _].
    cbn in H3, H4. rewrite F2 in H3, H4. by apply (lg_sort _ Hg a b s s').
  + intros s s' k H1 H2 [H3 H3'] [H4 H4']. rewrite Ha in H1, H2. destruct (Hleft s H1) as [I1 J1]. destruct (Hleft s' H2) as [I2 J2]. cbn in *. rewrite F2 in *.
    rewrite F3 in H3' by (done || by rewrite Ht). rewrite F3 in H4' by (done || by rewrite Ht). by apply (lg_uniq _ Hg s s' k).
Qed.
Lemma slots_left w1 l1 w2 : moved_from lf perm pos Sx (perm_size perm - pos) w1 l1 -> Mono w w2 -> bags (wm w2) !! l_ksuf l1 = bags (wm w1) !! l_ksuf l1 ->
  forall s, s ∈ active_slots (perm_set_size perm pos) -> slot_ok w2 (with_perm (perm_set_size perm pos) l1) s.
Proof.
  intros [F1 F1' F2 F4 F3 F6 F5] M2 Eb s Hs. destruct (set_size_active perm pos (lg_perm _ Hg) ltac:(lia)) as [Hwf Hact]. rewrite Hact in Hs.
  destruct left_part as (Ht & Hnd & Hleft). destruct (Hleft s Hs) as [I1 J1]. cbn [l_klx l_ikey l_val l_next with_perm] in *.
  assert (s < 24) as H24 by (eapply ids_lt; [apply Hg|done]).
  destruct (Hslots s I1) as (k & v & h & [H1 H2] & H3 & H4 & H5 & H6). exists k, v, h. split; [split|split; [|split; [done|split]]].
  - cbn. by rewrite F2.
  - cbn. rewrite F3; [done|done|by rewrite Ht].
  - cbn. rewrite F5 by done. rewrite decide_False; [done|by rewrite Ht].
  - by apply M2.
  - intros H8. rewrite <- (H6 H8), <- HSx, <- F6; [|done|by rewrite Ht]. unfold sfx. cbn. by rewrite Eb.
Qed.
Lemma right_at : forall j, j < perm_size perm - pos -> actv l !! (pos + j) = Some (perm_get perm (pos + j)).
Proof. intros j Hj. apply actv_get. lia. Qed.
Lemma ready_right pe q lq l2 w1 : moved_to lf lq perm pos Sx (perm_size perm - pos) w1 l2 -> l_next lq = 0%N ->
  ready w0 pe q (NLeaf (with_perm (perm_make_sorted (perm_size perm - pos)) l2)).
Proof.
  intros [T1 T1' T2 T3 T5 T4] Hnx. pose proof (ids_size _ (lg_perm _ Hg)) as H24. rewrite ids_len in H24. pose proof right_at as Hat.
  destruct (make_sorted_active (perm_size perm - pos) ltac:(lia)) as [Hwf Hact]. set (l3 := with_perm _ l2).
  assert (Ha : actv l3 = seq 0 (perm_size perm - pos)) by exact Hact.
  assert (Hin : forall j, j ∈ actv l3 -> j < perm_size perm - pos).
  { intros j. rewrite Ha, elem_of_seq. lia. }
  assert (Hnd : NoDup (actv l)) by (apply ids_nodup, Hg). cbn [l_klx l_ikey l_val l_next with_perm] in *.
  split; [|by apply ids_not_frozen].
  split; [done|cbn; by rewrite T2, Hnx| | |].
  + intros s Hs Hn. cbn. apply T4. split; [|done]. destruct (decide (s < perm_size perm - pos)); [|lia]. destruct Hn. rewrite Ha. apply elem_of_seq. lia.
  + intros a b s s' x x' Hab H1 H2 H3 H4. rewrite Ha in H1, H2. apply lookup_seq in H1 as [-> H1]. apply lookup_seq in H2 as [-> H2]. cbn [Nat.add] in *.
    destruct (T3 a _ H1 (Hat a H1)) as (E1 & _). destruct (T3 b _ H2 (Hat b H2)) as (E2 & _). cbn in H3, H4. rewrite E1 in H3. rewrite E2 in H4.
    apply (lg_sort _ Hg (pos + a) (pos + b) (perm_get perm (pos + a)) (perm_get perm (pos + b)) x x'); [lia|by apply Hat|by apply Hat|done|done].
  + intros s s' k H1%Hin H2%Hin [H3 H3'] [H4 H4']. destruct (T3 s _ H1 (Hat s H1)) as (E1 & E1' & _). destruct (T3 s' _ H2 (Hat s' H2)) as (E2 & E2' & _).
    change (l_ikey l3) with (l_ikey l2) in H3, H4. change (l_klx l3) with (l_klx l2) in H3', H4'. assert (perm_get perm (pos + s) = perm_get perm (pos + s')) as E.
    { apply (lg_uniq _ Hg _ _ k); [eapply elem_of_list_lookup_2; by apply Hat|eapply elem_of_list_lookup_2; by apply Hat| |]; split; congruence. }
    assert (pos + s = pos + s'); [|lia]. eapply (NoDup_lookup (actv l)); [done|by apply Hat|]. rewrite E. by apply Hat.
Qed.
Lemma slots_right lq w1 l2 w2 : moved_to lf lq perm pos Sx (perm_size perm - pos) w1 l2 -> Mono w w2 -> bags (wm w2) !! l_ksuf l2 = bags (wm w1) !! l_ksuf l2 ->
  forall s, s ∈ active_slots (perm_make_sorted (perm_size perm - pos)) -> slot_ok w2 (with_perm (perm_make_sorted (perm_size perm - pos)) l2) s.
Proof.
  intros [T1 T1' T2 T3 T5 T4] M2 Eb s Hs. pose proof (ids_size _ (lg_perm _ Hg)) as H24. rewrite ids_len in H24. pose proof right_at as Hat.
  destruct (make_sorted_active (perm_size perm - pos) ltac:(lia)) as [Hwf Hact]. rewrite Hact in Hs. apply elem_of_seq in Hs as [_ H1]. cbn [Nat.add] in H1.
  destruct (T3 s _ H1 (Hat s H1)) as (E1 & E2 & E3 & E4). cbn [l_klx l_ikey l_val l_next with_perm] in *.
  destruct (Hslots (perm_get perm (pos + s))) as (k & v & h & [K1 K2] & K3 & K4 & K5 & K6); [eapply elem_of_list_lookup_2; by apply Hat|].
  exists k, v, h. split; [split; [exact (eq_trans E1 K1)|exact (eq_trans E2 K2)]|]. split; [exact (eq_trans E3 K3)|]. split; [done|]. split; [by apply M2|].
  intros H8. rewrite <- (K6 H8), <- HSx, <- E4.
  - unfold sfx. cbn. by rewrite Eb.
  - rewrite K2. unfold kklx. by rewrite (proj2 (Nat.leb_gt (length k) 8)).
Qed.
End Ready.

Lemma cwp_split_into i F w p q l pos pe (Q : N -> world -> Prop) :
  At i (L (<[p := NLeaf l]> (<[q := NLeaf leaf_new]> ∅)) ∅ {[q]} ∅ {[q]} pe {[p]} {[q]}) w -> p <> q ->
  split_locked l -> leaf_good l -> 0 < pos < perm_size (l_perm l) ->
  (forall sk w' l1 l2, At i (L (<[p := NLeaf l1]> (<[q := NLeaf l2]> ∅)) ∅ {[q]} ∅ ∅ pe {[p]} {[q]}) w' -> Mono w w' -> q ∈ wpub w' ->
    ready w' pe p (NLeaf l1) -> ready w' pe q (NLeaf l2) -> l_ver l1 = l_ver l -> l_next l1 = l_next l ->
    vbits (l_ver l2) MSpl false true -> l_next l2 = 0%N -> Q sk w') ->
  cwp i (split_into_preallocated F p q pos) w Q.
Proof.
  intros A0 Hne Hsl Hg Hpos HQ. unfold split_into_preallocated. pose proof (at_leaf_ok i _ w p l A0 (lookup_insert _ _ _)) as Ok0.
  pose proof (lo_tag _ _ _ Ok0 (ids_not_frozen _ (lg_perm _ Hg))) as Hslots. set (Sx := fun s => sfx w l s).
  destruct (lo_ver _ _ _ Ok0) as (md & rt & Hvb). assert (Hpp : forall n1 n2 : node, <[p := n1]> (<[q := n2]> (∅ : gmap N node)) !! p = Some n1) by (intros; apply lookup_insert).
  apply cwp_bind. eapply (cwp_rver _ _ _ p (NLeaf l)); [exact A0|apply lookup_insert|]. intros w1 A1 R1. pose proof (rl_mono _ _ _ R1) as M1. cbn [nver].
  pose proof (same_rely i _ w w1 A0 R1 (at_inv _ _ _ A1) p l (Hpp _ _)) as B01.
  destruct Hsl as [Hs Hl]. rewrite Hl. apply cwp_bind. set (lq := with_ver (v_new_for_split (l_ver l)) leaf_new).
  assert (Hvq : vbits (l_ver lq) MSpl false true) by (by eapply vbits_new_split).
  unfold leaf_up. eapply (cwp_same_at i); [exact A1|intros b m r m' E _; destruct (heap m !! q) as [[]|]; [by injection E as <- <-|done..]|].
  eapply (cwp_up i _ _ _ _ _ _ _ _ w1 q (NLeaf leaf_new) (NLeaf lq) true tt); [exact A1| |apply not_elem_of_empty| | |].
  { rewrite lookup_insert_ne by done. apply lookup_insert. }
  { intros m pv pa E. rewrite E. reflexivity. }
  { intros w2 M2 A2. pose proof (at_leaf_ok i _ w2 q leaf_new A2) as Okq. cbn [Conc.nl] in Okq. rewrite lookup_insert_ne in Okq by done.
    specialize (Okq (lookup_insert _ _ _)). destruct Okq as [C1 C2 C3 C4 C5 C6 C7 C8 C9 C10 C11]. split; [split; try done|split].
    - by exists MSpl, false.
    - unfold lq. cbn [l_ver with_ver]. rewrite new_split_vcnt. done.
    - intros _. cbn [nver]. by rewrite (vbits_lockedf _ _ _ _ Hvq).
    - intros E. cbn. done. }
  intros w2 A2 M2 Hpub SB2. specialize (Hpub eq_refl). cbn [drop_if] in A2. rewrite insert_commute, insert_insert in A2 by done.
  pose proof (SB2 p l (Hpp _ _)) as B12. cbn [Conc.nl] in B12.
  replace ({[q]} ∖ {[q]} : gset N) with (∅ : gset N) in A2 by set_solver. pose proof (mono_trans _ _ _ M1 M2) as M02.
  assert (A2' : Aw i w2 (L (<[p := NLeaf l]> (<[q := NLeaf lq]> ∅)) ∅ {[q]} ∅ ∅ pe {[p]} {[q]}) w2) by (split; [done|apply mono_refl]). clear A2. rename A2' into A2.
  (* freezing *)
  apply cwp_bind. unfold freeze_permutation. apply cwp_bind. eapply (cwp_rflag _ _ _ p (NLeaf l)); [exact (proj1 A2)|apply lookup_insert|]. intros w3 A3 R3.
  apply cwp_bind. eapply (cwp_rflag _ _ _ p (NLeaf l)); [exact A3|apply lookup_insert|]. intros w4 A4 R4. cbn [nver]. rewrite Hl. unfold spl in Hs. rewrite Hs. cbn [andb].
  pose proof (rely_trans _ _ _ _ R3 R4) as R24. pose proof (rl_mono _ _ _ R24) as M24.
  destruct F as [|F]; [by left|]. cbn [freeze_loop]. apply cwp_bind.
  eapply (aw_rleaf i w2 _ _ _ _ _ _ w4 p l _ (l_perm l)); [by split|apply lookup_insert|done|]. intros w5 A5 R5.
  pose proof (rely_trans _ _ _ _ R24 R5) as R25. pose proof (same_rely i _ w2 w5 (proj1 A2) R25 (at_inv _ _ _ (proj1 A5)) p l (Hpp _ _)) as B25.
  rewrite (ids_not_frozen _ (lg_perm _ Hg)). apply cwp_bind. set (lf := with_perm (freeze_raw (l_perm l)) l).
  assert (Hsf : split_locked lf) by (split; [exact Hs|exact Hl]). assert (Hsq : split_locked lq).
  { split; [unfold spl; by rewrite (vbits_splitting _ _ _ _ Hvq)|by rewrite (vbits_lockedf _ _ _ _ Hvq)]. }
  destruct (aw_ok _ _ _ _ _ _ _ _ _ _ _ A5 (lookup_insert _ _ _)) as [(C1 & C1' & _) C2 C3 C4 C5 C6 C7 C8 C9 C10 C11].
  eapply (aw_wleaf i w2 _ _ _ _ _ _ w5 p l lf _ true); [exact A5|apply lookup_insert|by split|done|done|done|done|done|done|done| | | |].
  { cbn. by rewrite freeze_is_frozen. }
  { intros pv pa. cbn [with_prev with_parent l_perm]. by rewrite N.eqb_refl. }
  { intros w6 _ _ _. cbn. by rewrite freeze_is_frozen. }
  intros w6 A6 M6 SB6. pose proof (SB6 p l (Hpp _ _)) as B56. rewrite insert_insert in A6. apply cwp_ret. cbv zeta.
  destruct (Nat.ltb_spec 0 pos); [|lia]. destruct (Nat.ltb_spec pos (perm_size (l_perm l))); [|lia]. cbn [andb].
  pose proof (ids_size _ (lg_perm _ Hg)) as H24. rewrite ids_len in H24.
  (* moving *)
  assert (Hent : forall s, s ∈ active_slots (l_perm l) -> exists k h, has_key lf s k /\ length k <= 256 /\ l_val lf !! s = Some h /\ h <> 0%N /\ (8 < length k -> longs w2 /\ Sx s = Some (drop 8 k))).
  { intros s Hs'. destruct (slot_key w l s (at_inv _ _ _ A0) (Hslots s Hs')) as (k & v & h & K1 & K2 & K3 & _ & K4 & _ & K5). exists k, h. split; [done|].
    split; [apply (iv_keys _ (at_inv _ _ _ A0) k v K5)|]. split; [done|]. split; [done|]. intros H8. split; [|by apply K4]. exists k, v. split; [by apply M02|done]. }
  assert (Hqemp : actv lq = []) by done.
  apply cwp_bind. apply (cwp_for_seq (moving i w2 {[q]} pe {[p]} {[q]} p q lf lq (l_perm l) pos Sx)).
  { exists lf, lq. split; [exact A6|]. split.
    - split; try done. intros s _ _. unfold Sx, sfx. cbn [lf with_perm l_ksuf]. by rewrite B56, B25, B12, B01.
    - split; try done; [intros; lia| |].
      + intros bg Hbg. cbn in Hbg. by rewrite (no_bag0 _ (at_inv _ _ _ (proj1 A6))) in Hbg.
      + intros j Hj. destruct (lookup_lt_is_Some_2 (l_val lq) j ltac:(change (length (l_val lq)) with 24; lia)) as [x Hx].
        rewrite Hx. f_equal. apply elem_of_list_lookup_2, elem_of_list_In in Hx. by apply repeat_spec in Hx. }
  { intros j w' Hj HJ. eapply aw_move_entry; [exact Hne|apply Hg|exact Hsf|cbn; apply freeze_is_frozen|exact Hsq|exact Hqemp|lia|lia|exact Hent|exact HJ]. }
  intros w7 (l1 & l2 & A7 & F7 & T7). cbn [Nat.add] in F7, T7.
  assert (Hs1 : split_locked l1) by (unfold split_locked, spl; by rewrite (mf_ver _ _ _ _ _ _ _ F7)).
  assert (Hs2 : split_locked l2) by (unfold split_locked, spl; by rewrite (mt_ver _ _ _ _ _ _ _ _ T7)).
  set (mv := perm_size (l_perm l) - pos) in *. destruct (make_sorted_active mv ltac:(unfold mv; lia)) as [Hwq _].
  pose proof (mono_trans _ _ _ M02 (proj2 A7)) as M07.
  apply cwp_bind. eapply (aw_set_perm i w2 _ _ _ _ _ _ w7 q l2); [exact A7|by apply at_q|done|done| |].
  { intros w8 M8 SB8. apply (slots_right w l Hg Hslots Sx ltac:(done) pos Hpos lq w7); [done|by eapply mono_trans|]. exact (SB8 q l2 (at_q _ _ Hne _ _)). }
  intros w8 A8 M8 SB8. rewrite (set_q _ _ Hne) in A8. pose proof (SB8 p l1 (Hpp _ _)) as B78.
  destruct (set_size_active (l_perm l) pos (lg_perm _ Hg) ltac:(lia)) as [Hwp _].
  apply cwp_bind. eapply (aw_set_perm i w2 _ _ _ _ _ _ w8 p l1); [exact A8|apply at_p|done|done| |].
  { intros w9 M9 SB9. apply (slots_left w l Hg Hslots Sx ltac:(done) pos Hpos w7); [done|eapply mono_trans; [exact M07|by eapply mono_trans]|].
    etrans; [exact (SB9 p l1 (Hpp _ _))|exact B78]. }
  intros w9 A9 M9 SB9. rewrite set_p in A9.
  set (la := with_perm (perm_set_size (l_perm l) pos) l1) in *. set (lb := with_perm (perm_make_sorted mv) l2) in *.
  destruct (lookup_lt_is_Some_2 (l_ikey lb) (perm_get (perm_make_sorted mv) 0)) as [sk Hsk].
  { destruct (lo_len _ _ _ (aw_ok _ _ _ _ _ _ _ _ _ _ _ A9 (at_q _ _ Hne _ _))) as (C01 & _). rewrite C01.
    apply (ids_lt (perm_make_sorted mv)); [done|]. apply (elem_of_list_lookup_2 _ 0). apply (actv_get lb). cbn.
    rewrite <- ids_len. destruct (make_sorted_active mv ltac:(unfold mv; lia)) as [_ ->]. rewrite seq_length. unfold mv. lia. }
  eapply (aw_rleaf i w2 _ _ _ _ _ _ w9 q lb _ sk); [exact A9|by apply at_q|done|]. intros w10 [A10 M10] R10.
  pose proof (mono_trans _ _ _ M02 M10) as M010.
  eapply HQ; [exact A10|exact M010|by apply M10| | | | | |].
  - by eapply ready_left.
  - by eapply ready_right.
  - cbn. by rewrite (mf_ver _ _ _ _ _ _ _ F7).
  - cbn. by rewrite (mf_next _ _ _ _ _ _ _ F7).
  - cbn. by rewrite (mt_ver _ _ _ _ _ _ _ _ T7).
  - cbn. by rewrite (mt_next _ _ _ _ _ _ _ _ T7).
Qed.

(** ** linking the new leaf *)
Lemma unmarked_even x : is_marked x = false -> N.even x = true.
Proof. unfold is_marked. rewrite N.bit0_odd, <- N.negb_even. by destruct (N.even x). Qed.
Lemma even_unmarked x : N.even x = true -> is_marked x = false.
Proof. unfold is_marked. rewrite N.bit0_odd, <- N.negb_even. by intros ->. Qed.
Lemma unmark_even x : N.even x = true -> unmark_ptr x = x.
Proof.
  intros H. apply even_unmarked in H. unfold is_marked in H. apply N.bits_inj. intros k. unfold unmark_ptr. rewrite N.ldiff_spec.
  destruct k as [|k]; [by rewrite H|]. change 1%N with (2 ^ 0)%N. rewrite N.pow2_bits_eqb. cbn. by rewrite andb_true_r.
Qed.
Lemma ready_next w pe p l v : is_marked v = false -> ready w pe p (NLeaf l) -> ready w pe p (NLeaf (with_next v l)).
Proof. intros Hv ([H1 H2 H3 H4 H5] & H6). split; [by split|done]. Qed.

Lemma cwp_link i F w p q l1 l2 un pe tp zs (Q : unit -> world -> Prop) :
  At i (L (<[p := NLeaf l1]> (<[q := NLeaf l2]> ∅)) ∅ un ∅ ∅ pe tp zs) w -> p <> q -> split_locked l1 -> split_locked l2 ->
  is_marked (l_next l1) = false -> q ∈ wpub w ->
  (forall w', At i (L (<[p := NLeaf (with_next q l1)]> (<[q := NLeaf (with_next (l_next l1) l2)]> ∅)) ∅ un ∅ ∅ pe tp zs) w' -> Mono w w' -> Q tt w') ->
  cwp i (link_sibling F p q) w Q.
Proof.
  intros A0 Hne Hs1 Hs2 Hnm Hpub HQ. unfold link_sibling. apply cwp_bind. destruct F as [|F]; [by left|]. cbn [lock_next].
  assert (A0' : Aw i w (L (<[p := NLeaf l1]> (<[q := NLeaf l2]> ∅)) ∅ un ∅ ∅ pe tp zs) w) by (split; [done|apply mono_refl]).
  apply cwp_bind. eapply (aw_rleaf i w un pe tp zs _ _ w p l1 _ (l_next l1)); [exact A0'|apply lookup_insert|done|]. intros w1 A1 R1.
  rewrite Hnm. apply cwp_bind. set (nx := l_next l1) in *. pose proof (unmarked_even _ Hnm) as Hev.
  destruct (aw_ok _ _ _ _ _ _ _ _ _ _ _ A1 (lookup_insert _ _ _)) as [(B1 & B1' & _) B2 B3 B4 B5 B6 B7 B8 B9 B10 B11].
  fold nx in B4. rewrite unmark_even in B4 by done. set (l3 := with_next (mark_ptr nx) l1).
  eapply (aw_wleaf i w _ _ _ _ _ _ w1 p l1 l3 _ true); [exact A1|apply lookup_insert|done|done|done|done|done|done|done| |done| | |].
  { cbn. by rewrite TreeSplit.mark_even. }
  { intros pv pa. cbn [with_prev with_parent l_next]. fold nx. by rewrite N.eqb_refl. }
  { intros w2 M2 _ Hok Hf s Hs. eapply (slot_ok_eq w2); [..|exact (lo_tag _ _ _ Hok Hf s Hs)]; done. }
  intros w2 A2 M2 _. rewrite insert_insert in A2. apply cwp_ret.
  assert (Hlq : forall w', Mono w w' -> ptr_ok w' 0 q).
  { intros w' M'. right. split; [by apply M'|]. apply M'. apply (at_lev _ _ _ _ (NLeaf l2) A0). by apply at_q. }
  assert (Hqe : N.even q = true).
  { destruct (at_here _ _ _ q (NLeaf l2) A0) as (_ & pv & pa & Hq); [by apply at_q|]. by apply (iv_addr _ (at_inv _ _ _ A0)) in Hq as [_ ?]. }
  assert (Hq0 : q <> 0%N).
  { destruct (at_here _ _ _ q (NLeaf l2) A0) as (_ & pv & pa & Hq); [by apply at_q|]. apply (iv_addr _ (at_inv _ _ _ A0)) in Hq as [? _]. lia. }
  apply cwp_bind. destruct A2 as [A2 M02]. eapply cwp_set_prev; [exact A2| |].
  { destruct (Hlq w2 M02) as [?|[_ ?]]; done. }
  intros w3 A3 M3. pose proof (mono_trans _ _ _ M02 M3) as M03. pose proof (mono_trans _ _ _ M2 M3) as M13.
  apply cwp_bind. eapply (aw_set_next i w _ _ _ _ _ _ w3 q l2); [by split|by apply at_q|done|rewrite unmark_even by done; by eapply ptr_ok_mono|].
  intros w4 [A4 M04] M4. rewrite (set_q _ _ Hne) in A4. pose proof (mono_trans _ _ _ M13 M4) as M14.
  apply cwp_bind. assert (Hend : forall w5, At i (L (<[p := NLeaf l3]> (<[q := NLeaf (with_next nx l2)]> ∅)) ∅ un ∅ ∅ pe tp zs) w5 -> Mono w w5 -> cwp i (set_next p q) w5 Q).
  { intros w5 A5 M5. eapply (aw_set_next i w _ _ _ _ _ _ w5 p l3); [by split|apply lookup_insert|done|rewrite unmark_even by done; by apply Hlq|].
    intros w6 [A6 M6] _. rewrite insert_insert in A6. apply HQ; [exact A6|done]. }
  destruct (N.eqb_spec nx 0) as [E|E]; [apply cwp_ret; by apply Hend|].
  eapply cwp_set_prev; [exact A4| |].
  { destruct (ptr_ok_mono _ _ _ _ M14 B4) as [?|[_ ?]]; done. }
  intros w5 A5 M5. apply Hend; [exact A5|by eapply mono_trans].
Qed.

(** ** generic.rs:1967-2104: splitting a full leaf *)
Lemma splits_ok i F : splits i F.
Proof.
  intros w p l rt ik A0 Hvis Hg Hsp Hvb H23. unfold handle_leaf_split. apply cwp_bind.
  assert (Ap : nl (held p l ∅) !! p = Some (NLeaf l)) by apply lookup_insert.
  eapply (cwp_split_point i (held p l ∅) p l w A0 Ap Hg Hsp H23). intros pos w1 Hpos A1 R1. pose proof (rl_mono _ _ _ R1) as M1.
  apply cwp_bind. eapply (cwp_rflag _ _ _ p (NLeaf l)); [exact A1|exact Ap|]. intros w2 A2 R2. cbn [nver]. rewrite (vbits_rootf _ _ _ _ Hvb).
  apply cwp_bind. eapply (cwp_rparent _ _ _ p (NLeaf l)); [exact A2|exact Ap|]. intros w3 n3 A3 R3 Hn3.
  assert (M03 : Mono w w3) by (eapply mono_trans; [exact M1|eapply mono_trans; [apply R2|apply R3]]).
  assert (Htp : forall w', At i (held p l ∅) w' -> forall n, hp w' !! p = Some n -> npar n = 0%N -> root (wm w') = p).
  { intros w' A'. apply (at_tp _ _ _ A' p). cbn. apply elem_of_union_l. by apply elem_of_singleton. }
  apply cwp_bind.
  assert (Hrest : forall main w4, At i (held p l ∅) w4 -> Mono w w4 -> (main = false -> parented w4 p) -> rt && (npar n3 =? 0)%N && negb main = false ->
    cwp i (let layer := rt && (npar n3 =? 0)%N && negb main in
      q <- alloc_node (NLeaf leaf_new) ;;
      lv <- mark_split p (l_ver l) ;;
      sk <- split_into_preallocated F p q pos ;;
      track q ;;;
      link_sibling F p q ;;;
      propagate F MAX_PROPAGATION_ITERATIONS 0 p lv q sk main layer true) w4 (fun b w' => b = true /\ At i idle w' /\ Mono w w')).
  2:{ destruct rt.
    - apply cwp_bind. eapply cwp_rroot; [exact A3|]. intros w4 A4 R4. apply cwp_ret. apply Hrest.
      + exact A4.
      + eapply mono_trans; [exact M03|apply R4].
      + intros E. apply N.eqb_neq in E. destruct (mono_hp _ _ _ _ (rl_mono _ _ _ R4) Hn3) as (n4 & Hn4 & _). exists n4. split; [done|]. intros Hz.
        by apply E, (Htp w4 A4 n4).
      + cbn [andb]. destruct (N.eqb_spec (npar n3) 0) as [Hz|]; [|done]. cbn [andb]. apply negb_false_iff, N.eqb_eq.
        pose proof (Htp w3 A3 n3 Hn3 Hz) as E3. destruct (decide (root (wm w4) = root (wm w3))) as [E|E]; [congruence|].
        destruct (rl_root _ _ _ R4 E) as [Ho _]. destruct Ho. rewrite E3. apply (at_own _ _ _ A3). by eexists.
    - apply cwp_ret. apply Hrest; [exact A3|done| |done]. intros _. exists n3. split; [done|]. intros Hz.
      by destruct (at_nonroot _ _ _ _ _ _ _ A3 Ap Hvb), (Htp w3 A3 n3 Hn3). }
  clear dependent w3. clear dependent w2. clear dependent w1. intros main w1 A1 M1 Hmain Hlay. cbv zeta.
  rewrite Hlay. clear Hlay.
  (* the new leaf *)
  unfold held in A1. rewrite (right_id_L ∅ (∪)) in A1. apply cwp_bind.
  eapply (cwp_alloc i _ _ _ _ _ _ _ _ w1 (NLeaf leaf_new) false MFree false); [exact A1| |apply vbits_new|done|].
  { split; [done|]. split; [done|]. split; [done|]. split; [done|]. split; [intros s x Hx; apply elem_of_list_lookup_2, elem_of_list_In in Hx; by apply repeat_spec in Hx|].
    split; [intros s x Hx; apply elem_of_list_lookup_2, elem_of_list_In in Hx; by apply repeat_spec in Hx|]. split; [done|]. split; [done|].
    split; [apply empty_wf; exact P24_ok|]. split; [apply ids_not_frozen, empty_wf; exact P24_ok|]. split; done. }
  intros q w2 A2 M2 _ Hq _ Hq0 Hqe _ _. rewrite !(right_id_L ∅ (∪)) in A2. assert (Hne : p <> q) by (intros ->; by rewrite lookup_insert in Hq).
  apply cwp_bind. eapply (cwp_mark_split i _ _ _ _ _ _ _ _ w2 p (NLeaf l) rt); [exact A2| |apply not_elem_of_empty|exact Hvb|].
  { rewrite lookup_insert_ne by done. apply lookup_insert. }
  intros w3 A3 M3. cbn [nset nver] in A3. rewrite (insert_commute _ q p), insert_insert in A3 by done.
  set (ls := with_ver (N.lor (l_ver l) SPLITTING_BIT) l) in *. set (pe := <[q := []]> ∅) in *.
  assert (Hvs : vbits (l_ver ls) MSpl rt true) by (by apply (vbits_spl _ MIns)).
  assert (Hsl : split_locked ls).
  { split; [unfold spl; by rewrite (vbits_splitting _ _ _ _ Hvs)|by rewrite (vbits_lockedf _ _ _ _ Hvs)]. }
  pose proof (mono_trans _ _ _ M1 M2) as M02. pose proof (mono_trans _ _ _ M02 M3) as M03.
  apply cwp_bind. eapply (cwp_split_into i F w3 p q ls pos pe); [exact A3|exact Hne|exact Hsl|by destruct Hg|exact Hpos|].
  intros sk w4 l1 l2 A4 M4 Hpub Rd1 Rd2 Ev1 En1 Hv2 En2.
  apply cwp_bind. eapply cwp_track; [exact A4|by apply elem_of_singleton|]. intros w5 A5 M5.
  replace ({[q]} ∖ {[q]} : gset N) with (∅ : gset N) in A5 by set_solver.
  assert (Hs1 : split_locked l1) by (unfold split_locked, spl; by rewrite Ev1).
  assert (Hs2 : split_locked l2).
  { split; [unfold spl; by rewrite (vbits_splitting _ _ _ _ Hv2)|by rewrite (vbits_lockedf _ _ _ _ Hv2)]. }
  apply cwp_bind. eapply (cwp_link i F w5 p q l1 l2); [exact A5|exact Hne|exact Hs1|exact Hs2| |by apply M5|].
  { rewrite En1. apply Hg. }
  intros w6 A6 M6. pose proof (mono_trans _ _ _ M5 M6) as M46. pose proof (mono_trans _ _ _ M03 (mono_trans _ _ _ M4 M46)) as M06.
  set (la := with_next q l1) in *. set (lb := with_next (l_next l1) l2) in *.
  eapply cwp_mono; [apply (cwp_propagate i F MAX_PROPAGATION_ITERATIONS 0 w6 p (NLeaf la) q (NLeaf lb) pe 0 (N.lor (l_ver l) SPLITTING_BIT) rt main sk)|].
  - split; try done.
    + exact (vis_mono _ _ _ _ M06 Hvis).
    + split; [by apply M46|]. exact (at_lev _ _ _ _ _ A6 (at_q _ _ Hne _ _)).
    + apply ready_next; [by apply even_unmarked|]. exact (ready_mono _ _ _ _ _ M46 Rd1).
    + apply ready_next; [rewrite En1; apply Hg|]. exact (ready_mono _ _ _ _ _ M46 Rd2).
    + cbn. by rewrite Ev1.
    + exists rt. cbn [nver nleaf]. cbn [la with_next l_ver]. by rewrite Ev1.
    + intros E. eapply parented_mono; [|exact (Hmain E)]. eapply mono_trans; [exact M2|]. eapply mono_trans; [exact M3|]. by eapply mono_trans.
  - intros b w7 (H1 & H2 & H3). split; [done|]. split; [done|by eapply mono_trans].
Qed.
