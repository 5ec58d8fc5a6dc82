(** Lock-free insertions running at the same time: one of the threads. *)
From Verif Require Import Base Perm PermFacts PermList SpecPerm PermLaws Key SpecKey KeyFacts Suffix SpecSuffix SuffixFacts Prog Version VersionFacts VersionTry Mem Tree SpecTree SpecHist TreeState TreePrim TreeInv TreeRead TreeSplit TreeSkel TreeInode TreeProp TreeLeaf TreeContent TreeInsert TreeLayer TreeConv TreeLoop TreeTop TreeLaws Freeze CasInsert CasFacts CasConc CasSteps CasPub.

(** what a thread knows when its call is over *)
Definition cpost (i : nat) (kb : bytes) (r : cas_res) (w : cw) : Prop :=
  match r with
  | CSuccess o => o = None /\ length kb <= 8 /\ wph w !! i = Some Counted
  | CExists _ => wph w !! i = None /\ length kb <= 8 /\ is_Some (wmu w !! kb)
  | CFull => wph w !! i = None /\ length kb <= 8 /\ exists p g rt pa L, sA (ws w) !! p = Some (LF g MFree rt pa L) /\ NoDup (ids L) /\ 24 <= perm_size (lb_perm L)
  | CFallback => wph w !! i = None /\ (8 < length kb \/ busy w)
  | _ => False
  end.
(** what holds between two moments, the thread's own steps included *)
Record later (w w' : cw) : Prop := { la_grow : grown (sA (ws w)) (sA (ws w')); la_mu : wmu w ⊆ wmu w'; la_pub : wpub w' = [] -> wpub w = [] }.
Lemma later_rely i w w' : Rely i w w' -> later w w'. Proof. intros []. by split. Qed.
Lemma later_trans a b c : later a b -> later b c -> later a c.
Proof. intros [A1 A2 A3] [B1 B2 B3]. split; [by eapply grown_trans|by etrans|auto]. Qed.
Lemma mem_same m p x : heap m !! p = Some x -> mwith_heap (<[p := x]> (heap m)) m = m.
Proof. intros H. rewrite insert_id by done. by destruct m. Qed.

Section S.
Context (K : bytes -> N -> Prop) (B : N) (mb : mem) (sb : ast) (mu0 : gmap bytes N) (calls : list (bytes * N)).
Context (i : nat) (kb : bytes) (v : N) (Hkb : is_bytes kb) (Hk8 : length kb <= 8) (HK : K kb v) (Hcall : calls !! i = Some (kb, v)).
Local Notation rd := (rd K B mb sb mu0 calls i).
Local Notation CInv := (CInv K B mb sb mu0 calls).
Local Notation cwp := (cwp K B mb sb mu0 calls i).
Local Notation uph := (uph i).
Local Notation ik := (be_word (pad8 kb)).
Local Notation kx := (N.of_nat (length kb)).

Lemma cwp_use {X Y} (pr : P X) (f : X -> P Y) w (Φ : X -> cw -> Prop) (Q : Y -> cw -> Prop) :
  cwp pr w Φ -> (forall r w', Φ r w' -> cwp (f r) w' Q) -> cwp (bind pr f) w Q.
Proof. intros Hp Hf. apply cwp_bind. by eapply cwp_mono; [|exact Hp]. Qed.
(** a step that writes *)
Lemma cwp_put {X} (f : mem -> res (X * mem)) w (Φ : X -> cw -> Prop) :
  (forall w1, Rely i w w1 -> CInv w1 -> exists r w2, f (wm w1) = Ok (r, wm w2) /\ (CInv w2 /\ forall j, j <> i -> Rely j w1 w2) /\ Φ r w2) ->
  cwp (atomic f) w Φ.
Proof. intros H w1 HR HI. destruct (H w1 HR HI) as (r & w2 & E & (H1 & H2) & H3). exists r, w2. done. Qed.
Lemma cwp_leaf_up {X} p (f : leaf -> option (X * leaf)) w (Φ : X -> cw -> Prop) :
  (forall w1, Rely i w w1 -> CInv w1 -> exists l r l' w2, heap (wm w1) !! p = Some (NLeaf l) /\ f l = Some (r, l') /\
     wm w2 = mwith_heap (<[p := NLeaf l']> (heap (wm w1))) (wm w1) /\ (CInv w2 /\ forall j, j <> i -> Rely j w1 w2) /\ Φ r w2) ->
  cwp (leaf_up p f) w Φ.
Proof.
  intros H. apply cwp_put. intros w1 HR HI. destruct (H w1 HR HI) as (l & r & l' & w2 & E1 & E2 & E3 & E4 & E5). exists r, w2. rewrite E1, E2, E3. done.
Qed.
Lemma same_put w : CInv w -> CInv w /\ forall j, j <> i -> Rely j w w.
Proof. intros H. split; [done|]. intros; apply rely_refl. Qed.
Lemma pub_later w w' : later w w' -> wpub w <> [] -> wpub w' <> []. Proof. intros H Hn E. by apply Hn, (la_pub _ _ H). Qed.
Lemma la_same w w' : ws w' = ws w -> wmu w' = wmu w -> wpub w' = wpub w -> later w w'.
Proof. intros E1 E2 E3. split; [rewrite E1; apply grown_refl|by rewrite E2|by rewrite E3]. Qed.

(** the reservation *)
Section Leaf.
Context (p : N) (g : ghost) (rt : bool) (pa : N) (L : lbody).
Local Notation snap w := (grown (<[p := LF g MFree rt pa L]> ∅) (sA (ws w))).
Context (Lb : lbody) (md0 : vmode) (Hb : sA sb !! p = Some (LF g md0 rt pa Lb)).
Lemma c_claim w j : snap w -> wph w !! i = None -> (wpub w = [] -> lb_perm L = lb_perm Lb) -> j ∉ ids L -> j < 24 ->
  cwp (cas_slot_value p j 0 CLAIMING) w (fun c w' => CInv w' /\ later w w' /\
    match c with Some _ => wph w' !! i = None /\ busy w' | None => wph w' !! i = Some (Claimed p j None None CLAIMING None) end).
Proof.
  intros Hs Hph Hpm Hj Hj24. apply cwp_leaf_up. intros w1 HR HI.
  destruct (old_leaf _ _ _ _ _ _ _ Hs _ HR) as (L1 & HL1 & HG).
  destruct (leaf_at _ _ _ _ _ _ _ _ _ _ _ _ _ HI HL1) as (l & l2 & E1 & E2 & Hlov & Hrel & _).
  destruct (lookup_lt_is_Some_2 (l_val l) j) as [o Ho]; [rewrite (lo_len _ _ _ _ Hlov); lia|]. exists l.
  pose proof (later_rely _ _ _ HR) as Hla. assert (Hph1 : wph w1 !! i = None) by (by rewrite (rl_ph _ _ _ HR)).
  destruct (N.eqb_spec o 0) as [->|Hne].
  - set (c := Some (Claimed p j None None CLAIMING None)).
    eexists None, _, (mk_cw _ (wt w1) (ws w1) (uph c (wph w1)) (wmu w1) (wpub w1) (wcn w1)). split; [done|].
    split; [rewrite Ho; cbn; rewrite list_set_some by (by eexists); done|]. split; [done|].
    assert (Hj1 : j ∉ ids L1).
    { intros Hin. pose proof (iv_l _ _ _ _ _ (ti_inv (ci_t HI)) _ _ _ _ _ _ HL1) as HLk. pose proof (ent_lookup _ _ _ _ _ _ HLk j Hj24) as He.
      pose proof (act_val _ _ _ _ _ _ _ _ _ _ _ _ _ _ _ _ HI HL1 Hin He E1) as Hv. rewrite Ho in Hv. injection Hv as Hv.
      destruct (lk_ent _ _ _ _ _ _ HLk (ent L1 j)) as [Hz _]; [|done]. apply elem_of_list_fmap. eauto. }
    destruct (lookup_lt_is_Some_2 (lb_sl L1) j) as [y Hy]; [rewrite (lr_len _ _ _ Hrel); lia|].
    match goal with |- (CInv ?W /\ _) /\ _ => set (w' := W) end.
    enough (H : CInv w' /\ forall k, k <> i -> Rely k w1 w').
    { split; [exact H|]. split; [apply H|]. split; [|apply uph_i]. eapply later_trans; [by apply (later_rely i)|]. by apply la_same. }
    apply (put_val K B mb sb mu0 calls i kb Hk8 w1 p g rt pa L1 l j CLAIMING c); try done.
    + intros i' a1 a2 a3 a4 Hc. exfalso. pose proof (lo_cl _ _ _ _ Hlov _ _ _ _ _ _ Hc) as Hx. rewrite Ho in Hx. injection Hx as Hx.
      by destruct (pi_cl (ci_p HI) _ _ _ _ _ _ _ Hc) as [Hz _].
    + intros. congruence.
    + by rewrite Hph1.
    + by rewrite Hph1.
    + cbn. repeat (split; [done|]). exists y. done.
  - exists (Some o), l, w1. split; [done|]. split; [rewrite Ho; cbn; by rewrite (proj2 (N.eqb_neq _ _) Hne)|].
    split; [by rewrite mem_same|]. split; [by apply same_put|]. split; [done|]. split; [done|]. split; [done|].
    refine (free_busy K B mb sb mu0 calls kb Hk8 p g rt pa L Lb md0 Hb w1 L1 l j o HI HL1 _ Hj E1 Ho Hne). intros E. apply Hpm, (la_pub _ _ Hla), E.
Qed.
End Leaf.

(** the key *)
Lemma c_set_ik w p j x : wph w !! i = Some (Claimed p j None None x None) ->
  cwp (set_ikey p j ik) w (fun _ w' => CInv w' /\ later w w' /\ wph w' !! i = Some (Claimed p j (Some ik) None x None)).
Proof.
  intros Hph. apply cwp_leaf_up. intros w1 HR HI. assert (Hc : wph w1 !! i = Some (Claimed p j None None x None)) by (by rewrite (rl_ph _ _ _ HR)).
  destruct (pi_cl (ci_p HI) _ _ _ _ _ _ _ Hc) as (Hx & g & rt & pa & L & y & HL & Hj & Hy & _).
  destruct (leaf_at _ _ _ _ _ _ _ _ _ _ _ _ _ HI HL) as (l & l' & E1 & E2 & Hlov & Hrel & _).
  destruct (lk_free _ _ _ _ _ _ (iv_l _ _ _ _ _ (ti_inv (ci_t HI)) _ _ _ _ _ _ HL) _ _ Hy Hj) as [Hy0 Hys].
  pose proof (lo_rest _ _ _ _ Hlov) as Hrest.
  assert (Hik : l_ikey l' = l_ikey l) by (by rewrite Hrest).
  assert (HiS : is_Some (l_ikey l !! j)). { rewrite <- Hik, (lr_ik _ _ _ Hrel), list_lookup_fmap, Hy. by eexists. }
  exists l, tt. eexists _, (mk_cw _ _ (setA p (LF g MFree rt pa (lslot L j (sset_ik ik y))) (ws w1)) (uph (Some (Claimed p j (Some ik) None x None)) (wph w1)) (wmu w1) (wpub w1) (wcn w1)).
  split; [done|]. split; [by rewrite list_set_some|]. split; [done|].
  match goal with |- (CInv ?W /\ _) /\ _ => set (w' := W) end.
  enough (H : CInv w' /\ forall k, k <> i -> Rely k w1 w').
  { split; [exact H|]. split; [apply H|]. split; [|apply uph_i]. eapply later_trans; [by apply (later_rely i)|].  apply (later_rely (S i)), H. lia. }
  refine (put_key K B mb sb mu0 calls i kb Hk8 w1 p g rt pa L l l' j y (sset_ik ik y) None None x None (Some ik) None (with_ikey (<[j := ik]> (l_ikey l)) l) (with_ikey (<[j := ik]> (l_ikey l')) l') HI Hc HL E1 E2 Hy Hy0 Hys _ _ _ _ eq_refl eq_refl eq_refl).
  - by intros a [= <-].
  - done.
  - assert (HW : wp (set_ikey p j ik) (wt w1) (fun _ m' => St m' (setA p (LF g MFree rt pa (lslot L j (sset_ik ik y))) (ws w1)))).
    { eapply wp_set_ikey; [apply (ci_t HI)|exact HL|exact Hy|done]. }
    unfold set_ikey, leaf_up, wp, atomic in HW. cbn in HW. rewrite E2, list_set_some in HW by (by rewrite Hik). exact HW.
  - rewrite Hik. cbn. rewrite Hrest at 1. done.
Qed.
Lemma c_set_kx w p j x : wph w !! i = Some (Claimed p j (Some ik) None x None) ->
  cwp (set_keylenx p j kx) w (fun _ w' => CInv w' /\ later w w' /\ wph w' !! i = Some (Claimed p j (Some ik) (Some kx) x None)).
Proof.
  intros Hph. apply cwp_leaf_up. intros w1 HR HI. assert (Hc : wph w1 !! i = Some (Claimed p j (Some ik) None x None)) by (by rewrite (rl_ph _ _ _ HR)).
  destruct (pi_cl (ci_p HI) _ _ _ _ _ _ _ Hc) as (Hx & g & rt & pa & L & y & HL & Hj & Hy & Hyk & _). specialize (Hyk _ eq_refl).
  destruct (leaf_at _ _ _ _ _ _ _ _ _ _ _ _ _ HI HL) as (l & l' & E1 & E2 & Hlov & Hrel & _).
  destruct (lk_free _ _ _ _ _ _ (iv_l _ _ _ _ _ (ti_inv (ci_t HI)) _ _ _ _ _ _ HL) _ _ Hy Hj) as [Hy0 Hys].
  pose proof (lo_rest _ _ _ _ Hlov) as Hrest.
  assert (Hik : l_klx l' = l_klx l) by (by rewrite Hrest).
  assert (HiS : is_Some (l_klx l !! j)). { rewrite <- Hik, (lr_kx _ _ _ Hrel), list_lookup_fmap, Hy. by eexists. }
  exists l, tt. eexists _, (mk_cw _ _ (setA p (LF g MFree rt pa (lslot L j (sset_kx kx y))) (ws w1)) (uph (Some (Claimed p j (Some ik) (Some kx) x None)) (wph w1)) (wmu w1) (wpub w1) (wcn w1)).
  split; [done|]. split; [by rewrite list_set_some|]. split; [done|].
  match goal with |- (CInv ?W /\ _) /\ _ => set (w' := W) end.
  enough (H : CInv w' /\ forall k, k <> i -> Rely k w1 w').
  { split; [exact H|]. split; [apply H|]. split; [|apply uph_i]. eapply later_trans; [by apply (later_rely i)|]. apply (later_rely (S i)), H. lia. }
  refine (put_key K B mb sb mu0 calls i kb Hk8 w1 p g rt pa L l l' j y (sset_kx kx y) (Some ik) None x None (Some ik) (Some kx) (with_klx (<[j := kx]> (l_klx l)) l) (with_klx (<[j := kx]> (l_klx l')) l') HI Hc HL E1 E2 Hy Hy0 Hys _ _ _ _ eq_refl eq_refl eq_refl).
  - by intros a [= <-].
  - by intros a [= <-].
  - assert (HW : wp (set_keylenx p j kx) (wt w1) (fun _ m' => St m' (setfv [] (setA p (LF g MFree rt pa (lslot L j (sset_kx kx y))) (ws w1))))).
    { eapply (wp_set_keylenx (wt w1) (ws w1)); [apply (ci_t HI)|exact HL|exact Hy| |done]. rewrite (ti_fv (ci_t HI)). unfold srefs. cbn. by rewrite Hy0. }
    unfold set_keylenx, leaf_up, wp, atomic in HW. cbn in HW. rewrite E2, list_set_some in HW by (by rewrite Hik).
    replace (setA p _ (ws w1)) with (setfv [] (setA p (LF g MFree rt pa (lslot L j (sset_kx kx y))) (ws w1))); [exact HW|].
    pose proof (ti_fv (ci_t HI)) as Ef. destruct (ws w1). cbn in *. by rewrite Ef.
  - rewrite Hik. cbn. rewrite Hrest at 1. done.
Qed.

(** the value *)
Lemma c_alloc w p j x : wph w !! i = Some (Claimed p j (Some ik) (Some kx) x None) ->
  cwp (output_to_raw v) w (fun h w' => CInv w' /\ later w w' /\ h <> 0%N /\ wph w' !! i = Some (Claimed p j (Some ik) (Some kx) x (Some h))).
Proof.
  intros Hph. apply cwp_put. intros w1 HR HI. assert (Hc : wph w1 !! i = Some (Claimed p j (Some ik) (Some kx) x None)) by (by rewrite (rl_ph _ _ _ HR)).
  destruct (put_alloc K B mb sb mu0 calls i kb Hkb Hk8 w1 p j _ _ x v HI Hc Hcall) as (Hz & H).
  eexists _, (mk_cw _ _ _ _ _ _ _). split; [reflexivity|]. split; [exact H|]. split; [apply H|].
  split; [|split; [exact Hz|apply uph_i]]. eapply later_trans; [by apply (later_rely i)|]. by apply la_same.
Qed.
(** the slot of a thread, written by it *)
Lemma c_own w p j a1 a2 x h y c : wph w !! i = Some (Claimed p j a1 a2 x h) ->
  hnd c = h -> is_pub c = false ->
  match c with
  | Some (Claimed p' j' b1 b2 y' _) => p' = p /\ j' = j /\ b1 = a1 /\ b2 = a2 /\ y' = y /\ y <> 0%N
  | _ => y = 0%N /\ wpub w <> []
  end ->
  cwp (cas_slot_value p j x y) w (fun r w' => r = None /\ CInv w' /\ later w w' /\ wph w' !! i = c).
Proof.
  intros Hph Hh Hp Hc0. apply cwp_leaf_up. intros w1 HR HI. assert (Hc : wph w1 !! i = Some (Claimed p j a1 a2 x h)) by (by rewrite (rl_ph _ _ _ HR)).
  destruct (pi_cl (ci_p HI) _ _ _ _ _ _ _ Hc) as (Hx & g & rt & pa & L & z & HL & Hj & Hz & Hz1 & Hz2).
  destruct (leaf_at _ _ _ _ _ _ _ _ _ _ _ _ _ HI HL) as (l & l' & E1 & E2 & Hlov & Hrel & _).
  pose proof (lo_cl _ _ _ _ Hlov _ _ _ _ _ _ Hc) as Hv. pose proof (later_rely _ _ _ HR) as Hla.
  exists l, None. eexists _, (mk_cw _ (wt w1) (ws w1) (uph c (wph w1)) (wmu w1) (wpub w1) (wcn w1)). split; [done|].
  split; [rewrite Hv; cbn; rewrite N.eqb_refl, list_set_some by (by eexists); done|]. split; [done|].
  match goal with |- (CInv ?W /\ _) /\ _ => set (w' := W) end.
  enough (H : CInv w' /\ forall k, k <> i -> Rely k w1 w').
  { split; [exact H|]. split; [done|]. split; [apply H|]. split; [|apply uph_i]. eapply later_trans; [exact Hla|]. by apply la_same. }
  apply (put_val K B mb sb mu0 calls i kb Hk8 w1 p g rt pa L l j y c); try done.
  - rewrite <- (lr_len _ _ _ Hrel). by eapply lookup_lt_Some.
  - intros i' b1 b2 b3 b4 Hi'. by eapply (pi_sep (ci_p HI)).
  - intros p' j' b1 b2 b3 b4 Hi'. rewrite Hc in Hi'. injection Hi' as <- <-. done.
  - by rewrite Hc.
  - by rewrite Hh, Hc.
  - destruct c as [[p' j' b1 b2 y' h'| | |]|]; try (destruct Hc0 as [H1 H2]; split; [done|by eapply pub_later]).
    destruct Hc0 as (-> & -> & -> & -> & -> & Hy0). repeat (split; [done|]). exists z. done.
Qed.
Lemma c_vp w p j a1 a2 x h : wph w !! i = Some (Claimed p j a1 a2 x h) -> rd (val_ptr p j) w (fun r _ => r = x).
Proof.
  intros Hph. apply rd_at. intros w1 HR HI. assert (Hc : wph w1 !! i = Some (Claimed p j a1 a2 x h)) by (by rewrite (rl_ph _ _ _ HR)).
  destruct (pi_cl (ci_p HI) _ _ _ _ _ _ _ Hc) as (Hx & g & rt & pa & L & z & HL & Hj & Hz & Hz1 & Hz2).
  destruct (leaf_at _ _ _ _ _ _ _ _ _ _ _ _ _ HI HL) as (l & l' & E1 & E2 & Hlov & Hrel & _). exists x. by rewrite E1, (lo_cl _ _ _ _ Hlov _ _ _ _ _ _ Hc).
Qed.
(** giving the value up *)
Lemma c_clean w h : wph w !! i = Some (Dropping h) -> wpub w <> [] ->
  cwp (cleanup_value_ptr h) w (fun _ w' => CInv w' /\ later w w' /\ wph w' !! i = None).
Proof.
  intros Hph Hpub. apply cwp_put. intros w1 HR HI. assert (Hc : wph w1 !! i = Some (Dropping h)) by (by rewrite (rl_ph _ _ _ HR)).
  pose proof (later_rely _ _ _ HR) as Hla.
  destruct (put_drop K B mb sb mu0 calls i w1 h HI Hc (pub_later _ _ Hla Hpub)) as ([x Hx] & H).
  eexists tt, (mk_cw _ _ _ _ _ _ _). split; [unfold reclaim1; rewrite Hx; reflexivity|]. split; [exact H|]. split; [apply H|].
  split; [|apply uph_i]. eapply later_trans; [exact Hla|]. by apply la_same.
Qed.
Lemma c_count w : wph w !! i = Some Published -> cwp inc_count w (fun _ w' => wph w' !! i = Some Counted).
Proof.
  intros Hph. apply cwp_put. intros w1 HR HI. assert (Hc : wph w1 !! i = Some Published) by (by rewrite (rl_ph _ _ _ HR)).
  pose proof (put_count K B mb sb mu0 calls i kb Hkb Hk8 w1 HI Hc) as H.
  eexists tt, (mk_cw _ _ _ _ _ _ _). split; [reflexivity|]. split; [exact H|]. apply uph_i.
Qed.
(** the publication *)
Lemma c_perm p g rt pa L Lb md0 w j pos np h : sA sb !! p = Some (LF g md0 rt pa Lb) -> grown (<[p := LF g MFree rt pa L]> ∅) (sA (ws w)) ->
  (wpub w = [] -> lb_perm L = lb_perm Lb) -> length (lb_sl L) = 24 ->
  g_lid g = MAIN -> (g_lo g <= ik < g_hi g)%N -> searched L kb (NotFound pos) ->
  p_wf P24 np -> active_slots np = take pos (ids L) ++ j :: drop pos (ids L) ->
  wph w !! i = Some (Claimed p j (Some ik) (Some kx) h (Some h)) ->
  cwp (cas_permutation_raw p (lb_perm L) np) w (fun r w' => match r with
    | None => wph w' !! i = Some Published
    | Some raw => is_frozen raw = false /\ CInv w' /\ later w w' /\ wpub w' <> [] /\ wph w' !! i = Some (Claimed p j (Some ik) (Some kx) h (Some h))
    end).
Proof.
  intros Hb Hs Hpm Hlen Hg Hik Hsr Hnw Hact Hph. apply cwp_leaf_up. intros w1 HR HI.
  assert (Hc : wph w1 !! i = Some (Claimed p j (Some ik) (Some kx) h (Some h))) by (by rewrite (rl_ph _ _ _ HR)).
  pose proof (later_rely _ _ _ HR) as Hla.
  destruct (old_leaf _ _ _ _ _ _ _ Hs _ HR) as (L1 & HL1 & HG).
  destruct (leaf_at _ _ _ _ _ _ _ _ _ _ _ _ _ HI HL1) as (l & l' & E1 & E2 & Hlov & Hrel & Epm & _).
  pose proof (iv_l _ _ _ _ _ (ti_inv (ci_t HI)) _ _ _ _ _ _ HL1) as HLk. exists l. rewrite Epm.
  destruct (N.eqb_spec (lb_perm L1) (lb_perm L)) as [Ep|Ep].
  - destruct (lgrow_same L L1) as [Ei Ee]; [by rewrite Hlen, (lk_len _ _ _ _ _ _ HLk)|done|done|].
    destruct (pi_cl (ci_p HI) _ _ _ _ _ _ _ Hc) as (Hx & g' & rt' & pa' & L' & z & HL' & Hj & Hz & _).
    rewrite HL1 in HL'. injection HL' as <- <- <- <-.
    assert (Hsr1 : searched L1 kb (NotFound pos)) by (unfold searched; rewrite Ee; exact Hsr).
    rewrite <- Ei in Hact.
    destruct (put_pub K B mb sb mu0 calls i kb v Hkb Hk8 HK Hcall w1 p g rt pa L1 l l' z j pos np h HI Hc HL1 E1 E2 Hz Hg Hik Hsr1 Hnw Hact) as (H1 & _ & H2).
    eexists None, _, (mk_cw _ _ _ _ _ _ _). split; [done|]. split; [reflexivity|]. split; [reflexivity|]. split; [split; [exact H1|exact H2]|]. apply uph_i.
  - exists (Some (lb_perm L1)), l, w1. split; [done|]. split; [done|]. split; [by rewrite mem_same|]. split; [by apply same_put|].
    split; [exact (ids_not_frozen _ (lk_perm _ _ _ _ _ _ HLk))|]. split; [done|]. split; [done|]. split; [|done].
    intros E. apply Ep. rewrite (gi_perm (ci_g HI) E _ _ _ _ _ _ _ _ _ _ _ Hb HL1). symmetry. apply Hpm. by apply (la_pub _ _ Hla).
Qed.
End S.
