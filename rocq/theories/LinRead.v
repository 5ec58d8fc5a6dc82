(** Lookups on one leaf under interference. *)
From Verif Require Import Base Perm PermFacts PermLaws SpecPerm Key SpecKey KeyFacts Prog Version VersionFacts Mem Tree
  SpecTree TreeState TreeRead TreeTop SpecLin Lin.

Section K.
Context (K : list bytes) (HK : Forall (fun k => length k <= 8 /\ is_bytes k) K).
Local Notation Inv := (Inv K).
Local Notation cwp := (cwp K).
Local Notation reads := (reads K).
Local Notation places := (status -> Prop).
Local Notation anyΦ := (fun _ _ _ _ => True).

Lemma K_in k : k ∈ K -> length k <= 8 /\ is_bytes k.
Proof. intros H. rewrite Forall_forall in HK. by apply HK. Qed.
Lemma key_same a b : length a <= 8 -> length b <= 8 -> is_bytes a -> is_bytes b -> kik a = kik b -> length a = length b -> a = b.
Proof.
  intros La Lb Ba Bb Hk Hl. pose proof (ikey_len_inj a b 0 0 Ba Bb ltac:(lia) ltac:(lia) Hk) as H.
  rewrite !current_len_pos in H. cbn [Nat.mul] in H. change (drop 0 a) with a in H. change (drop 0 b) with b in H.
  rewrite !take_ge in H by lia. apply H. by rewrite Hl.
Qed.
Lemma has_key_same l s a b : length a <= 8 -> length b <= 8 -> is_bytes a -> is_bytes b ->
  has_key l s a -> has_key l s b -> a = b.
Proof. intros ???? [H1 H2] [H3 H4]. apply key_same; try done; [congruence|]. rewrite H2 in H4. injection H4. lia. Qed.

(** *** reads of the fixed parts *)
Lemma reads_flag i (f : N -> bool) w (O : places) (Φ : bool -> world -> leaf -> places -> Prop) :
  (exists s, O s) -> (forall w' l' (O' : places), Rely i w w' -> Inv w' l' -> Φ (f (l_ver l')) w' l' O') ->
  reads i (flag 2 f) w O Φ.
Proof.
  intros Hs H. eapply reads_bind; [apply (reads_ver K i w O (fun r _ l' _ => r = l_ver l')); [done|done]|].
  intros r w' l' O' HR HI HO ->. eapply reads_ret; [done|]. by apply H.
Qed.
Lemma reads_root i w (O : places) : (exists s, O s) -> reads i load_root w O (fun r _ _ _ => r = 2%N).
Proof. intros Hs. apply reads_load; [done|]. intros w' l' HR HI. exists 2%N. by rewrite (iv_root _ _ _ HI). Qed.
Lemma ver_is_leaf w l : Inv w l -> v_is_leaf (l_ver l) = true.
Proof. intros HI. exact (vbits_leaf _ _ _ _ (iv_ver _ _ _ HI)). Qed.
Lemma ver_not_deleted w l : Inv w l -> v_is_deleted (l_ver l) = false.
Proof. intros HI. exact (vbits_deleted _ _ _ _ (iv_ver _ _ _ HI)). Qed.
Lemma ver_not_splitting w l : Inv w l -> v_is_splitting (l_ver l) = false.
Proof. intros HI. pose proof (vbits_splitting _ _ _ _ (iv_ver _ _ _ HI)) as H. by destruct (wow w). Qed.

Lemma mono_ex (O O' : places) : (exists s, O s) -> (forall s, O s -> O' s) -> exists s, O' s.
Proof. intros [s H] H'. exists s. auto. Qed.

Lemma reads_stable i n w (O : places) : (exists s, O s) -> reads i (stable n 2) w O anyΦ.
Proof.
  unfold stable. revert w O. induction n as [|n IH]; intros w O Hs; cbn [ver_stable]; [intros Q _; reflexivity|].
  eapply reads_bind; [by apply (reads_ver K i w O anyΦ)|]. intros v w' l' O' HR HI HO _.
  destruct (v_is_dirty v); [apply IH; by eapply mono_ex|by eapply reads_ret].
Qed.
Lemma reads_has_changed i old w (O : places) : (exists s, O s) -> reads i (has_changed 2 old) w O anyΦ.
Proof.
  intros Hs. eapply reads_bind; [by apply (reads_ver K i w O anyΦ)|]. intros v w' l' O' HR HI HO _. by eapply reads_ret.
Qed.
Lemma reads_has_split i old w (O : places) : (exists s, O s) -> reads i (has_split 2 old) w O anyΦ.
Proof.
  intros Hs. eapply reads_bind; [by apply (reads_ver K i w O anyΦ)|]. intros v w' l' O' HR HI HO _. by eapply reads_ret.
Qed.
Lemma reads_next i w (O : places) : (exists s, O s) -> reads i (next_raw 2) w O (fun r _ _ _ => r = 0%N).
Proof. intros Hs. apply reads_leaf; [done|]. intros w' l' HR HI. exists 0%N. by rewrite (iv_next _ _ _ HI). Qed.
Lemma reads_prev i w (O : places) : (exists s, O s) -> reads i (prev 2) w O (fun r _ _ _ => r = 0%N).
Proof. intros Hs. apply reads_leaf; [done|]. intros w' l' HR HI. exists 0%N. by rewrite (iv_prev _ _ _ HI). Qed.
Lemma reads_parent i w (O : places) : (exists s, O s) -> reads i (leaf_parent 2) w O (fun r _ _ _ => r = 0%N).
Proof. intros Hs. apply reads_leaf; [done|]. intros w' l' HR HI. exists 0%N. by rewrite (iv_par _ _ _ HI). Qed.

Lemma reads_maybe_parent i F w (O : places) : (exists s, O s) -> reads i (maybe_parent F 2) w O (fun r _ _ _ => r = 2%N).
Proof.
  intros Hs. destruct F as [|F]; cbn [maybe_parent]; [intros Q _; reflexivity|].
  eapply reads_bind; [apply (reads_flag i v_is_leaf w O (fun r _ _ _ => r = true)); [done|]; intros; by eapply ver_is_leaf|].
  intros r w' l' O' HR HI HO ->. eapply reads_bind; [apply reads_parent; by eapply mono_ex|].
  intros r w2 l2 O2 HR2 HI2 HO2 ->. cbn. by eapply reads_ret.
Qed.
Lemma reads_reach i F n st ik w (O : places) : (exists s, O s) -> reads i (reach_leaf F n st 2 ik) w O (fun r _ _ _ => r = 2%N).
Proof.
  intros Hs. destruct n as [|n]; cbn [reach_leaf]; [intros Q _; reflexivity|].
  eapply reads_bind; [by apply reads_stable|]. intros v w1 l1 O1 HR1 HI1 HO1 _.
  eapply reads_bind; [apply (reads_flag i v_is_leaf w1 O1 (fun r _ _ _ => r = true)); [by eapply mono_ex|]; intros; by eapply ver_is_leaf|].
  intros r w2 l2 O2 HR2 HI2 HO2 ->. by eapply reads_ret.
Qed.
Lemma reads_advance i F ik old w (O : places) : (exists s, O s) ->
  reads i (advance_to_key F 2 ik old) w O (fun r _ _ _ => r.1 = 2%N).
Proof.
  intros Hs. unfold advance_to_key. eapply reads_bind; [by apply reads_stable|]. intros v w1 l1 O1 HR1 HI1 HO1 _.
  eapply reads_bind; [apply reads_has_split; by eapply mono_ex|]. intros sp w2 l2 O2 HR2 HI2 HO2 _.
  assert (exists s, O2 s) as Hs2 by (eapply mono_ex; [|done]; by eapply mono_ex).
  eapply reads_bind.
  { destruct sp; [by eapply (reads_ret K i true w2 l2 O2 anyΦ)|by apply (reads_flag i v_is_splitting w2 O2 anyΦ)]. }
  intros go w3 l3 O3 HR3 HI3 HO3 _. assert (exists s, O3 s) as Hs3 by (by eapply mono_ex).
  destruct go; [|by eapply reads_ret].
  eapply reads_bind; [by apply reads_stable|]. intros v' w4 l4 O4 HR4 HI4 HO4 _.
  destruct F as [|F]; cbn [advance_loop]; [intros Q _; reflexivity|].
  eapply reads_bind; [apply (reads_flag i v_is_deleted w4 O4 (fun r _ _ _ => r = false)); [by eapply mono_ex|]; intros; by eapply ver_not_deleted|].
  intros r w5 l5 O5 HR5 HI5 HO5 ->. eapply reads_bind; [apply reads_next; eapply mono_ex; [|done]; by eapply mono_ex|].
  intros r w6 l6 O6 HR6 HI6 HO6 ->. cbn. by eapply reads_ret.
Qed.
Lemma reads_by_bound i F ik w (O : places) : (exists s, O s) ->
  reads i (advance_by_bound F 2 ik) w O (fun r _ _ _ => r = (2%N, false)).
Proof.
  intros Hs. unfold advance_by_bound.
  eapply reads_bind; [apply (reads_flag i v_is_splitting w O (fun r _ _ _ => r = false)); [done|]; intros; by eapply ver_not_splitting|].
  intros r w1 l1 O1 HR1 HI1 HO1 ->. cbn [bind].
  destruct F as [|F]; cbn [by_bound_loop]; [intros Q _; reflexivity|].
  change (MAX_BLINK_HOPS <=? 0) with false. cbn iota.
  eapply reads_bind; [apply reads_next; by eapply mono_ex|].
  intros r w6 l6 O6 HR6 HI6 HO6 ->. cbn. by eapply reads_ret.
Qed.

(** *** the scan *)
(** slot [s] is in use and holds key [k] *)
Definition act (w : world) (s : nat) (k : bytes) : Prop :=
  exists l, lf w l /\ s ∈ active_slots (l_perm l) /\ has_key l s k.
Lemma act_rely i w w' s k : Rely i w w' -> act w s k -> act w' s k.
Proof.
  intros HR (l & Hl & Hs & Hk). destruct (rl_lf _ _ _ HR l Hl) as (l' & Hl' & Ha & _).
  destruct (Ha s Hs) as [Hs' Hk']. exists l'. auto.
Qed.
Lemma act_at w l s k : Inv w l -> act w s k -> s ∈ active_slots (l_perm l) /\ has_key l s k.
Proof.
  intros HI (l' & Hl & Hs & Hk). pose proof (iv_lf _ _ _ HI) as H. unfold lf in *.
  assert (l' = l) as -> by congruence. done.
Qed.
Lemma act_val w l s k : Inv w l -> k ∈ K -> act w s k ->
  exists h v, l_val l !! s = Some h /\ h <> 0%N /\ vals (wm w) !! h = Some v /\ wmu w !! k = Some v.
Proof.
  intros HI Hk Ha. destruct (act_at _ _ _ _ HI Ha) as [Hs Hh].
  destruct (iv_act _ _ _ HI s Hs) as (k' & h & v & Hk' & Hh' & H1 & H2 & H3 & H4).
  apply K_in in Hk as [??]. apply K_in in Hk' as [??].
  assert (k' = k) as -> by (by eapply has_key_same). by exists h, v.
Qed.

Section Lookup.
Context (i : nat) (kb : bytes) (Hb : is_bytes kb) (o : op)
  (Ho : forall mu, map_step mu o = (AGet (mu !! kb), mu)).

(** what a lookup may report: the value of [kb] at some instant *)
Definition seen (w : world) (O : places) (r : option N) : Prop :=
  match r with
  | Some h => exists v, vals (wm w) !! h = Some v /\ O (Done (AGet (Some v)))
  | None => O (Done (AGet None))
  end.
Lemma search_keylenx_short k : k ∈ K -> (N.of_nat (length k) =? search_keylenx (kpos kb 0))%N = true -> length kb <= 8 /\ length k = length kb.
Proof.
  intros Hk. apply K_in in Hk as [Hk _]. unfold search_keylenx. rewrite has_suffix_pos, current_len_pos. cbn [Nat.mul].
  change (drop 0 kb) with kb. destruct (Nat.ltb_spec 8 (length kb)); rewrite N.eqb_eq; unfold KSUF_KEYLENX; lia.
Qed.
Lemma seen_rely w w' (O O' : places) h : Rely i w w' -> (forall s, O s -> O' s) -> seen w O (Some h) -> seen w' O' (Some h).
Proof.
  intros HR HO (v & Hv & Hd). exists v. split; [|auto]. pose proof (rl_vals _ _ _ HR) as Hs.
  eapply lookup_weaken; done.
Qed.

Lemma reads_scan slots w (O : places) l : Inv w l -> O (Pending o) ->
  (forall s, s ∈ slots -> exists k, k ∈ K /\ act w s k) ->
  reads i (scan_leaf 2 (kpos kb 0) slots) w O (fun r w' _ O' =>
    match r with
    | Some (kx, ptr) => (kx < 128)%N /\ seen w' O' (Some ptr)
    | None => forall s, s ∈ slots -> ~ act w s kb
    end).
Proof.
  revert w O l. induction slots as [|s slots IH]; intros w O l HI Hp Hs; cbn [scan_leaf].
  { eapply reads_ret; [done|]. intros s H. by apply elem_of_nil in H. }
  destruct (Hs s ltac:(left)) as (k & Hk & Ha). destruct (K_in k Hk) as [Hk8 Hkb].
  assert (Hrec : forall w' l' (O' : places), Rely i w w' -> Inv w' l' -> (forall s, O s -> O' s) -> ~ act w s kb ->
    reads i (scan_leaf 2 (kpos kb 0) slots) w' O' (fun r w' _ O' =>
    match r with
    | Some (kx, ptr) => (kx < 128)%N /\ seen w' O' (Some ptr)
    | None => forall s', s' ∈ s :: slots -> ~ act w s' kb
    end)).
  { intros w' l' O' HR HI' HO Hn. eapply reads_weaken; [eapply IH; [done|auto|]|].
    - intros s' Hs'. destruct (Hs s' ltac:(by right)) as (k' & ? & ?). exists k'. split; [done|]. by eapply act_rely.
    - intros r w2 l2 O2 HR2 HI2 HO2 HP. cbn beta in *. destruct r as [[kx ptr]|]; [done|].
      intros s' [->|Hs']%elem_of_cons; [done|]. intros Ha'. apply (HP s' Hs'). by eapply act_rely. }
  eapply reads_bind.
  { apply (reads_leaf K i _ w O (fun r _ _ _ => r = kik k)); [by eexists|].
    intros w' l' HR HI'. exists (kik k). split; [|done].
    by apply (act_at w' l' s k HI'), (act_rely i w). }
  intros r w1 l1 O1 HR1 HI1 HO1 ->. change (k_ikey (kpos kb 0)) with (kik kb).
  destruct (N.eqb_spec (kik k) (kik kb)) as [He|Hne].
  2:{ apply (Hrec w1 l1); try done. intros Ha'. pose proof (act_at w l s k HI Ha) as [_ [E1 _]]. pose proof (act_at w l s kb HI Ha') as [_ [E2 _]]. congruence. }
  eapply reads_bind.
  { apply (reads_leaf K i _ w1 O1 (fun r _ _ _ => r = N.of_nat (length k))); [by eexists; apply HO1|].
    intros w' l' HR HI'. exists (N.of_nat (length k)). split; [|done].
    eapply (act_at w' l' s k HI'), act_rely; [|done]. by eapply rely_trans. }
  intros r w2 l2 O2 HR2 HI2 HO2 ->.
  assert (Rely i w w2) as HRa by (by eapply rely_trans).
  eapply reads_bind.
  { apply (reads_leaf K i _ w2 O2 (fun r w' _ O' => r <> 0%N /\ (k = kb -> seen w' O' (Some r)))); [eexists; by apply HO2, HO1|].
    intros w' l' HR HI'. assert (act w' s k) as Ha' by (eapply act_rely; [|done]; by eapply rely_trans).
    destruct (act_val w' l' s k HI' Hk Ha') as (h & v & H1 & H2 & H3 & H4). exists h. split; [done|].
    intros O' HO'. split; [done|]. intros ->. exists v. split; [done|]. rewrite <- H4. eapply HO'; [by apply HO2, HO1|apply Ho]. }
  intros ptr w3 l3 O3 HR3 HI3 HO3 [Hnz Hseen].
  assert (Rely i w w3) as HRb by (by eapply rely_trans).
  destruct (N.eqb_spec ptr 0) as [->|_]; [done|].
  destruct (N.of_nat (length k) =? search_keylenx (kpos kb 0))%N eqn:Esk.
  - apply search_keylenx_short in Esk as [Hb8 Hlen]; [|done].
    assert (k = kb) as Hkk by (by apply key_same). 
    assert (N.of_nat (length k) =? KSUF_KEYLENX = false)%N as -> by (apply N.eqb_neq; unfold KSUF_KEYLENX; lia).
    cbn [bind]. eapply reads_ret; [done|]. split; [lia|]. by apply Hseen.
  - assert (LAYER_KEYLENX <=? N.of_nat (length k) = false)%N as -> by (apply N.leb_gt; unfold LAYER_KEYLENX; lia).
    cbn [andb]. apply (Hrec w3 l3); try done; [auto|]. intros Ha'.
    pose proof (act_at w l s k HI Ha) as [_ Hh]. pose proof (act_at w l s kb HI Ha') as [_ Hh'].
    assert (length k = length kb) as Hl by (destruct Hh as [_ E1]; destruct Hh' as [_ E2]; rewrite E1 in E2; injection E2; lia).
    apply N.eqb_neq in Esk. apply Esk. unfold search_keylenx. rewrite has_suffix_pos, current_len_pos. cbn [Nat.mul].
    change (drop 0 kb) with kb. destruct (Nat.ltb_spec 8 (length kb)); [lia|]. by rewrite Hl.
Qed.

Lemma reads_get_loop F n st w l (O : places) : Inv w l -> O (Pending o) ->
  st = GLayer 2 \/ st = GLeaf 2 2 \/ (exists v, st = GSearch 2 2 v) ->
  reads i (get_loop F n (kpos kb 0) st) w O (fun r w' _ O' => seen w' O' r).
Proof.
  revert st w l O. induction n as [|n IH]; intros st w l O HI Hp Hst; cbn [get_loop]; [intros Q _; reflexivity|].
  destruct Hst as [->|[->|[v ->]]].
  - eapply reads_bind; [apply reads_maybe_parent; by eexists|]. intros r w1 l1 O1 HR1 HI1 HO1 ->.
    eapply reads_bind; [apply reads_reach; eexists; by apply HO1|]. intros r w2 l2 O2 HR2 HI2 HO2 ->.
    eapply IH; [done|by auto|auto].
  - eapply reads_bind; [apply reads_stable; by eexists|]. intros r w1 l1 O1 HR1 HI1 HO1 _.
    eapply IH; [done|by auto|eauto].
  - eapply reads_bind; [apply (reads_flag i v_is_deleted w O (fun r _ _ _ => r = false)); [by eexists|]; intros; by eapply ver_not_deleted|].
    intros r w1 l1 O1 HR1 HI1 HO1 ->.
    eapply reads_bind.
    { apply (reads_leaf K i _ w1 O1 (fun r w' l' O' => r = l_perm l' /\ O' (Done (AGet (wmu w' !! kb))))); [eexists; by apply HO1|].
      intros w' l' HR HI'. exists (l_perm l'). split; [done|]. intros O' HO'. split; [done|]. eapply HO'; [by apply HO1|apply Ho]. }
    intros r w2 l2 O2 HR2 HI2 HO2 [-> Hseen].
    rewrite (ids_not_frozen (l_perm l2) (iv_perm _ _ _ HI2)).
    eapply reads_bind.
    { eapply (reads_scan (active_slots (l_perm l2)) w2 O2 l2); [done|auto|]. intros s Hs.
      destruct (iv_act _ _ _ HI2 s Hs) as (k & h & v' & Hk & Hh & _). exists k. split; [done|].
      exists l2. split; [by apply HI2|done]. }
    intros snap w3 l3 O3 HR3 HI3 HO3 Hsnap. cbn beta in Hsnap.
    eapply reads_bind; [apply reads_has_changed; eexists; by apply HO3, HO2, HO1|].
    intros ch w4 l4 O4 HR4 HI4 HO4 _. destruct ch.
    + eapply reads_bind; [apply reads_advance; eexists; by apply HO4, HO3, HO2, HO1|].
      intros [q v'] w5 l5 O5 HR5 HI5 HO5 Hq. cbn in Hq. subst q. change (2 =? 2)%N with true. cbn iota.
      eapply IH; [done|by auto 10|eauto].
    + destruct snap as [[kx ptr]|].
      * destruct Hsnap as [Hkx Hptr]. assert (LAYER_KEYLENX <=? kx = false)%N as -> by (apply N.leb_gt; unfold LAYER_KEYLENX; lia).
        eapply reads_ret; [done|]. by eapply seen_rely.
      * assert (wmu w2 !! kb = None) as Hnone.
        { destruct (wmu w2 !! kb) as [v'|] eqn:Em; [|done]. destruct (iv_map _ _ _ HI2 kb v' Em) as (_ & s & Hs & Hh).
          destruct (Hsnap s Hs). exists l2. split; [by apply HI2|done]. }
        rewrite Hnone in Hseen.
        eapply reads_bind; [apply (reads_flag i v_is_dirty w4 O4 anyΦ); [eexists; by apply HO4, HO3, HO2, HO1|done]|].
        intros d w5 l5 O5 HR5 HI5 HO5 _. destruct d.
        -- eapply reads_bind; [apply reads_stable; eexists; by apply HO5, HO4, HO3, HO2, HO1|].
           intros v' w6 l6 O6 HR6 HI6 HO6 _. eapply IH; [done|by auto 10|eauto].
        -- eapply reads_bind; [apply reads_next; eexists; by apply HO5, HO4, HO3, HO2, HO1|].
           intros r w6 l6 O6 HR6 HI6 HO6 ->. cbn. eapply reads_ret; [done|]. cbn. by auto 10.
Qed.
End Lookup.

Lemma reads_get i kb F w l (O : places) o : is_bytes kb -> length kb <= 256 ->
  (forall mu, map_step mu o = (AGet (mu !! kb), mu)) ->
  Inv w l -> O (Pending o) ->
  reads i (get F kb) w O (fun r _ _ O' => O' (Done (AGet r))).
Proof.
  intros Hb Hl Ho HI Hp. unfold get. rewrite key_new_ok by done.
  eapply reads_bind; [apply reads_root; by eexists|]. intros r w1 l1 O1 HR1 HI1 HO1 ->.
  eapply reads_bind; [eapply (reads_get_loop i kb Hb o Ho); [done|auto|auto]|].
  intros r w2 l2 O2 HR2 HI2 HO2 Hseen. cbn beta in Hseen. destruct r as [h|].
  - destruct Hseen as (v & Hv & Hd). eapply reads_bind.
    { apply (reads_load K i _ w2 O2 (fun r _ _ _ => r = v)); [by eexists|].
      intros w' l' HR HI'. exists v. split; [|done].
      rewrite (lookup_weaken _ _ _ _ Hv (rl_vals _ _ _ HR)). done. }
    intros r w3 l3 O3 HR3 HI3 HO3 ->. eapply reads_ret; [done|]. by apply HO3.
  - by eapply reads_ret.
Qed.
Lemma cwp_peq {A} i (p q : P A) : peq p q -> forall w (O : places) (Q : A -> world -> places -> Prop), cwp i q w O Q -> cwp i p w O Q.
Proof.
  induction 1 as [| |R f k k' Hk IH]; intros w O Q; cbn; [done..|].
  intros H w1 l1 HR HI. destruct (H w1 l1 HR HI) as (r & w2 & l2 & H1 & H2 & H3 & H4 & H5).
  exists r, w2, l2. split; [done|]. split; [done|]. split; [done|]. split; [done|]. by apply IH.
Qed.
(** the emptiness test: one look at the permutation *)
Lemma reads_is_empty i w l (O : places) : Inv w l -> O (Pending IsEmpty) ->
  reads i is_empty w O (fun r _ _ O' => O' (Done (AEmpty r))).
Proof.
  intros HI Hp. unfold is_empty. eapply reads_bind; [apply reads_root; by eexists|]. intros r w1 l1 O1 HR1 HI1 HO1 ->.
  eapply reads_bind; [apply (reads_flag i v_is_leaf w1 O1 (fun r _ _ _ => r = true)); [eexists; by apply HO1|]; intros; by eapply ver_is_leaf|].
  intros r w2 l2 O2 HR2 HI2 HO2 ->.
  eapply reads_bind; [apply reads_root; eexists; by apply HO2, HO1|]. intros r w3 l3 O3 HR3 HI3 HO3 ->.
  eapply reads_bind.
  { apply (reads_leaf K i _ w3 O3 (fun r w' l' O' => O' (Done (AEmpty (Nat.eqb (perm_size r) 0))))); [eexists; by apply HO3, HO2, HO1|].
    intros w' l' HR HI'. exists (l_perm l'). split; [done|]. intros O' HO'. 
    assert (Nat.eqb (perm_size (l_perm l')) 0 = bool_decide (wmu w' = ∅)) as ->.
    { rewrite (iv_size _ _ _ HI'). destruct (Nat.eqb_spec (size (wmu w')) 0) as [E|E]; symmetry.
      - apply bool_decide_eq_true. by apply map_size_empty_inv.
      - apply bool_decide_eq_false. intros E'. apply E. rewrite E'. apply map_size_empty. }
    eapply HO'; [by apply HO3, HO2, HO1|done]. }
  intros r w4 l4 O4 HR4 HI4 HO4 Hd. by eapply reads_ret.
Qed.
End K.
