(** Lock-free insertions running at the same time: a whole call. *)
From Verif Require Import Base Perm PermFacts PermList SpecPerm PermLaws Key SpecKey KeyFacts Suffix SpecSuffix SuffixFacts Prog Version VersionFacts VersionTry Mem Tree SpecTree SpecHist TreeState TreePrim TreeInv TreeRead TreeSplit TreeSkel TreeInode TreeProp TreeLeaf TreeContent TreeInsert TreeLayer TreeConv TreeLoop TreeTop TreeLaws Freeze CasInsert CasFacts CasConc CasSteps CasPub CasThread.

Section S.
Context (K : bytes -> N -> Prop) (B : N) (mb : mem) (sb : ast) (mu0 : gmap bytes N) (calls : list (bytes * N)).
Context (i : nat) (kb : bytes) (v : N) (Hkb : is_bytes kb) (Hk8 : length kb <= 8) (HK : K kb v) (Hcall : calls !! i = Some (kb, v)).
Context (HS : St mb sb) (HI0 : Inv K B sb 0 0) (Hfb : free_but [] (sA sb)).
Context (F : nat) (HF : 300 <= F).
Local Notation rd := (rd K B mb sb mu0 calls i).
Local Notation CInv := (CInv K B mb sb mu0 calls).
Local Notation cwp := (cwp K B mb sb mu0 calls i).
Local Notation ik := (be_word (pad8 kb)).
Local Notation kx := (N.of_nat (length kb)).
Local Notation k := (kpos kb 0).
Local Notation post := (cpost i kb).

Lemma rely_ph w w' x : Rely i w w' -> wph w !! i = x -> wph w' !! i = x.
Proof. intros HR <-. apply HR. Qed.

Section At.
Context (p : N) (g : ghost) (md0 : vmode) (rt : bool) (pa : N) (Lb : lbody).
Context (Hb : sA sb !! p = Some (LF g md0 rt pa Lb)) (Hg : g_lid g = MAIN) (Hik : (g_lo g <= ik < g_hi g)%N).
Context (again : P cas_res) (Hagain : forall w, CInv w -> wph w !! i = None -> busy w -> cwp again w post).
(** from the reservation on *)
Lemma c_put L w j pos np ver : grown (<[p := LF g MFree rt pa L]> ∅) (sA (ws w)) -> (wpub w = [] -> lb_perm L = lb_perm Lb) -> length (lb_sl L) = 24 ->
  CInv w -> wph w !! i = None -> rd_ver p mb = Some ver ->
  searched L kb (NotFound pos) -> p_wf P24 np -> active_slots np = take pos (ids L) ++ j :: drop pos (ids L) -> j ∉ ids L -> j < 24 ->
  cwp (c <- cas_slot_value p j 0 CLAIMING ;;
              match c with
              | Some _ => again
              | None =>
              ch <- has_changed_or_locked p ver ;;
              if ch : bool then cas_slot_value p j CLAIMING 0 ;;; again
              else
              store_key_data_for_cas p j ik kx ;;;
              ch <- has_changed_or_locked p ver ;;
              if ch : bool then cas_slot_value p j CLAIMING 0 ;;; again
              else
              h <- output_to_raw v ;;
              c <- cas_slot_value p j CLAIMING h ;;
              match c with
              | Some _ => Fail Panic (* the debug assertion *)
              | None =>
              vp <- val_ptr p j ;;
              if negb (vp =? h)%N then cleanup_value_ptr h ;;; again
              else
              ch <- has_changed_or_locked p ver ;;
              if ch : bool then cas_slot_value p j h 0 ;;; cleanup_value_ptr h ;;; again
              else
              c <- cas_permutation_raw p (lb_perm L) np ;;
              match c with
              | None => inc_count ;;; Ret (CSuccess None)
              | Some raw =>
                  cas_slot_value p j h 0 ;;; cleanup_value_ptr h ;;;
                  if is_frozen raw then Ret CFallback else again
              end
              end
              end) w post.
Proof.
  intros Hs Hpm Hlen HC Hph Hver Hsr Hnw Hact Hj Hj24.
  eapply cwp_use; [eapply (c_claim K B mb sb mu0 calls i kb Hk8 p g rt pa L Lb md0 Hb w j); done|].
  intros c w1 (HC1 & La1 & Hc1). destruct c as [o|]; [destruct Hc1; by apply Hagain|].
  eapply rd_use; [by eapply rd_hcol|exact HC1|]. intros ? w2 R2 HC2 ->. pose proof (later_trans _ _ _ La1 (later_rely _ _ _ R2)) as La2. apply (rely_ph _ _ _ R2) in Hc1.
  unfold store_key_data_for_cas. apply cwp_bind.
  eapply cwp_use; [by eapply c_set_ik|]. intros ? w3 (HC3 & La3 & Hc3). apply (later_trans _ _ _ La2) in La3.
  eapply cwp_mono; [|by eapply (c_set_kx K B mb sb mu0 calls i kb Hk8)]. cbv beta. intros ? w4 (HC4 & La4 & Hc4). apply (later_trans _ _ _ La3) in La4.
  eapply rd_use; [by eapply rd_hcol|exact HC4|]. intros ? w5 R5 HC5 ->. pose proof (later_trans _ _ _ La4 (later_rely _ _ _ R5)) as La5. apply (rely_ph _ _ _ R5) in Hc4.
  eapply cwp_use; [by eapply (c_alloc K B mb sb mu0 calls i kb v Hkb Hk8 Hcall)|]. intros h w6 (HC6 & La6 & Hh & Hc6). apply (later_trans _ _ _ La5) in La6.
  eapply cwp_use; [eapply (c_own K B mb sb mu0 calls i kb Hk8 w6 p j _ _ CLAIMING (Some h) h (Some (Claimed p j (Some ik) (Some kx) h (Some h)))); done|].
  intros ? w7 (-> & HC7 & La7 & Hc7). apply (later_trans _ _ _ La6) in La7.
  eapply rd_use; [by eapply c_vp|exact HC7|]. intros ? w8 R8 HC8 ->. pose proof (later_trans _ _ _ La7 (later_rely _ _ _ R8)) as La8. apply (rely_ph _ _ _ R8) in Hc7.
  rewrite N.eqb_refl. cbn [negb].
  eapply rd_use; [by eapply rd_hcol|exact HC8|]. intros ? w9 R9 HC9 ->. pose proof (later_trans _ _ _ La8 (later_rely _ _ _ R9)) as La9. apply (rely_ph _ _ _ R9) in Hc7.
  eapply cwp_use.
  { eapply (c_perm K B mb sb mu0 calls i kb v Hkb Hk8 HK Hcall p g rt pa L Lb md0 w9 j pos np h); try done.
    - eapply grown_trans; [exact Hs|apply La9].
    - intros E. by apply Hpm, (la_pub _ _ La9). }
  intros [raw|] w10 H10.
  - destruct H10 as (Hfz & HC10 & La10 & Hpub & Hc10). rewrite Hfz.
    eapply cwp_use; [eapply (c_own K B mb sb mu0 calls i kb Hk8 w10 p j _ _ h (Some h) 0%N (Some (Dropping h))); done|].
    intros ? w11 (_ & HC11 & La11 & Hc11). pose proof (pub_later _ _ La11 Hpub) as Hpub11.
    eapply cwp_use; [by eapply c_clean|]. intros ? w12 (HC12 & La12 & Hc12). pose proof (pub_later _ _ La12 Hpub11) as Hpub12.
    apply Hagain; [done|done|by right].
  - eapply cwp_use; [by eapply (c_count K B mb sb mu0 calls i kb)|]. intros ? w11 H11. done.
Qed.
End At.

Lemma c_cas_loop : forall n retries (at_ : option N) w, retries <= 3 -> 2 * (3 - retries) + (if at_ then 1 else 2) <= n -> CInv w -> wph w !! i = None ->
  match at_ with Some q => holds sb MAIN ik q | None => True end ->
  cwp (cas_loop F n k v retries at_) w post.
Proof.
  assert (Eik : k_ikey k = ik) by (apply (ikey_pos kb 0); first [done|lia]).
  assert (Ekx : N.of_nat (key_current_len k) = kx) by (by rewrite current_len_pos).
  assert (Htop : (ik < TOP)%N) by (by apply (ik_top kb Hkb 0)).
  induction n as [|n IH]; intros retries at_ w Hr Hn HC Hph Hat; [destruct at_; lia|].
  cbn [cas_loop]. cbv zeta.
  set (again := if Nat.ltb MAX_CAS_RETRIES (S retries) then Ret CFallback else cas_loop F n k v (S retries) None).
  assert (Hagain : forall w, CInv w -> wph w !! i = None -> busy w -> cwp again w post).
  { intros w1 H1 H2 H3. unfold again. destruct (Nat.ltb_spec MAX_CAS_RETRIES (S retries)) as [Hl|Hl]; unfold MAX_CAS_RETRIES in Hl.
    - split; [done|by right].
    - apply IH; [lia|destruct at_; lia|done|done|done]. }
  destruct (si_root _ _ _ _ (iv_s _ _ _ _ _ HI0)) as (nd & N1 & N2 & N3 & _ & N4). apply skels_some in N1 as (nr & HR & ->). cbn in N2.
  eapply (rd_use _ _ _ _ _ _ _ _ _ _ (fun q _ => lands sb MAIN ik q /\ match at_ with Some q' => q' = q | None => True end)); [|exact HC|].
  { destruct at_ as [q|].
    - apply rd_ret. split; [|done]. destruct Hat as (g & md & rt & pa & L & H1 & H2 & H3). exists g, md, rt, pa, L. split; [done|]. split; [done|]. lia.
    - eapply rd_bind; [apply rd_load_root|]. intros r w1 R1 HC1 ->. rewrite Eik. pose proof (skels_lookup _ _ _ HR) as HR'.
      eapply rd_weaken; [eapply (r_reach_leaf K B mb sb mu0 calls i HS HI0); [lia|exact HR|..]|].
      + pose proof (level_bound _ _ _ _ (iv_s _ _ _ _ _ HI0) _ _ HR'). lia.
      + destruct (si_top _ _ _ _ (iv_s _ _ _ _ _ HI0) _ _ HR' N4 N3) as (T1 & T2 & _).
        pose proof (go_eq _ _ _ (si_gh _ _ _ _ (iv_s _ _ _ _ _ HI0) _ _ HR')) as T3. specialize (T3 N4). cbn [n_gh skel] in T1, T2, T3. lia.
      + intros q w2 _ _ Hq. rewrite N2 in Hq. done. }
  intros p0 w1 R1 HC1 (Hlands & Hat0). apply (rely_ph _ _ _ R1) in Hph.
  eapply rd_use; [rewrite Eik; eapply (r_advance_by_bound K B mb sb mu0 calls i HS HI0 Hfb F ik MAIN); [done|lia|exact Hlands|exact HC1]|exact HC1|].
  intros r w2 R2 HC2 (q & -> & Hq). apply (rely_ph _ _ _ R2) in Hph. cbv iota beta.
  destruct (N.eqb_spec q p0) as [->|Hne].
  2: { cbn [negb]. destruct at_ as [q'|].
    - subst q'. exfalso. apply Hne. by eapply (holds_uniq K B sb HI0 MAIN ik).
    - apply IH; [done|lia|done|done|done]. }
  cbn [negb]. destruct Hq as (g & md & rt & pa & Lb & Hb & Hl & Hik).
  eapply rd_use; [by eapply rd_version|exact HC2|]. intros ver w3 R3 HC3 (Hver & _). apply (rely_ph _ _ _ R3) in Hph.
  eapply rd_use; [eapply (rd_flag _ _ _ _ _ _ _ p0 _ Hb v_is_dirty false); intros; by eapply vbits_free_load|exact HC3|]. intros r w4 R4 HC4 ->. apply (rely_ph _ _ _ R4) in Hph.
  unfold permutation_try.
  eapply (rd_use _ _ _ _ _ _ _ _ _ _ (fun r w' => exists L, sA (ws w') !! p0 = Some (LF g MFree rt pa L) /\ r = Some (lb_perm L))); [|exact HC4|].
  { eapply rd_bind; [eapply rd_permutation; by eapply (base_leaf K B mb sb mu0 calls Hfb)|]. intros r w5 R5 HC5 (L & H1 & _ & ->). apply rd_ret. exists L.
    pose proof (iv_l _ _ _ _ _ (ti_inv (ci_t HC5)) _ _ _ _ _ _ H1) as HLk. by rewrite (ids_not_frozen _ (lk_perm _ _ _ _ _ _ HLk)). }
  intros r w5 R5 HC5 (L & HL & ->). apply (rely_ph _ _ _ R5) in Hph.
  pose proof (iv_l _ _ _ _ _ (ti_inv (ci_t HC5)) _ _ _ _ _ _ HL) as HLk.
  assert (Hs5 : grown (<[p0 := LF g MFree rt pa L]> ∅) (sA (ws w5))).
  { intros a n0 Ha. apply lookup_insert_Some in Ha as [[<- <-]|[_ Ha]]; [|by rewrite lookup_empty in Ha]. eexists. split; [exact HL|apply ngrow_refl]. }
  assert (Hpm5 : wpub w5 = [] -> lb_perm L = lb_perm Lb) by (intros E; exact (gi_perm (ci_g HC5) E _ _ _ _ _ _ _ _ _ _ _ Hb HL)).
  eapply rd_use; [eapply (c_search K B mb sb mu0 calls i kb Hkb Hk8 p0 g rt pa L _ _ HLk); exact Hs5|exact HC5|]. intros sr w6 R6 HC6 Hsr. apply (rely_ph _ _ _ R6) in Hph.
  destruct sr as [s|pos|s|s].
  - cbn. split; [done|]. split; [done|]. destruct Hsr as (Hi & e & He & Hrs).
    assert (Hes : e ∈ es L) by (by eapply rep_x).
    assert (Hen : entry (sA (ws w5)) MAIN e) by (exists p0, g, MFree, rt, pa, L; done).
    destruct (value_entry K B (ws w5) (ti_inv (ci_t HC5)) kb MAIN 0 e Hkb (p_main _ _) Hen Hrs) as (z & W1 & W2).
    exists z. eapply lookup_weaken; [|apply R6]. apply (ti_mu (ci_t HC5)); [done|]. exists (s_ptr e). split; [|done].
    by apply r_here; [done|by eapply rest_lt|done].
  - pose proof (old_leaf _ _ _ _ _ _ _ Hs5 _ R6) as (L6 & HL6 & HG6).
    destruct (Nat.leb_spec WIDTH (perm_size (lb_perm L))) as [Hfull|Hroom]; unfold WIDTH in *.
    + cbn. split; [done|]. split; [done|]. exists p0, g, rt, pa, L6. split; [done|].
      pose proof (iv_l _ _ _ _ _ (ti_inv (ci_t HC6)) _ _ _ _ _ _ HL6) as HLk6.
      assert (Hln : forall M, length (ids M) = perm_size (lb_perm M)) by (intros M; unfold ids, active_slots; by rewrite map_length, seq_length).
      split; [exact (ids_nodup _ (lk_perm _ _ _ _ _ _ HLk6))|].
      rewrite <- Hln. rewrite <- Hln in Hfull. etrans; [exact Hfull|].
      apply submseteq_length, NoDup_submseteq; [exact (ids_nodup _ (lk_perm _ _ _ _ _ _ HLk))|]. intros a Ha. by apply (lg_in _ _ HG6).
    + assert (Hs6 : grown (<[p0 := LF g MFree rt pa L]> ∅) (sA (ws w6))) by (eapply grown_trans; [exact Hs5|apply R6]).
      assert (Hpm6 : wpub w6 = [] -> lb_perm L = lb_perm Lb) by (intros E; by apply Hpm5, (rl_pub _ _ _ R6)).
      eapply rd_use; [eapply (c_pick K B mb sb mu0 calls i kb Hk8 p0 g rt pa L _ _ HLk Lb md Hb (lb_perm L) (k_ikey k) (lk_perm _ _ _ _ _ _ HLk) eq_refl (seq 0 (24 - perm_size (lb_perm L))) w6); [|done|done]|exact HC6|].
      { intros o Ho. apply elem_of_seq in Ho. lia. }
      intros r w7 R7 HC7 Hr7. apply (rely_ph _ _ _ R7) in Hph. destruct r as [[j off]|].
      2: { cbn. split; [done|]. right. apply Hr7. destruct (24 - perm_size (lb_perm L)) eqn:E0; [lia|done]. }
      destruct Hr7 as [Ho ->]. apply elem_of_seq in Ho.
      assert (Hpos : pos <= perm_size (lb_perm L)).
      { destruct Hsr as (Hp & _). rewrite es_ids in Hp. unfold ids, active_slots in Hp. by rewrite map_length, seq_length in Hp. }
      destruct (pick_perm K kb Hk8 (lb_perm L) pos off (lk_perm _ _ _ _ _ _ HLk) ltac:(lia) Hpos) as (np & Enp & Hnw & Hact & Hjn & Hj24).
      unfold WIDTH in Enp. rewrite Enp, Nat.eqb_refl. cbn [bind]. rewrite Eik, Ekx.
      refine (c_put p0 g md rt pa Lb Hb Hl Hik again Hagain L w7 _ pos np ver _ _ _ HC7 Hph Hver Hsr Hnw Hact Hjn Hj24).
      * eapply grown_trans; [exact Hs6|apply R7].
      * intros E. by apply Hpm6, (rl_pub _ _ _ R7).
      * apply (lk_len _ _ _ _ _ _ HLk).
  - exfalso. destruct Hsr as (X1 & e & r1 & X2 & X3 & X4 & X5 & X6 & X7). lia.
  - exfalso. destruct Hsr as (X1 & e & X2 & X3 & X4 & X5). lia.
Qed.
End S.

Lemma c_try_cas (K : bytes -> N -> Prop) (B : N) (mb : mem) (sb : ast) (mu0 : gmap bytes N) (calls : list (bytes * N)) i kb v F w :
  is_bytes kb -> length kb <= 256 -> K kb v -> calls !! i = Some (kb, v) -> St mb sb -> Inv K B sb 0 0 -> free_but [] (sA sb) -> 300 <= F ->
  CInv K B mb sb mu0 calls w -> wph w !! i = None -> cwp K B mb sb mu0 calls i (try_cas_insert F kb v) w (cpost i kb).
Proof.
  intros Hkb Hl HK Hcall HS HI Hfb HF HC Hph. unfold try_cas_insert. rewrite key_new_ok by done.
  rewrite has_suffix_pos. change (drop (0 * 8) kb) with kb. destruct (Nat.ltb_spec 8 (length kb)) as [H8|H8].
  - split; [done|by left].
  - apply c_cas_loop; try done; lia.
Qed.
