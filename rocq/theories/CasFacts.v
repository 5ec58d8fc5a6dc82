(** The lock-free insertion run by one thread alone. *)
From Verif Require Import Base Perm PermFacts PermList SpecPerm PermLaws Key SpecKey KeyFacts Suffix SpecSuffix SuffixFacts Prog Version VersionFacts VersionTry Mem Tree SpecTree SpecHist TreeState TreePrim TreeInv TreeRead TreeSplit TreeSkel TreeInode TreeProp TreeLeaf TreeContent TreeInsert TreeLayer TreeConv TreeLoop TreeTop TreeLaws Freeze CasInsert.

Lemma upd_heap p x m : heap (mwith_heap (<[p := x]> (heap m)) m) !! p = Some x.
Proof. cbn. apply lookup_insert. Qed.
Lemma upd_twice p x y m : mwith_heap (<[p := y]> (heap (mwith_heap (<[p := x]> (heap m)) m))) (mwith_heap (<[p := x]> (heap m)) m) = mwith_heap (<[p := y]> (heap m)) m.
Proof. unfold mwith_heap. cbn. by rewrite insert_insert. Qed.
Lemma run_leaf_up {R A} p (f : leaf -> option (R * leaf)) (k : R -> P A) m l r l' : heap m !! p = Some (NLeaf l) -> f l = Some (r, l') ->
  run (x <- leaf_up p f ;; k x) m = run (k r) (mwith_heap (<[p := NLeaf l']> (heap m)) m).
Proof. intros H E. unfold leaf_up, atomic. cbn. by rewrite H, E. Qed.
Lemma run_leaf_ld {R A} p (f : leaf -> option R) (k : R -> P A) m l r : heap m !! p = Some (NLeaf l) -> f l = Some r ->
  run (x <- leaf_ld p f ;; k x) m = run (k r) m.
Proof. intros H E. unfold leaf_ld, atomic. cbn. by rewrite H, E. Qed.
Lemma run_hcol {A} p (k : bool -> P A) m l : heap m !! p = Some (NLeaf l) -> v_is_dirty (l_ver l) = false ->
  run (x <- has_changed_or_locked p (l_ver l) ;; k x) m = run (k false) m.
Proof.
  intros H E. unfold has_changed_or_locked, ver_has_changed_or_locked, ver_load, atomic. cbn. unfold rd_ver. rewrite H.
  unfold v_has_changed_or_locked, v_has_changed. rewrite N.lxor_nilpotent, E. done.
Qed.
Lemma run_assoc {X Y Z} (p : P X) (q : P Y) (k : P Z) m : run ((p ;;; q) ;;; k) m = run (p ;;; q ;;; k) m.
Proof. rewrite !VersionLaws.run_bind. destruct (run p m) as [[r m']|]; [|done]. by rewrite VersionLaws.run_bind. Qed.
Lemma run_raw {A} v (k : N -> P A) m : run (h <- output_to_raw v ;; k h) m = run (k (nxt m)) (mwith_nxt (nxt m + 2) (mwith_vals (<[nxt m := v]> (vals m)) m)).
Proof. done. Qed.
(** the claim, the key, the value: as if the slot had been filled directly *)
Lemma claim_run {A} p i ik kx v (X Y Z W : P A) (T U : N -> P A) (k : N -> P A) m l a b :
  heap m !! p = Some (NLeaf l) -> l_val l !! i = Some 0%N -> l_ikey l !! i = Some a -> l_klx l !! i = Some b -> v_is_dirty (l_ver l) = false ->
  run (c <- cas_slot_value p i 0 CLAIMING ;;
       match c with
       | Some _ => X
       | None =>
         ch <- has_changed_or_locked p (l_ver l) ;;
         if ch : bool then Y
         else
         store_key_data_for_cas p i ik kx ;;;
         ch <- has_changed_or_locked p (l_ver l) ;;
         if ch : bool then Z
         else
         h <- output_to_raw v ;;
         c <- cas_slot_value p i CLAIMING h ;;
         match c with
         | Some _ => W
         | None =>
           vp <- val_ptr p i ;;
           if negb (vp =? h)%N then T h
           else
           ch <- has_changed_or_locked p (l_ver l) ;;
           if ch : bool then U h else k h
         end
       end) m =
  run (h <- output_to_raw v ;; set_ikey p i ik ;;; (set_val_ptr p i h ;;; set_keylenx p i kx) ;;; k h) m.
Proof.
  intros Hl Hv Hk Hx Hd.
  assert (Hset : forall (z : list N) y c, z !! i = Some y -> list_set z i c = Some (<[i := c]> z)) by (intros z y c E; unfold list_set; by rewrite E).
  assert (Hlt : i < length (l_val l)) by (by eapply lookup_lt_Some).
  unfold cas_slot_value, store_key_data_for_cas, set_ikey, set_keylenx, set_val_ptr, val_ptr.
  set (l1 := with_val (<[i := CLAIMING]> (l_val l)) l). set (l2 := with_ikey (<[i := ik]> (l_ikey l)) l1). set (l3 := with_klx (<[i := kx]> (l_klx l)) l2).
  assert (Hv3 : l_val l3 !! i = Some CLAIMING) by (cbn; by apply list_lookup_insert).
  erewrite run_leaf_up; [|exact Hl|rewrite Hv; cbn; rewrite (Hset _ _ _ Hv); reflexivity]. fold l1. cbn iota.
  change (l_ver l) with (l_ver l1) at 1. rewrite (run_hcol p _ _ l1 (upd_heap _ _ _) Hd). cbn iota.
  rewrite run_assoc. erewrite run_leaf_up; [|apply upd_heap|cbn; rewrite (Hset _ _ _ Hk); reflexivity]. rewrite upd_twice. fold l2.
  erewrite run_leaf_up; [|apply upd_heap|cbn; rewrite (Hset _ _ _ Hx); reflexivity]. rewrite upd_twice. fold l3.
  change (l_ver l) with (l_ver l3) at 1. rewrite (run_hcol p _ _ l3 (upd_heap _ _ _) Hd). cbn iota.
  rewrite !run_raw. set (h := nxt (mwith_heap _ m)). change (nxt m) with h.
  set (m0 := mwith_nxt (h + 2) (mwith_vals (<[h := v]> (vals m)) m)).
  match goal with |- run _ ?x = _ => change x with (mwith_heap (<[p := NLeaf l3]> (heap m0)) m0) end.
  erewrite run_leaf_up; [|apply upd_heap|rewrite Hv3; cbn [mbind option_bind]; change (CLAIMING =? CLAIMING)%N with true; cbv iota; rewrite (Hset _ _ _ Hv3); reflexivity].
  rewrite upd_twice. cbn iota. set (l4 := with_val (<[i := h]> (l_val l3)) l3).
  erewrite run_leaf_ld; [|apply upd_heap|cbn; apply list_lookup_insert; by rewrite insert_length]. rewrite N.eqb_refl. cbn [negb].
  change (l_ver l) with (l_ver l4) at 1. rewrite (run_hcol p _ _ l4 (upd_heap _ _ _) Hd). cbn iota.
  erewrite run_leaf_up; [|exact Hl|rewrite (Hset _ _ _ Hk); reflexivity].
  rewrite run_assoc. erewrite run_leaf_up; [|apply upd_heap|cbn; rewrite (Hset _ _ _ Hv); reflexivity]. rewrite upd_twice.
  erewrite run_leaf_up; [|apply upd_heap|cbn; rewrite (Hset _ _ _ Hx); reflexivity]. rewrite upd_twice.
  f_equal. f_equal. f_equal. f_equal. unfold l4, l3, l2, l1. cbn. by rewrite list_insert_insert.
Qed.

Lemma wp_same_run {A} (p q : P A) m (Q : A -> mem -> Prop) : run p m = run q m -> wp q m Q -> wp p m Q.
Proof. intros E. unfold wp. by rewrite E. Qed.
(** publication *)
Lemma wp_cas_raw m s p g md rt pa L np (Q : option N -> mem -> Prop) : St m s -> sA s !! p = Some (LF g md rt pa L) ->
  (forall m', St m' (setA p (LF g md rt pa (lset_perm np L)) s) -> Q None m') -> wp (cas_permutation_raw p (lb_perm L) np) m Q.
Proof.
  intros HS Hp HQ. eapply (wp_leaf_up0 _ _ HS _ _ _ _ _ _ Hp); cycle 3; [exact HQ| |done|done].
  intros l H3 H4. eexists. split; [by rewrite (lr_perm _ _ _ H4), N.eqb_refl|].
  split; [done|]. split; [done|]. destruct H4. by split.
Qed.

(** some leaf has all its slots in use *)
Definition full_leaf (m : mem) : Prop := exists p l, heap m !! p = Some (NLeaf l) /\ 24 <= perm_size (l_perm l).
Section Cas.
Context (fx : bool) (K : bytes -> N -> Prop) (F : nat) (HF : 300 <= F).
Context (kb : bytes) (v : N) (Hkb : is_bytes kb) (Hkl : length kb <= 8) (HK : K kb v).
Context (B : N) (HB : (6144 <= B)%N) (HBu : (B + N.of_nat (length kb) < U32_MAX)%N).
Context (m : mem) (s : ast) (HS : St m s) (HI : Inv K B s 0 0) (Hfree : free_but [] (sA s)) (Hfv : sfv s = []) (Hfn : sfn s = []).
Local Notation B' := (B + N.of_nat (length kb))%N.
Local Notation k := (kpos kb 0).
(** the result, and what it means for the tree *)
Definition cas_post (r : cas_res) (m' : mem) : Prop :=
  match r with
  | CSuccess None => exists s', St m' s' /\ ins_post fx K B' kb v s s' None
  | CExists _ => m' = m /\ exists w, maps s kb w
  | CFull => m' = m /\ full_leaf m /\ (NoDead (sA s) -> forall w, ~ maps s kb w)
  | _ => False
  end.

Section At.
Context (p : N) (g : ghost) (rt : bool) (pa : N) (L : lbody).
Context (Hl : g_lid g = MAIN) (Hp : sA s !! p = Some (LF g MFree rt pa L)) (Hik : (g_lo g <= be_word (pad8 kb) < g_hi g)%N).
Lemma at_HL : leaf_ok K B (skels (sA s)) (sV s) g L. Proof. by eapply HI. Qed.
Lemma at_path : path (sA s) kb (g_lid g) 0. Proof. rewrite Hl. constructor. Qed.
Lemma at_key : g_pre g ++ kb = kb.
Proof.
  pose proof (br_gpre K B kb Hkb s HI 0 p g rt pa L at_path Hp) as E. by rewrite E.
Qed.

Lemma pick_back pos (Q : option (nat * nat) -> mem -> Prop) : searched L kb (NotFound pos) -> perm_size (lb_perm L) < 24 ->
  Q (Some (perm_back (lb_perm L), 0)) m -> wp (pick_free_slot p (lb_perm L) (k_ikey k) (seq 0 (WIDTH - perm_size (lb_perm L)))) m Q.
Proof.
  intros Hsr Hsz HQ. pose proof at_HL as HL. pose proof (lk_perm _ _ _ _ _ _ HL) as Hwf.
  assert (Hlen : perm_size (lb_perm L) = length (ids L)).
  { unfold ids, active_slots. rewrite map_length, seq_length. done. }
  assert (Hpos : pos <= perm_size (lb_perm L)).
  { destruct Hsr as (H1 & _). rewrite es_ids in H1. lia. }
  destruct (perm_insert_facts (lb_perm L) pos Hwf Hsz Hpos) as (np & E & Hnw & Hact & Hni & Hi24).
  destruct (WIDTH - perm_size (lb_perm L)) as [|n] eqn:En; [unfold WIDTH in En; lia|]. cbn [seq pick_free_slot].
  change (perm_back_at_offset (lb_perm L) 0) with (perm_back (lb_perm L)). set (i := perm_back (lb_perm L)) in *.
  destruct (lookup_lt_is_Some_2 (lb_sl L) i) as [x Hx]; [rewrite (lk_len _ _ _ _ _ _ HL); lia|].
  destruct (lk_free _ _ _ _ _ _ HL i x Hx Hni) as [Hx0 Hxs].
  apply wp_bind.
  assert (Hreuse : wp (if Nat.eqb i 0 then can_reuse_slot0 p (k_ikey k) else Ret true) m (fun b m' => b = true /\ m' = m)).
  { destruct (Nat.eqb_spec i 0) as [Ei|]; [|by apply wp_ret]. unfold can_reuse_slot0. apply wp_bind.
    eapply (wp_prev _ _ HS p); [exact Hp|]. destruct (N.eqb_spec (lb_pv L) 0); [by apply wp_ret|].
    exfalso. destruct (lk_first _ _ _ _ _ _ HL) as [F1 _]; [done|]. apply Hni. rewrite Ei. by eapply elem_of_list_lookup_2. }
  apply (wp_mono _ _ _ _ Hreuse). intros b m' [-> ->]. apply wp_bind. eapply (wp_val_ptr _ _ HS p); [exact Hp|exact Hx|].
  rewrite Hx0. apply wp_ret. exact HQ.
Qed.

Lemma cas_publish pos ver (X Y Z W : P cas_res) (T V : N -> P cas_res) (J : N -> N -> P cas_res) np (Q : cas_res -> mem -> Prop) :
  searched L kb (NotFound pos) -> perm_size (lb_perm L) < 24 -> rd_ver p m = Some ver ->
  perm_insert_from_back (lb_perm L) pos = (np, perm_back (lb_perm L)) ->
  (forall m' s', St m' s' -> ins_post fx K B' kb v s s' None -> Q (CSuccess None) m') ->
  wp (c <- cas_slot_value p (perm_back (lb_perm L)) 0 CLAIMING ;;
       match c with
       | Some _ => X
       | None =>
         ch <- has_changed_or_locked p ver ;;
         if ch : bool then Y
         else
         store_key_data_for_cas p (perm_back (lb_perm L)) (k_ikey k) (N.of_nat (key_current_len k)) ;;;
         ch <- has_changed_or_locked p ver ;;
         if ch : bool then Z
         else
         h <- output_to_raw v ;;
         c <- cas_slot_value p (perm_back (lb_perm L)) CLAIMING h ;;
         match c with
         | Some _ => W
         | None =>
           vp <- val_ptr p (perm_back (lb_perm L)) ;;
           if negb (vp =? h)%N then T h
           else
           ch <- has_changed_or_locked p ver ;;
           if ch : bool then V h else
           c <- cas_permutation_raw p (lb_perm L) np ;;
           match c with
           | None => inc_count ;;; Ret (CSuccess None)
           | Some raw => J h raw
           end
         end
       end) m Q.
Proof.
  intros Hsr Hsz Hver E HQ. pose proof at_HL as HL. pose proof (lk_perm _ _ _ _ _ _ HL) as Hwf.
  assert (Hlen : perm_size (lb_perm L) = length (ids L)).
  { unfold ids, active_slots. rewrite map_length, seq_length. done. }
  assert (Hpos : pos <= perm_size (lb_perm L)).
  { destruct Hsr as (H1 & _). rewrite es_ids in H1. lia. }
  destruct (perm_insert_facts (lb_perm L) pos Hwf Hsz Hpos) as (np' & E' & Hnw & Hact & Hni & Hi24).
  assert (np' = np) as -> by congruence. clear E'.
  set (i := perm_back (lb_perm L)) in *.
  destruct (lookup_lt_is_Some_2 (lb_sl L) i) as [x Hx]; [rewrite (lk_len _ _ _ _ _ _ HL); lia|].
  destruct (lk_free _ _ _ _ _ _ HL i x Hx Hni) as [Hx0 Hxs].
  destruct (St_leaf _ _ _ _ _ _ _ _ HS Hp) as (l & A1 & A2 & A3 & A4).
  assert (ver = l_ver l) as -> by (unfold rd_ver in Hver; rewrite A1 in Hver; congruence).
  eapply wp_same_run; [eapply (claim_run p i (k_ikey k) (N.of_nat (key_current_len k)) v X Y Z W T V _ m l (s_ik x) (s_kx x)); [exact A1| | | |by eapply vbits_free_load]|].
  { by rewrite (lr_val _ _ _ A4), list_lookup_fmap, Hx, <- Hx0. }
  { by rewrite (lr_ik _ _ _ A4), list_lookup_fmap, Hx. }
  { by rewrite (lr_kx _ _ _ A4), list_lookup_fmap, Hx. }
  apply wp_bind. apply (wp_to_raw _ _ HS). intros h m1 Hh Hhn H1.
  apply wp_bind. eapply (wp_set_ikey _ _ H1 p); [exact Hp|exact Hx|]. intros m2 H2. rewrite ikey_pos in H2 by first [done|lia].
  apply wp_bind.
  assert (Hx1 : lb_sl (lslot L i (sset_ik (be_word (pad8 kb)) x)) !! i = Some (sset_ik (be_word (pad8 kb)) x)).
  { cbn. apply list_lookup_insert. by eapply lookup_lt_Some. }
  assert (Hrl : (lb_bud L + N.of_nat (length kb) <= B')%N).
  { pose proof (lk_bud _ _ _ _ _ _ HL). lia. }
  pose proof (wp_store_rest m2 _ kb 0 v p g MFree rt pa _ i _ h [] (N.of_nat (key_current_len k))
    (fun _ m' => wp (c <- cas_permutation_raw p (lb_perm L) np ;;
           match c with
           | None => inc_count ;;; Ret (CSuccess None)
           | Some raw => J h raw
           end) m' Q) Hkb ltac:(lia) ltac:(lia) H2 ltac:(apply lookup_insert) Hx1) as HW.
  rewrite has_suffix_pos in HW. change (drop (0 * 8) kb) with kb in HW. rewrite (proj2 (Nat.ltb_ge _ _) Hkl) in HW.
  apply HW; clear HW; [done|done|done|change (lb_bud (lslot L i ?y)) with (lb_bud L); eapply N.le_lt_trans; [exact Hrl|exact HBu]|cbn; by rewrite Hfv|done|apply lookup_insert| |].
  { intros _. rewrite current_len_pos by first [done|lia]. done. }
  intros y bg bud m3 Y1 Y2 Y3 Y4 H3.
  norm H3. unfold lslot, lset_sl in H3. cbn [lb_perm lb_sl lb_bg lb_bud lb_nx lb_pv] in H3, Y4. rewrite ?no25, list_insert_insert in H3.
  set (L3 := mk_lbody (lb_perm L) (<[i := y]> (lb_sl L)) bg bud (lb_nx L) (lb_pv L)) in *.
  apply wp_bind. change (lb_perm L) with (lb_perm L3). eapply (wp_cas_raw m3 _ p g MFree rt pa L3); [exact H3|apply lookup_insert|]. intros m4 H4.
  cbv iota. apply wp_bind. apply (wp_inc_count _ _ H4). intros m5 H5. apply wp_ret.
  norm H5. unfold L3, lset_perm in H5. cbn [lb_perm lb_sl lb_bg lb_bud lb_nx lb_pv] in H5. rewrite ?no25 in H5.
  eapply HQ; [exact H5|].
  assert (HlBB : (B <= B')%N) by (apply N.le_add_r).
  assert (Hbd : (bud <= B')%N) by (etrans; [exact Y4|exact Hrl]).
  assert (HV' : forall x w, sV s !! x = Some w -> <[h := v]> (sV s) !! x = Some w).
  { intros z w Hz. rewrite lookup_insert_ne; [done|]. congruence. }
  refine (post_new fx K B B' s _ HI Hfree kb v 0 Hkb p g rt pa L (add_leaf L y np bg bud i) y h at_path Hp Hik _ _ _ Hhn _ _ eq_refl eq_refl HlBB Y1 Y2 _ pos Hsr _ _).
  - reflexivity.
  - reflexivity.
  - reflexivity.
  - reflexivity.
  - exact Hfn.
  - refine (add_ok K B B' (skels (sA s)) (sV s) (<[h := v]> (sV s)) g L HL pos y kb np bg bud i HV' HlBB Hbd Hnw Hact Hni Hi24 Hsr Y1 _ Y3 Hik _).
    + split; [by rewrite Y2|]. left. exists kb, v. split; [exact Y1|]. rewrite at_key. split; [lia|]. split; [rewrite Y2; apply lookup_insert|exact HK].
    + apply (ik_top kb Hkb 0).
  - intros z. exact (add_elem K B (skels (sA s)) (sV s) g L HL pos y kb np bg bud i Hact Hni Hi24 Hik z).
  - reflexivity.
Qed.

(** one attempt, in the right leaf *)
Definition start_leaf (at_ : option N) : P N := match at_ with Some p => Ret p | None => r <- load_root ;; reach_leaf F F r r (k_ikey k) end.
Lemma cas_attempt n retries at_ : run (start_leaf at_) m = Ok (p, m) ->
  wp (cas_loop F (S n) k v retries at_) m cas_post.
Proof.
  intros Hst. pose proof at_HL as HL. cbn [cas_loop]. cbv zeta.
  apply wp_bind. match goal with |- wp ?x _ _ => change x with (start_leaf at_) end. unfold wp at 1. rewrite Hst.
  assert (Eik : k_ikey k = be_word (pad8 kb)) by (apply (ikey_pos kb 0); first [done|lia]).
  assert (Htop : (be_word (pad8 kb) < TOP)%N) by (by apply (ik_top kb Hkb 0)).
  apply wp_bind. rewrite !Eik.
  eapply (wp_advance_by_bound K B _ _ HS HI Hfree F (be_word (pad8 kb)) MAIN); [done|lia| |].
  { exists g, MFree, rt, pa, L. split; [done|]. split; [done|]. lia. }
  intros q Hq. assert (q = p) as ->.
  { eapply (holds_uniq K B s HI MAIN (be_word (pad8 kb))); [exact Hq|]. exists g, MFree, rt, pa, L. done. }
  cbv iota beta. rewrite N.eqb_refl. cbn [negb].
  apply wp_bind. eapply (wp_version _ _ HS p); [exact Hp|]. intros ver Hver _.
  apply wp_bind. eapply (wp_flag_dirty _ _ HS p); [exact Hp|done|]. cbv iota.
  unfold permutation_try. apply wp_bind, wp_bind. eapply (wp_permutation _ _ HS p); [exact Hp|]. apply wp_ret.
  rewrite (ids_not_frozen _ (lk_perm _ _ _ _ _ _ HL)). cbv iota.
  apply wp_bind. eapply (wp_search_for_insert K B _ _ HS kb Hkb 0 ltac:(lia) p g MFree rt pa L _ _ Hp HL). change (drop (0 * 8) kb) with kb. intros sr Hsr.
  destruct sr as [i|pos|i|i].
  - apply wp_ret. split; [done|]. destruct Hsr as (Hi & e & He & Hr).
    assert (Hes : e ∈ es L) by (by eapply rep_x).
    assert (Hen : entry (sA s) MAIN e) by (exists p, g, MFree, rt, pa, L; done).
    destruct (value_entry K B s HI kb MAIN 0 e Hkb (p_main _ _) Hen Hr) as (w & W1 & W2). exists w. exists (s_ptr e). split; [|done].
    by apply r_here; [done|by eapply rest_lt|done].
  - destruct (Nat.leb_spec WIDTH (perm_size (lb_perm L))) as [Hfull|Hroom].
    + apply wp_ret. split; [done|]. split.
      { destruct (St_leaf _ _ _ _ _ _ _ _ HS Hp) as (l & L1 & _ & _ & L2). exists p, l. split; [done|]. by rewrite (lr_perm _ _ _ L2). }
      intros HN w Hm. destruct Hsr as (_ & Hno & _).
      eapply (upd_old_none K B s HI HN kb MAIN 0); [constructor| |exact Hm].
      intros x (q & g' & m' & rt' & pa' & L2 & Hq' & Hl' & Hx) Hh'. destruct (decide (q = p)) as [->|Hne].
      * rewrite Hp in Hq'. injection Hq' as <- <- <- <- <-. apply (Hno x Hx). by apply hit_rcls.
      * apply Hne. eapply (holds_uniq K B s HI MAIN (be_word (pad8 kb))); [|exists g, MFree, rt, pa, L; done].
        exists g', m', rt', pa', L2. split; [done|]. split; [done|]. destruct Hh' as [Eh _]. change (drop (0 * 8) kb) with kb in Eh. rewrite <- Eh.
        pose proof (HN _ _ _ _ _ _ _ Hq' Hx). pose proof (lk_span _ _ _ _ _ _ (iv_l _ _ _ _ _ HI _ _ _ _ _ _ Hq') x Hx). lia.
    + unfold WIDTH in Hroom. apply wp_bind. rewrite <- Eik. eapply (pick_back pos); [exact Hsr|done|].
      assert (Hpos : pos <= perm_size (lb_perm L)).
      { destruct Hsr as (H1 & _). rewrite es_ids in H1. unfold ids, active_slots in H1. rewrite map_length, seq_length in H1. done. }
      destruct (perm_insert_facts (lb_perm L) pos (lk_perm _ _ _ _ _ _ HL) Hroom Hpos) as (np & E & _). cbn [Nat.eqb]. rewrite E. rewrite Nat.eqb_refl.
      apply wp_bind, wp_ret. eapply (cas_publish pos ver); [exact Hsr|done|exact Hver|exact E|].
      intros m' s' H1 H2. exists s'. done.
  - destruct Hsr as (_ & e & r1 & _ & _ & _ & _ & H & _). lia.
  - destruct Hsr as (_ & e & _ & _ & _ & H). lia.
Qed.
End At.

Lemma wp_cas_loop : wp (cas_loop F F k v 0 None) m cas_post.
Proof.
  assert (Eik : k_ikey k = be_word (pad8 kb)) by (apply (ikey_pos kb 0); first [done|lia]).
  assert (Htop : (be_word (pad8 kb) < TOP)%N) by (by apply (ik_top kb Hkb 0)).
  destruct (si_root _ _ _ _ (iv_s _ _ _ _ _ HI)) as (n & N1 & N2 & N3 & _ & N4). apply skels_some in N1 as (nr & HR & ->). cbn in N2.
  assert (Hreach : wp (start_leaf None) m (fun p0 m' => m' = m /\ lands s MAIN (be_word (pad8 kb)) p0)).
  { unfold start_leaf. apply wp_bind. apply (wp_load_root _ _ _ HS). rewrite Eik.
    pose proof (skels_lookup _ _ _ HR) as HR'.
    eapply (wp_reach_leaf K B _ _ HS HI Hfree); [lia|exact HR|..].
    - pose proof (level_bound _ _ _ _ (iv_s _ _ _ _ _ HI) _ _ HR'). lia.
    - destruct (si_top _ _ _ _ (iv_s _ _ _ _ _ HI) _ _ HR' N4 N3) as (T1 & T2 & _). 
      pose proof (go_eq _ _ _ (si_gh _ _ _ _ (iv_s _ _ _ _ _ HI) _ _ HR')) as T3. specialize (T3 N4). cbn [n_gh skel] in T1, T2, T3. lia.
    - intros q Hq. rewrite N2 in Hq. done. }
  destruct (wp_run _ _ _ Hreach) as (p0 & m0 & E0 & -> & Hlands).
  assert (Hadv : wp (advance_by_bound F p0 (be_word (pad8 kb))) m (fun x m' => m' = m /\ x.2 = false /\ holds s MAIN (be_word (pad8 kb)) x.1)).
  { eapply (wp_advance_by_bound K B _ _ HS HI Hfree F (be_word (pad8 kb)) MAIN); [done|lia|exact Hlands|]. intros q Hq. done. }
  destruct (wp_run _ _ _ Hadv) as ([q b] & m1 & E1 & -> & Eb & (g & md & rt & pa & L & Hp & Hl & Hik)). cbn in Eb, Hp. subst b.
  assert (md = MFree) as -> by (eapply (Hfree _ _ Hp); by intros ?%elem_of_nil).
  assert (Hn : exists n, F = S (S n)) by (exists (F - 2); lia). destruct Hn as [n Hn].
  replace (cas_loop F F k v 0 None) with (cas_loop F (S (S n)) k v 0 None) by (by rewrite <- Hn).
  destruct (N.eq_dec q p0) as [->|Hne]; [by eapply cas_attempt|].
  remember (S n) as n1 eqn:En1. cbn [cas_loop]. cbv zeta.
  apply wp_bind. match goal with |- wp ?x _ _ => change x with (start_leaf None) end. unfold wp at 1. rewrite E0.
  apply wp_bind. rewrite Eik. unfold wp at 1. rewrite E1. cbv iota beta. rewrite (proj2 (N.eqb_neq _ _) Hne). cbn [negb].
  rewrite En1. by eapply cas_attempt.
Qed.
End Cas.

(** ** whole calls *)
Definition cas_answer (fx : bool) (K : bytes -> N -> Prop) (B : N) (kb : bytes) (v : N) (m : mem) (mu : gmap bytes N) (c : N) (r : cas_res) (m' : mem) : Prop :=
  match r with
  | CSuccess None => length kb <= 8 /\ Rel fx K (B + N.of_nat (length kb)) m' (<[kb := v]> mu) (c + 1) /\ (split_fine fx K -> mu !! kb = None)
  | CExists _ => length kb <= 8 /\ m' = m /\ (split_fine fx K -> is_Some (mu !! kb))
  | CFull => length kb <= 8 /\ m' = m /\ full_leaf m /\ (split_fine fx K -> mu !! kb = None)
  | CFallback => 8 < length kb /\ m' = m
  | _ => False
  end.
Lemma wp_try_cas fx (K : bytes -> N -> Prop) B F kb v m mu c : 300 <= F -> length kb <= 256 -> is_bytes kb -> K kb v -> (B + N.of_nat (length kb) < U32_MAX)%N -> Rel fx K B m mu c ->
  wp (try_cas_insert F kb v) m (cas_answer fx K B kb v m mu c).
Proof.
  intros HF Hl Hb HK HBu (HB & s & Hc & HS & HI & Hfree & Hfv & Hfn & Hor & Hex). unfold try_cas_insert. rewrite key_new_ok by done.
  rewrite has_suffix_pos. change (drop (0 * 8) kb) with kb. destruct (Nat.ltb_spec 8 (length kb)) as [H8|H8]; [by apply wp_ret|].
  eapply wp_mono; [exact (wp_cas_loop fx K F HF kb v Hb H8 HK B HB HBu m s HS HI Hfree Hfv Hfn)|].
  intros [[o|]|i| |i| |] m' Hpost; try done; cbn in Hpost |- *; (split; [done|]).
  - destruct Hpost as (s' & HS' & [P1 P2 P3 P4 P5 P6 Pn P7]). 
    assert (Hold : split_fine fx K -> mu !! kb = None).
    { intros Hs. destruct (Hex Hs) as (X1 & X2 & X3). destruct (P7 Hs X1) as (Y1 & Y2 & Y3).
      destruct (mu !! kb) as [w|] eqn:E; [|done]. apply X2 in E; [|done]. by apply Y3 in E. }
    split; [|done]. split; [lia|]. exists s'. split; [by rewrite P5, Hc|]. split; [done|]. split; [done|]. split; [done|]. split; [done|]. split; [done|].
    split; [left; split; [done|apply insert_non_empty]|].
    intros Hs. destruct (Hex Hs) as (X1 & X2 & X3). destruct (P7 Hs X1) as (Y1 & Y2 & Y3). split; [done|]. split.
    + intros k w Hk. rewrite (Y2 k w Hk). destruct (decide (k = kb)) as [->|Hne].
      * rewrite lookup_insert. naive_solver.
      * rewrite lookup_insert_ne by done. rewrite <- (X2 k w Hk). naive_solver.
    + rewrite P5, X3, map_size_insert_None by (by apply Hold). lia.
  - destruct Hpost as (-> & w & Hw). split; [done|]. intros Hs. destruct (Hex Hs) as (X1 & X2 & X3). exists w. by apply X2.
  - destruct Hpost as (-> & Hfl & Hw). split; [done|]. split; [done|]. intros Hs. destruct (Hex Hs) as (X1 & X2 & X3).
    destruct (mu !! kb) as [w|] eqn:E; [|done]. apply X2 in E; [|done]. by apply Hw in E.
Qed.
Lemma wp_insert_fast (K : bytes -> N -> Prop) B F kb v m mu c : 300 <= F -> length kb <= 256 -> is_bytes kb -> K kb v -> (B + N.of_nat (length kb) < U32_MAX)%N -> Rel false K B m mu c ->
  wp (insert_fast F kb v) m (fun r m' => exists old, r = IOk old /\ Rel false K (B + N.of_nat (length kb)) m' (<[kb := v]> mu) (bump c (AIns old)) /\
     (forall w, old = Some w -> K kb w) /\ (split_fine false K -> old = mu !! kb)).
Proof.
  intros HF Hl Hb HK HBu HR. unfold insert_fast. apply wp_bind. eapply wp_mono; [by apply (wp_try_cas false K B F kb v m mu c)|].
  assert (Hslow : wp (insert F kb v) m (fun r m' => exists old, r = IOk old /\ Rel false K (B + N.of_nat (length kb)) m' (<[kb := v]> mu) (bump c (AIns old)) /\
     (forall w, old = Some w -> K kb w) /\ (split_fine false K -> old = mu !! kb))) by (by apply wp_insert).
  intros [[o|]|i| |i| |] m' H; cbn in H; try done.
  - destruct H as (_ & H1 & H2). apply wp_ret. exists None. split; [done|]. split; [done|]. split; [done|]. intros Hs. symmetry. by apply H2.
  - destruct H as (_ & -> & _). exact Hslow.
  - destruct H as (_ & -> & _). exact Hslow.
  - destruct H as (_ & ->). exact Hslow.
Qed.
Lemma call_fast_ok (K : bytes -> N -> Prop) B F o m mu c : 300 <= F -> op_ok o -> K_ok K o -> (B + cost o < U32_MAX)%N -> Rel false K B m mu c ->
  wp (call insert_fast F o) m (fun a m' => Rel false K (B + cost o) m' (snd (map_step mu o)) (bump c a) /\ weak K mu c o a /\ (split_fine false K -> a = fst (map_step mu o))).
Proof.
  intros HF Ho HK HB HR. destruct o as [k v|k|k| |]; [|exact (call_ok false K B F _ m mu c HF Ho HK HB HR)..].
  cbn [call cost map_step fst snd weak] in *. destruct Ho as [Hl Hb]. apply wp_bind. eapply wp_mono; [by apply (wp_insert_fast K B F k v m mu c)|].
  intros r m' (old & -> & H1 & H2 & H3). apply wp_ret. split; [done|]. split; [eauto|]. intros Hs. by rewrite (H3 Hs).
Qed.
Lemma run_fast_ok (K : bytes -> N -> Prop) F ops : 300 <= F -> forall B m mu c, Forall op_ok ops -> Forall (K_ok K) ops -> (B + costs ops < U32_MAX)%N -> Rel false K B m mu c ->
  exists l m', run_calls insert_fast F ops m = Ok (l, m') /\ Rel false K (B + costs ops) m' (snd (map_run mu ops)) (fold_left bump l c) /\ length l = length ops /\
  (split_fine false K -> l = fst (map_run mu ops)).
Proof.
  intros HF. induction ops as [|o ops IH]; intros B m mu c Hok HK HB HR.
  - exists [], m. cbn. rewrite N.add_0_r. done.
  - inversion Hok; subst. inversion HK; subst. cbn [costs foldr] in HB. fold (costs ops) in HB.
    destruct (wp_run _ _ _ (call_fast_ok K B F o m mu c HF ltac:(done) ltac:(done) ltac:(lia) HR)) as (a & m1 & E1 & R1 & W1 & X1).
    destruct (map_step mu o) as [a' mu1] eqn:Es. cbn [fst snd] in R1, X1.
    destruct (IH (B + cost o)%N m1 mu1 (bump c a)) as (l & m2 & E2 & R2 & L2 & X2); [done|done|lia|done|].
    exists (a :: l), m2. cbn [run_calls]. rewrite E1. cbn [res_bind]. rewrite E2. cbn [res_bind]. split; [done|].
    cbn [map_run]. rewrite Es. destruct (map_run mu1 ops) as [l' mu2] eqn:Er. cbn [fst snd fold_left] in *.
    split; [cbn [costs foldr]; fold (costs ops); by rewrite N.add_assoc|]. split; [cbn; by rewrite L2|]. intros Hs. by rewrite (X1 Hs), (X2 Hs).
Qed.
Lemma split_fine_of ops : unambiguous ops -> split_fine false (Kof ops).
Proof. intros Hs. right. intros k1 k2 v1 v2 H1 H2 Hc. apply clash_amb in Hc. exact (Hs k1 k2 v1 v2 H1 H2 Hc). Qed.
Lemma fast_history F ops : 300 <= F -> history_ok ops -> exists l m,
  run_calls insert_fast F ops tree_new = Ok (l, m) /\ Rel false (Kof ops) (6144 + costs ops) m (map_run ∅ ops).2 (fold_left bump l 0%N) /\
  length l = length ops /\ (unambiguous ops -> l = (map_run ∅ ops).1).
Proof.
  intros HF [Hok HB]. rewrite key_bytes_costs in HB. destruct (run_fast_ok (Kof ops) F ops HF 6144 tree_new ∅ 0) as (l & m & E & R & L & X).
  - done.
  - apply Kof_ok.
  - unfold U32_MAX. lia.
  - apply rel_new.
  - exists l, m. split; [done|]. split; [done|]. split; [done|]. intros Hs. by apply X, split_fine_of.
Qed.
Lemma fast_semantics F ops : 300 <= F -> history_ok ops -> unambiguous ops ->
  exists m, run_calls insert_fast F ops tree_new = Ok ((map_run ∅ ops).1, m).
Proof. intros HF Hok Hs. destruct (fast_history F ops HF Hok) as (l & m & E & _ & _ & X). exists m. by rewrite <- (X Hs). Qed.
(** one lock-free insertion after a history *)
Lemma cas_after F ops k v l m : 300 <= F -> history_ok (ops ++ [Insert k v]) -> run_calls insert F ops tree_new = Ok (l, m) -> exists r m',
  run (try_cas_insert F k v) m = Ok (r, m') /\
  match r with
  | CSuccess old => length k <= 8 /\ old = None /\ (forall n, run len m = Ok (n, m) -> run len m' = Ok ((n + 1)%N, m')) /\
      (unambiguous (ops ++ [Insert k v]) -> last_value k (inserts ops) = None /\
       forall k', op_ok (Get k') -> run (get F k') m' = Ok (last_value k' (inserts (ops ++ [Insert k v])), m'))
  | CExists _ => length k <= 8 /\ m' = m /\ (unambiguous (ops ++ [Insert k v]) -> is_Some (last_value k (inserts ops)))
  | CFull => length k <= 8 /\ m' = m /\ full_leaf m /\ (unambiguous (ops ++ [Insert k v]) -> last_value k (inserts ops) = None)
  | CFallback => 8 < length k /\ m' = m
  | CLayer _ | CSlot0 => False
  end.
Proof.
  intros HF [Hok HB] Hrun. rewrite key_bytes_costs in HB. set (ops' := ops ++ [Insert k v]) in *.
  assert (Hc : costs ops' = (costs ops + N.of_nat (length k))%N).
  { unfold ops'. rewrite <- !key_bytes_costs, key_bytes_app. cbn. lia. }
  pose proof (Kof_ok ops') as HK. unfold ops' in Hok, HK. apply Forall_app in Hok as [Hok1 Hok2]. inversion Hok2 as [|? ? Hk _]; subst.
  fold ops' in HK. apply Forall_app in HK as [HK1 HK2]. inversion HK2 as [|? ? HKk _]; subst. fold ops' in HK1, HKk. cbn in HKk.
  rewrite Hc in HB. assert (6144 + costs ops + N.of_nat (length k) < U32_MAX)%N by (unfold U32_MAX; lia).
  destruct (run_ok false (Kof ops') F ops HF 6144 tree_new ∅ 0) as (l' & m1 & E & R & L & X); [done|done|lia|apply rel_new|].
  change (insert_gen false) with insert in E. rewrite Hrun in E. injection E as <- <-.
  destruct Hk as [Hkl Hkb].
  destruct (wp_run _ _ _ (wp_try_cas false (Kof ops') (6144 + costs ops) F k v m _ _ HF Hkl Hkb HKk ltac:(lia) R)) as (r & m' & E1 & A1).
  exists r, m'. split; [done|].
  assert (Elv : forall k0, (map_run ∅ ops).2 !! k0 = last_value k0 (inserts ops)).
  { intros k0. rewrite map_content, lookup_empty. by destruct (last_value k0 (inserts ops)). }
  destruct r as [[o|]|i| |i| |]; cbn in A1; try done.
  - destruct A1 as (H1 & H2 & H3). split; [done|]. split; [done|].
    split. { destruct H2 as (_ & s & S1 & S2 & _), R as (_ & s1 & T1 & T2 & _). unfold len, load_count. cbn. intros n0 [= <-]. rewrite (st_cnt _ _ S2), (st_cnt _ _ T2), S1, T1. done. }
    intros Hs%split_fine_of. split; [by rewrite <- Elv, H3|]. intros k' [Hl' Hb'].
    destruct (wp_run _ _ _ (wp_get false (Kof ops') _ F k' m' _ _ HF Hl' Hb' H2)) as (o & m2 & G1 & -> & _ & G2). rewrite G1, (G2 Hs).
    f_equal. f_equal. unfold ops'. rewrite inserts_app, last_value_app. cbn. destruct (decide (k = k')) as [->|Hne].
    + by rewrite lookup_insert.
    + rewrite lookup_insert_ne by done. by rewrite Elv.
  - destruct A1 as (H1 & H2 & H3). split; [done|]. split; [done|]. intros Hs%split_fine_of. rewrite <- Elv. by apply H3.
  - destruct A1 as (H1 & H2 & H2' & H3). split; [done|]. split; [done|]. split; [done|]. intros Hs%split_fine_of. rewrite <- Elv. by apply H3.
Qed.
