(** Concurrent executions on the whole tree: the propagation loop. *)
From Verif Require Import Base Perm PermFacts PermList PermLaws SpecPerm Key SpecKey KeyFacts Prog Version VersionFacts Mem Tree
  SpecTree TreeState SpecLin Conc ConcStep ConcRules ConcRead ConcPar ConcMem ConcAlloc ConcOwn ConcLeaf ConcIns ConcInode ConcProp.
From Verif Require LinInsert.

Lemma split_facts x xq ci r xl xr : length (i_child x) = 16 -> i_nkeys x = 15 -> ci <= 15 -> halves x xq ci r xl xr ->
  NoDup (kids x) -> 0%N ∉ kids x -> r ∉ kids x -> r <> 0%N ->
  NoDup (kids xl) /\ NoDup (kids xr) /\ 0%N ∉ kids xl /\ 0%N ∉ kids xr /\
  (forall y, y ∈ kids xl \/ y ∈ kids xr <-> y ∈ kids x \/ y = r) /\ (forall y, y ∈ kids xl -> y ∉ kids xr) /\
  (if Nat.ltb ci 8 then r ∈ kids xl else r ∈ kids xr).
Proof.
  intros L2 Hn Hci HH Hnd H0 Hr Hr0. pose proof (cut_list x xq ci r xl xr L2 Hn Hci HH) as E.
  assert (Hperm : take (ci + 1) (kids x) ++ r :: drop (ci + 1) (kids x) ≡ₚ r :: kids x).
  { rewrite <- Permutation_middle. by rewrite take_drop. }
  rewrite <- E in Hperm.
  assert (Hnd2 : NoDup (kids xl ++ kids xr)) by (rewrite Hperm; by constructor).
  apply NoDup_app in Hnd2 as (N1 & N2 & N3).
  assert (Hel : forall y, y ∈ kids xl \/ y ∈ kids xr <-> y ∈ kids x \/ y = r).
  { intros y. rewrite <- elem_of_app, Hperm, elem_of_cons. tauto. }
  split; [done|]. split; [done|].
  split; [intros H; destruct (proj1 (Hel 0%N) (or_introl H)) as [?|?]; [done|congruence]|].
  split; [intros H; destruct (proj1 (Hel 0%N) (or_intror H)) as [?|?]; [done|congruence]|].
  split; [done|]. split; [done|]. destruct HH as [(ksl & csl & -> & K1 & K2) (ksr & csr & -> & K3 & K4) Hl Hr'].
  destruct (Nat.ltb_spec ci 8) as [Hlt|Hge]; unfold kids; cbn [iput i_nkeys i_child] in *.
  - apply elem_of_list_lookup. exists (ci + 1). rewrite lookup_take by lia. rewrite Hl by lia. unfold fc. rewrite decide_False, decide_True by lia. done.
  - apply elem_of_list_lookup. exists (ci + 1 - 9). rewrite lookup_take by lia. rewrite Hr' by lia. unfold fc. rewrite decide_False, decide_True by lia. done.
Qed.

(** where a child comes from *)
Definition src (i : nat) (nl : gmap N node) (pe : gmap N (list N)) (zs : gset N) (c : N) : Prop :=
  (c ∈ zs /\ (forall σ w1, At i σ w1 -> Conc.nl σ = nl -> root (wm w1) <> c)) \/ (exists q0 l0, pe !! q0 = Some l0 /\ c ∈ l0).
Lemma src_moved i nl pe zs pe' zs' q lq ks c : moved pe pe' q ks -> pe !! q = Some lq -> (forall c, c ∈ zs -> c ∉ ks -> c ∈ zs') ->
  src i nl pe zs c -> src i nl pe' zs' c.
Proof.
  intros Hm Hq Hz Hs. destruct (decide (c ∈ ks)) as [Hin|Hin].
  - right. destruct (Hm q lq Hq) as (lq' & H1 & H2). exists q, lq'. split; [done|]. apply H2. rewrite decide_True by done. by right.
  - destruct Hs as [[H1 H2]|(q0 & l0 & H1 & H2)]; [left; split; [by apply Hz|done]|]. right.
    destruct (Hm q0 l0 H1) as (l0' & H3 & H4). exists q0, l0'. split; [done|]. apply H4. case_decide; [by left|done].
Qed.

(** propagation.rs:391-520 the parent is full: half of its children go to a new internode *)
Lemma cwp_split_full {R} i nl hs un pr pe tp zs w p q x xq ci sk r lp0 (K : N -> bool -> P R) (Q : R -> world -> Prop) :
  At i (L (<[p := NInode x]> (<[q := NInode xq]> nl)) hs un ∅ pr pe tp zs) w -> p <> q ->
  v_is_locked (i_ver x) = true -> v_is_locked (i_ver xq) = true -> i_nkeys x = 15 -> i_height xq = i_height x -> ci <= 15 ->
  ptr_ok w (i_height x) r -> q ∈ wpub w -> pe !! q = Some [] -> pe !! p = Some lp0 -> (forall y, y ∈ lp0 <-> y ∈ kids x) ->
  NoDup (kids x) -> 0%N ∉ kids x -> r ∉ kids x -> r <> 0%N -> r ∈ zs ->
  (forall xl xr σ w1, halves x xq ci r xl xr -> At i σ w1 -> Conc.nl σ = <[p := NInode xl]> (<[q := NInode xr]> nl) -> root (wm w1) <> r) ->
  (forall w' xl xr pop pe' zs', halves x xq ci r xl xr -> At i (L (<[p := NInode xl]> (<[q := NInode xr]> nl)) hs un ∅ pr pe' tp zs') w' -> Mono w w' ->
     moved pe pe' q (kids xr) -> (forall c, c ∈ zs -> c ∉ kids xr -> c ∈ zs') -> cwp i (K pop (Nat.ltb ci 8)) w' Q) ->
  cwp i ('(popup, wl) <- split_into p q ci sk r ;;
         ph2 <- height p ;;
         reparent_children q (if Nat.eqb ph2 0 then set_leaf_parent else set_inode_parent) ;;;
         K popup wl) w Q.
Proof.
  intros A0 Hpq Hl1 Hl2 Hnk Hh Hci Hr Hqpub Hpq0 Hpp Hlp0 Hnd Hz Hrk Hr0 Hrz Hroot HK.
  pose proof (at_inode_ok _ _ _ p _ A0 (lookup_insert _ _ _)) as [[B1 B2] _ _ _].
  assert (Hq0 : (<[p := NInode x]> (<[q := NInode xq]> nl)) !! q = Some (NInode xq)) by (rewrite lookup_insert_ne by done; apply lookup_insert).
  pose proof (at_inode_ok _ _ _ q _ A0 Hq0) as [[C1 C2] _ _ _].
  assert (Hmp : mine ∅ pr p x) by (split; [apply not_elem_of_empty|by right]). assert (Hmq : mine ∅ pr q xq) by (split; [apply not_elem_of_empty|by right]).
  assert (B0 : Aw i w (L (<[p := NInode x]> (<[q := NInode xq]> nl)) hs un ∅ pr pe tp zs) w) by (split; [done|apply mono_refl]).
  unfold split_into. do 2 apply cwp_bind. eapply aw_nkeys; [exact B0|apply lookup_insert|]. intros w1 Bw1. rewrite Hnk.
  change (Nat.eqb 15 IWIDTH) with true. cbn iota. apply cwp_bind, cwp_ret. apply cwp_bind.
  eapply aw_cut; [exact Hpq|exact Bw1|done|done|done|done|done|done|done|done|done|done|].
  intros w2 xl xr pop HH Bw2.
  destruct (split_facts x xq ci r xl xr B2 Hnk Hci HH Hnd Hz Hrk Hr0) as (F1 & F2 & F3 & F4 & F5 & F6 & F7).
  assert (Hhl : i_height xl = i_height x /\ i_height xr = i_height x).
  { destruct HH as [(ksl & csl & -> & _) (ksr & csr & -> & _) _ _]. done. }
  assert (Hvr : i_ver xr = i_ver xq) by (destruct HH as [_ (ksr & csr & -> & _) _ _]; done).
  destruct Hhl as [Hhl Hhr].
  set (nl2 := <[p := NInode xl]> (<[q := NInode xr]> nl)) in *.
  assert (Hq2 : nl2 !! q = Some (NInode xr)) by (unfold nl2; rewrite lookup_insert_ne by done; apply lookup_insert).
  assert (Hp2 : nl2 !! p = Some (NInode xl)) by apply lookup_insert.
  apply cwp_bind. eapply aw_height; [exact Bw2|exact Hp2|]. intros w3 Bw3. rewrite Hhl.
  apply cwp_bind. rewrite <- Hhr. eapply aw_set_height; [exact Bw3|exact Hq2|split; [apply not_elem_of_empty|right; by rewrite Hvr]|].
  intros w4 [A4 M4]. rewrite Hhr.
  assert (Hsrc : forall c, c ∈ kids xr -> src i nl2 pe zs c).
  { intros c Hc. destruct (proj1 (F5 c) (or_intror Hc)) as [Hc'| ->].
    - right. exists p, lp0. split; [done|]. by apply Hlp0.
    - left. split; [done|]. intros σ w' A' E'. by eapply Hroot. }
  apply cwp_bind.
  eapply (cwp_mono i _ _ (fun _ w5 => Mono w w5 /\ exists pe' zs' ks, At i (L nl2 hs un ∅ pr pe' tp zs') w5 /\ moved pe pe' q ks /\ (forall y, y ∈ ks -> y ∈ kids xr) /\
     (forall c, c ∈ zs -> c ∉ ks -> c ∈ zs'))).
  { destruct (Nat.ltb_spec 0 (i_height x)) as [Hlt|Hge].
    - assert (set_inode_parent = setp (i_height xr)) as -> by (unfold setp; rewrite Hhr; by destruct (i_height x); [lia|]).
      eapply cwp_reparent_children; [exact A4|exact Hq2|exact Hpq0|by apply M4|done|exact Hsrc|].
      intros w5 pe' zs' A5 M5 Hm Hz5 _. split; [by eapply mono_trans|]. by exists pe', zs', (kids xr).
    - apply cwp_ret. split; [done|]. exists pe, zs, []. split; [done|]. split; [apply moved_nil|]. split; [|done]. by intros y ?%not_elem_of_nil. }
  intros _ w5 (M5 & pe' & zs' & ks & A5 & Hm & Hks & Hz5). apply cwp_ret. cbn beta iota.
  apply cwp_bind. eapply (cwp_rinode _ _ _ _ _ _ (i_height x)); [exact A5|exact Hp2|intros pa; cbn; by rewrite Hhl|]. intros w6 A6 R6.
  pose proof (rl_mono _ _ _ R6) as M6. pose proof (mono_trans _ _ _ M5 M6) as M06.
  change (if Nat.eqb (i_height x) 0 then set_leaf_parent else set_inode_parent) with (setp (i_height x)). rewrite <- Hhr.
  destruct (Hm q [] Hpq0) as (lq' & Hlq' & _).
  apply cwp_bind. eapply cwp_reparent_children; [exact A6|exact Hq2|exact Hlq'|by apply M06|done| |].
  { intros c Hc. eapply (src_moved i nl2 pe zs); [exact Hm|exact Hpq0|exact Hz5|by apply Hsrc]. }
  intros w7 pe2 zs2 A7 M7 Hm2 Hz7 _. eapply HK; [exact HH|exact A7|by eapply mono_trans| |].
  - eapply moved_ext; [eapply moved_app; [exact Hm|exact Hm2]|]. intros y. rewrite elem_of_app. split; [intros [?|?]; auto|auto].
  - intros c Hc Hn. apply Hz7; [|done]. apply Hz5; [done|]. intros H. by apply Hn, Hks.
Qed.

Section Loop.
Context (i F : nat).
(** [l] and its new sibling [r] are locked, [r] is not yet in the parent *)
Record pending (w : world) (l : N) (n1 : node) (r : N) (n2 : node) (pe : gmap N (list N)) (k : nat) (lv : N) (rt : bool) (main : bool) : Prop := {
  pd_at : At i (L (<[l := n1]> (<[r := n2]> ∅)) ∅ ∅ ∅ ∅ pe {[l]} {[r]}) w; pd_ne : l <> r; pd_vl : vis w l k; pd_vr : vis w r k;
  pd_k1 : nlev n1 = k; pd_k2 : nlev n2 = k; pd_r1 : ready w pe l n1; pd_r2 : ready w pe r n2;
  pd_lv : vbits lv MSpl rt (nleaf n1); pd_cnt : vcnt lv = vcnt (nver n1);
  pd_v1 : exists rt1, vbits (nver n1) MSpl rt1 (nleaf n1); pd_v2 : vbits (nver n2) MSpl false (nleaf n2);
  pd_main : main = false -> parented w l }.
Definition done_ (w : world) (b : bool) (w' : world) : Prop := b = true /\ At i idle w' /\ Mono w w'.
Lemma cwp_done_mono {A} (p : P A) w w1 (f : A -> bool) : Mono w w1 -> cwp i p w1 (fun a => done_ w1 (f a)) -> cwp i p w1 (fun a => done_ w (f a)).
Proof. intros M H. eapply cwp_mono; [exact H|]. intros b w2 (H1 & H2 & H3). split; [done|]. split; [done|by eapply mono_trans]. Qed.
Lemma del_pair (l r : N) (n1 n2 : node) : delete l (delete r (<[l := n1]> (<[r := n2]> ∅))) = (∅ : gmap N node).
Proof. apply map_eq. intros y. rewrite lookup_empty. destruct (decide (y = l)) as [->|]; [by rewrite lookup_delete|]. rewrite lookup_delete_ne by done.
  destruct (decide (y = r)) as [->|]; [by rewrite lookup_delete|]. rewrite lookup_delete_ne by done. by rewrite !lookup_insert_ne. Qed.
(** unlocking both at the end *)
Lemma cwp_release_pair w l n1 r n2 pe tp0 zs0 lv rt : At i (L (<[l := n1]> (<[r := n2]> ∅)) ∅ ∅ ∅ ∅ pe tp0 zs0) w -> l <> r -> l ∈ tp0 -> l ∈ wpub w -> r ∈ wpub w ->
  parented w l -> parented w r -> ready w pe l n1 -> ready w pe r n2 -> vbits lv MSpl rt (nleaf n1) -> vcnt lv = vcnt (nver n1) ->
  vbits (nver n2) MSpl false (nleaf n2) -> cwp i (unlock_for_split r ;;; unlock l lv ;;; Ret true) w (done_ w).
Proof.
  intros A0 Hne Htp Hl Hr Pl Pr R1 R2 Hv Hc Hv2. apply cwp_bind. eapply cwp_unlock_split; [exact A0| |done|exact R2|done|done|].
  { rewrite lookup_insert_ne by done. apply lookup_insert. }
  intros w1 A1 M1. apply cwp_bind. eapply (cwp_unlock i _ _ _ _ _ _ w1 l n1 lv MSpl rt); [exact A1| | | | |done|done|done| |].
  - rewrite lookup_delete_ne by done. apply lookup_insert.
  - apply elem_of_difference. split; [done|by rewrite elem_of_singleton].
  - by apply M1.
  - eapply ready_pe; [by rewrite lookup_delete_ne|]. by eapply ready_mono.
  - intros w2 M2 A2 Hr2. destruct (parented_root w2 l); [apply A2| |done]. eapply parented_mono; [exact (mono_trans _ _ _ M1 M2)|done].
  - intros w2 A2 M2. apply cwp_ret. split; [done|]. split; [|by eapply mono_trans]. rewrite del_pair in A2.
    eapply at_weaken; [exact A2|apply map_empty_subseteq|apply empty_subseteq|apply empty_subseteq].
Qed.

Lemma parent_ok w σ l n lp : At i σ w -> ns σ = ∅ -> is_Some (nl σ !! l) -> hp w !! l = Some n -> npar n = lp -> lp <> 0%N ->
  vis w lp (S (nlev n)) /\ lp ∉ wnas w.
Proof.
  intros A0 Hns Hl Hn Hpa Hz. pose proof (at_inv _ _ _ A0) as I0. split.
  - destruct (iv_node _ I0 l n Hn) as [H _]. rewrite Hpa in H. by apply ptr_vis.
  - intros Hnas. destruct (iv_nas _ I0 lp Hnas) as (j & x & H1 & H2 & H3). pose proof (H3 l n Hn Hpa) as H4.
    apply (at_own _ _ _ A0) in Hl. rewrite Hl in H4. injection H4 as <-.
    assert (lp ∈ ns σ) as H5 by (by apply (at_nas _ _ _ A0)). rewrite Hns in H5. by apply not_elem_of_empty in H5.
Qed.

Lemma cwp_propagate n : forall stale w l n1 r n2 pe k lv rt main sk, pending w l n1 r n2 pe k lv rt main ->
  cwp i (propagate F n stale l lv r sk main false (nleaf n1)) w (done_ w).
Proof.
  induction n as [|n IH]; intros stale w l n1 r n2 pe k lv rt main sk [A0 Hlr Hvl Hvr Hk1 Hk2 Hr1 Hr2 Hlv Hcnt [rt1 Hv1] Hv2 Hmain]; cbn [propagate]; [by right|].
  set (nlr := <[l := n1]> (<[r := n2]> (∅ : gmap N node))) in *.
  assert (Hl0 : nlr !! l = Some n1) by apply lookup_insert.
  assert (Hr0 : nlr !! r = Some n2) by (unfold nlr; rewrite lookup_insert_ne by done; apply lookup_insert).
  assert (Hb : nleaf n1 = Nat.eqb k 0) by (rewrite <- Hk1; by destruct n1).
  apply cwp_bind. eapply cwp_rparent; [exact A0|exact Hl0|]. intros w1 n1' A1 R1 Hn1'. pose proof (rl_mono _ _ _ R1) as M1.
  apply cwp_done_mono with (f := id); [done|]. unfold id. change (fun a : bool => done_ w1 a) with (done_ w1).
  pose proof (vis_mono _ _ _ _ M1 Hvl) as Hvl1. pose proof (vis_mono _ _ _ _ M1 Hvr) as Hvr1.
  pose proof (ready_mono _ _ _ _ _ M1 Hr1) as Hr11. pose proof (ready_mono _ _ _ _ _ M1 Hr2) as Hr21.
  rewrite andb_false_r.
  destruct (N.eqb_spec (npar n1') 0) as [Hz|Hz]; cbn [andb].
  { (* the root *)
    destruct main; cbn iota; [|destruct (parented_mono _ _ _ M1 (Hmain eq_refl)) as (n' & E1 & E2); congruence].
    apply cwp_bind. eapply (cwp_create_root i pe {[l]} w1 l n1 r n2 k); [by eapply at_add_zs|apply elem_sing|done|done|done|done|done|done|done|exact Hv1|].
    intros w2 pe2 A2 M2 Pl Pr B1 B2. apply cwp_done_mono with (f := id); [done|].
    eapply (cwp_release_pair w2 l _ r n2 pe2 _ _ lv rt); [exact A2|done|apply elem_sing|by apply M2, Hvl1|by apply M2, Hvr1|done|done|done|done| | |done].
    - by destruct n1.
    - rewrite nset_ver, nonroot_vcnt. done. }
  (* lock the parent *)
  set (lp := npar n1') in *.
  destruct (parent_ok w1 _ l n1' lp A1 eq_refl (ex_intro _ _ Hl0) Hn1' eq_refl Hz) as [Hvp Hpn].
  assert (Hlev1 : nlev n1' = k). { destruct Hvl1 as [_ E]. unfold lev in E. rewrite Hn1' in E. cbn in E. by injection E. }
  rewrite Hlev1 in Hvp.
  apply cwp_bind. eapply (cwp_lock _ _ _ _ _ _ _ _ _ _ lp (S k)); [exact A1|apply Hvp|done|apply Hvp|].
  intros w2 np prt A2 M2 Hnp Hpw2 Hlk Hpl0 Hvpv.
  destruct np as [?|x]; cbn in Hnp; [done|]. injection Hnp as Hhx. cbn [add_kids nleaf nver locked_node] in *. destruct Hlk as [Hnd Hz0].
  assert (Hpe_l : lp <> l) by (intros E; rewrite E in Hpl0; congruence).
  assert (Hpe_r : lp <> r) by (intros E; rewrite E in Hpl0; congruence).
  set (nl3 := <[lp := NInode x]> nlr) in *. set (pe3 := <[lp := kids x]> pe) in *.
  assert (Hp3 : nl3 !! lp = Some (NInode x)) by apply lookup_insert.
  assert (Hl3 : nl3 !! l = Some n1) by (unfold nl3; by rewrite lookup_insert_ne). assert (Hr3 : nl3 !! r = Some n2) by (unfold nl3; by rewrite lookup_insert_ne).
  apply cwp_bind. eapply cwp_rparent; [exact A2|exact Hl3|]. intros w3 n1'' A3 R3 Hn1''. pose proof (rl_mono _ _ _ R3) as M3.
  pose proof (mono_trans _ _ _ M2 M3) as Ma13. apply cwp_done_mono with (f := id); [done|]. unfold id. change (fun a : bool => done_ w3 a) with (done_ w3).
  pose proof (vis_mono _ _ _ _ Ma13 Hvl1) as Hvl3. pose proof (vis_mono _ _ _ _ Ma13 Hvr1) as Hvr3. pose proof (vis_mono _ _ _ _ Ma13 Hvp) as Hvp3.
  pose proof (ready_mono _ _ _ _ _ Ma13 Hr11) as Hr13. pose proof (ready_mono _ _ _ _ _ Ma13 Hr21) as Hr23.
  assert (Hrl3 : ready w3 pe3 l n1) by (eapply ready_pe; [unfold pe3; by rewrite lookup_insert_ne|done]).
  assert (Hrr3 : ready w3 pe3 r n2) by (eapply ready_pe; [unfold pe3; by rewrite lookup_insert_ne|done]).
  assert (Hpl3 : parented w3 l). { eapply parented_mono; [exact Ma13|]. by exists n1'. }
  destruct (N.eqb_spec (npar n1'') lp) as [Hcur|Hcur]; cbn [negb].
  2: { (* the parent changed *)
    apply cwp_bind. eapply (cwp_unlock i _ _ _ _ _ _ w3 lp (NInode x) _ MIns prt); [exact A3|exact Hp3|apply elem_unl|apply Hvp3| |done|done|done| |].
    - split; [done|]. split; [done|]. exists (kids x). split; [apply lookup_insert|done].
    - intros w4 M4 A4 Hr4. cbn. by eapply (at_rootf _ _ _ lp (NInode x)) in Hr4.
    - intros w4 A4 M4. unfold nl3 in A4. rewrite delete_insert in A4 by done.
      apply cwp_done_mono with (f := id); [done|]. eapply (IH 0 w4 l n1 r n2 (delete lp pe3) k lv rt main). split; try done.
      + eapply at_weaken; [exact A4|done| |].
        * intros y ->%elem_of_singleton. apply elem_of_difference. split; [apply elem_of_union_r, elem_sing|rewrite elem_of_singleton; done].
        * intros y ->%elem_of_singleton. apply elem_of_difference. split; [apply elem_sing|rewrite elem_of_singleton; done].
      + by eapply vis_mono.
      + by eapply vis_mono.
      + eapply ready_pe; [by rewrite lookup_delete_ne|]. by eapply ready_mono.
      + eapply ready_pe; [by rewrite lookup_delete_ne|]. by eapply ready_mono.
      + by exists rt1.
      + intros _. by eapply parented_mono. }
  assert (Hlk3 : pe3 !! lp = Some (kids x)) by apply lookup_insert.
  assert (Hlin : l ∈ kids x). { destruct (at_pe _ _ _ A3 lp (kids x) Hlk3) as (_ & H & _). by apply (H l n1'' Hn1''). }
  assert (Hrnin : r ∉ kids x).
  { intros H. destruct (at_pe _ _ _ A3 lp (kids x) Hlk3) as (_ & H1 & _). destruct (at_zs _ _ _ A3 r (elem_sing r)) as [Ho Hz3].
    pose proof (iv_own _ (at_inv _ _ _ A3) _ _ Ho) as [nr Hnr]. apply (H1 r nr Hnr) in H. rewrite (Hz3 nr Hnr) in H. congruence. }
  assert (Hrn0 : r <> 0%N). { pose proof (iv_pub _ (at_inv _ _ _ A3) _ (proj1 Hvr3)) as [? ?%(iv_addr _ (at_inv _ _ _ A3))]. lia. }
  apply cwp_bind. eapply (cwp_find_child _ _ w3 lp x l); [exact A3|exact Hp3|done|]. intros w4 ci A4 M4 Hci Hcil. cbn iota.
  apply cwp_done_mono with (f := id); [done|]. unfold id. change (fun a : bool => done_ w4 a) with (done_ w4).
  do 2 apply cwp_bind. eapply (cwp_rinode _ _ _ _ _ _ (i_nkeys x)); [exact A4|exact Hp3|done|]. intros w5 A5 R5. apply cwp_ret.
  pose proof (rl_mono _ _ _ R5) as M5. pose proof (mono_trans _ _ _ M4 M5) as M35.
  apply cwp_done_mono with (f := id); [done|]. unfold id. change (fun a : bool => done_ w5 a) with (done_ w5).
  pose proof (vis_mono _ _ _ _ M35 Hvl3) as Hvl5. pose proof (vis_mono _ _ _ _ M35 Hvr3) as Hvr5. pose proof (vis_mono _ _ _ _ M35 Hvp3) as Hvp5.
  pose proof (ready_mono _ _ _ _ _ M35 Hrl3) as Hrl5. pose proof (ready_mono _ _ _ _ _ M35 Hrr3) as Hrr5. pose proof (parented_mono _ _ _ M35 Hpl3) as Hpl5.
  pose proof (at_inode_ok _ _ _ lp _ A5 Hp3) as [[B1 B2] B3 B4 B5].
  clear Hn1'' Hcur R3 R5 A4 A3 A2 A1 A0 Hpw2.
  destruct (Nat.leb_spec IWIDTH (i_nkeys x)) as [Hfull|Hfull]; unfold IWIDTH in Hfull.
  - assert (Hnk : i_nkeys x = 15) by lia.
    apply cwp_bind. eapply cwp_mark_split; [exact A5|exact Hp3|apply not_elem_of_empty|exact Hvpv|]. intros w6 A6 M6.
    unfold nl3 in A6. rewrite insert_insert in A6. cbn [nset nver] in *.
    match type of A6 with At _ (L (<[lp := NInode ?y]> _) _ _ _ _ _ _ _) _ => set (x1 := y) in * end.
    assert (Hv6 : vbits (i_ver x1) MSpl prt false) by (by apply (vbits_spl _ MIns)).
    assert (Hx1 : kids x1 = kids x /\ i_height x1 = k /\ i_nkeys x1 = 15 /\ length (i_child x1) = 16) by done. destruct Hx1 as (Hx1k & Hx1h & Hx1n & Hx1l).
    assert (Hx1v : i_ver x1 = N.lor (i_ver x) SPLITTING_BIT) by done. clearbody x1.
    set (nl6 := <[lp := NInode x1]> nlr) in *. assert (Hp6 : nl6 !! lp = Some (NInode x1)) by apply lookup_insert.
    (* is the parent the root? *)
    apply cwp_bind. eapply cwp_rroot; [exact A6|]. intros w7 A7 R7. pose proof (rl_mono _ _ _ R7) as M7. pose proof (mono_trans _ _ _ M6 M7) as M57.
    set (pmain := (root (wm w7) =? lp)%N).
    assert (Hpm : pmain = false -> parented w7 lp).
    { intros Hf. apply N.eqb_neq in Hf. destruct (at_tp _ _ _ A7 lp (elem_unl _ _)) as [Ho Ht]. pose proof (iv_own _ (at_inv _ _ _ A7) _ _ Ho) as [np Hnp].
      exists np. split; [done|]. intros E. by apply Hf, (Ht np Hnp). }
    apply cwp_bind. change (inode_parent lp) with (get_parent lp (nleaf (NInode x1))). eapply cwp_rparent; [exact A7|exact Hp6|].
    intros w8 np8 A8 R8 Hnp8. pose proof (rl_mono _ _ _ R8) as M8. pose proof (mono_trans _ _ _ M57 M8) as M58.
    apply cwp_bind. eapply cwp_rflag; [exact A8|exact Hp6|]. intros w9 A9 R9. pose proof (rl_mono _ _ _ R9) as M9. pose proof (mono_trans _ _ _ M58 M9) as M59.
    assert (Hpl : negb pmain && (npar np8 =? 0)%N && v_is_root (nver (NInode x1)) = false).
    { destruct pmain; [done|]. destruct (parented_mono _ _ _ M8 (Hpm eq_refl)) as (n' & E1 & E2). rewrite Hnp8 in E1. injection E1 as <-.
      by rewrite (proj2 (N.eqb_neq _ _) E2). }
    cbv zeta. rewrite Hpl.
    apply cwp_bind. eapply cwp_rver; [exact A9|exact Hp6|]. intros w10 A10 R10. pose proof (rl_mono _ _ _ R10) as M10. pose proof (mono_trans _ _ _ M59 M10) as M510.
    apply cwp_bind. eapply (cwp_rinode _ _ _ _ _ _ k); [exact A10|exact Hp6|intros pa; cbn; by rewrite Hx1h|]. intros w11 A11 R11.
    pose proof (rl_mono _ _ _ R11) as M11. pose proof (mono_trans _ _ _ M510 M11) as M511. cbn [nver]. rewrite (vbits_lockedf _ _ _ _ Hv6).
    apply cwp_bind. eapply (cwp_alloc i _ _ _ _ _ _ _ _ w11 _ true MSpl false); [exact A11| | |done|].
    { split; [done|]. split; [done|]. split; [done|]. split; [cbn; lia|]. intros c Hc. by apply elem_of_list_In, repeat_spec in Hc. }
    { cbn [nver nleaf inode_new i_ver]. by eapply vbits_new_split. }
    intros ps w12 A12 M12 Hpub12 Hps6 _ _ _ _ _. cbn iota in A12. specialize (Hpub12 eq_refl). pose proof (mono_trans _ _ _ M511 M12) as M512.
    apply cwp_bind. eapply cwp_track; [exact A12|apply elem_unl|]. intros w13 A13 M13. rewrite set_back in A13. pose proof (mono_trans _ _ _ M512 M13) as M513.
    set (xq := inode_new (v_new_for_split (i_ver x1)) k) in *.
    assert (Hps_p : lp <> ps) by (intros <-; congruence).
    assert (Hps_l : ps <> l) by (intros ->; unfold nl6 in Hps6; rewrite lookup_insert_ne in Hps6 by done; congruence).
    assert (Hps_r : ps <> r) by (intros ->; unfold nl6 in Hps6; rewrite lookup_insert_ne in Hps6 by done; congruence).
    unfold nl6 in A13. rewrite insert_commute in A13 by done. set (pe4 := <[ps := []]> pe3) in *.
    assert (Hpe4p : pe4 !! lp = Some (kids x)) by (unfold pe4; by rewrite lookup_insert_ne).
    assert (Hvq : vbits (i_ver xq) MSpl false false) by (by eapply vbits_new_split).
    assert (Hnr : forall xl xr σ w', At i σ w' -> Conc.nl σ = <[lp := NInode xl]> (<[ps := NInode xr]> nlr) -> root (wm w') <> r).
    { intros xl xr σ w' A' E. eapply at_nonroot; [exact A'| |exact Hv2]. rewrite E, !lookup_insert_ne by done. exact Hr0. }
    eapply (cwp_split_full i nlr ∅ ∅ ∅ pe4 _ _ w13 lp ps x1 xq ci sk r (kids x)); [exact A13|exact Hps_p|by rewrite (vbits_lockedf _ _ _ _ Hv6)|by rewrite (vbits_lockedf _ _ _ _ Hvq)|done|by rewrite Hx1h|lia| | |apply lookup_insert|exact Hpe4p|by rewrite Hx1k|by rewrite Hx1k|by rewrite Hx1k|by rewrite Hx1k|done| | |].
    { right. rewrite Hx1h. by eapply vis_mono; [exact M513|]. }
    { by apply M13. }
    { apply elem_of_union_r, elem_sing. }
    { intros xl xr σ w' _ A' E. by eapply Hnr. }
    intros w14 xl xr pop pe14 zs14 HH A14 M14 Hmv Hzs. pose proof (mono_trans _ _ _ M513 M14) as M514.
    rewrite <- Hx1k in Hnd, Hz0, Hrnin.
    destruct (split_facts x1 xq ci r xl xr Hx1l Hx1n ltac:(lia) HH Hnd Hz0 Hrnin Hrn0) as (F1 & F2 & F3 & F4 & F5 & F6 & F7).
    assert (Hxs : i_height xl = k /\ i_height xr = k /\ i_ver xl = i_ver x1 /\ i_ver xr = i_ver xq).
    { destruct HH as [(ksl & csl & -> & _) (ksr & csr & -> & _) _ _]. by rewrite <- Hx1h at 1. }
    destruct Hxs as (Hxl & Hxr & Hvxl & Hvxr). clear HH.
    set (nl14 := <[lp := NInode xl]> (<[ps := NInode xr]> nlr)) in *.
    assert (Hp14 : nl14 !! lp = Some (NInode xl)) by apply lookup_insert.
    assert (Hs14 : nl14 !! ps = Some (NInode xr)) by (unfold nl14; rewrite lookup_insert_ne by done; apply lookup_insert).
    assert (Hl14 : nl14 !! l = Some n1) by (unfold nl14; by rewrite !lookup_insert_ne by done).
    assert (Hr14 : nl14 !! r = Some n2) by (unfold nl14; by rewrite !lookup_insert_ne by done).
    set (t := if Nat.ltb ci 8 then lp else ps).
    assert (Ht : exists nt lt, nl14 !! t = Some nt /\ pe14 !! t = Some lt /\ vis w14 t (S k)).
    { destruct (Hmv lp _ Hpe4p) as (lp' & Hlp' & _). destruct (Hmv ps [] (lookup_insert _ _ _)) as (ls' & Hls' & _).
      unfold t. destruct (Nat.ltb ci 8).
      - exists (NInode xl), lp'. split; [done|]. split; [done|]. exact (vis_mono _ _ _ _ M514 Hvp5).
      - exists (NInode xr), ls'. split; [done|]. split; [done|]. split; [by apply M14, M13|]. rewrite (at_lev _ _ _ _ _ A14 Hs14). cbn. by rewrite Hxr. }
    destruct Ht as (nt & lt & Ht1 & Ht2 & Ht3). pose proof (vis_mono _ _ _ _ M514 Hvr5) as Hvr14.
    assert (Hsr : src i nl14 pe14 zs14 r).
    { eapply (src_moved i nl14 pe4 ({[ps]} ∪ {[r]})); [exact Hmv|apply lookup_insert|exact Hzs|]. left. split; [apply elem_of_union_r, elem_sing|].
      intros σ w' A' E'. exact (Hnr _ _ σ w' A' E'). }
    apply cwp_bind. eapply (cwp_setpar _ _ _ _ _ _ _ _ _ _ r t k lt nt false); [exact A14|exact Ht1|exact Ht2|apply Ht3|apply Ht3|apply Hvr14|exact Hb| | |done|].
    { destruct Hsr as [[H1 H2]|H]; [left|by right]. split; [done|]. intros w' _ A'. exact (H2 _ w' A' eq_refl). }
    { by intros ?%not_elem_of_empty. }
    intros w15 A15 M15 Hpr15. cbn iota in A15. pose proof (mono_trans _ _ _ M514 M15) as M515.
    set (pe15 := move_kid r t lt pe14) in *. assert (Hmv2 : moved pe14 pe15 t [r]) by (by apply moved_one).
    assert (Hrd15 : forall y nn, y <> lp -> y <> ps -> nlr !! y = Some nn -> nlev nn = k -> ready w5 pe3 y nn -> ready w15 pe15 y nn).
    { intros y nn Hy Hy' Hnn Hlv' Hrd. assert (H14 : nl14 !! y = Some nn) by (unfold nl14; by rewrite !lookup_insert_ne by done).
      assert (Hrd14 : ready w14 pe14 y nn).
      { eapply ready_moved; [exact Hmv|done| |].
        - intros c Hc. eapply (not_nkid _ _ w14 y nn pe3 c k); [exact A14|exact H14|by eapply ready_mono| |lia].
          rewrite <- Hxr. eapply (kid_lev _ _ _ ps xr c A14 Hs14 Hc). by intros ->.
        - eapply ready_pe; [unfold pe4; by rewrite lookup_insert_ne|]. by eapply ready_mono. }
      eapply ready_moved; [exact Hmv2|unfold t; by destruct (Nat.ltb ci 8)| |exact (ready_mono _ _ _ _ _ M15 Hrd14)]. intros c ->%elem_of_list_singleton.
      eapply (not_nkid _ _ w14 y nn pe14 r k); [exact A14|exact H14|done|apply Hvr14|lia]. }
    assert (Hfin : (exists ll, pe15 !! lp = Some ll /\ forall c, c ∈ ll <-> c ∈ kids xl) /\ (exists ll, pe15 !! ps = Some ll /\ forall c, c ∈ ll <-> c ∈ kids xr)).
    { destruct (Hmv lp _ Hpe4p) as (lp' & Hlp' & Elp). destruct (Hmv ps [] (lookup_insert _ _ _)) as (ls' & Hls' & Els).
      destruct (Hmv2 lp lp' Hlp') as (lp2 & Hlp2 & Elp2). destruct (Hmv2 ps ls' Hls') as (ls2 & Hls2 & Els2). rewrite Hx1k in F5, Hrnin.
      split.
      - exists lp2. split; [done|]. intros c. specialize (Elp2 c). specialize (Elp c). rewrite decide_False in Elp by done. specialize (F5 c). specialize (F6 c).
        pose proof (elem_of_list_singleton c r). unfold t in Elp2. destruct (Nat.ltb ci 8).
        + rewrite decide_True in Elp2 by done. assert (c = r -> c ∈ kids xl) by (by intros ->). tauto.
        + rewrite decide_False in Elp2 by done. assert (c = r -> c ∈ kids xr) by (by intros ->). tauto.
      - exists ls2. split; [done|]. intros c. specialize (Els2 c). specialize (Els c). rewrite decide_True in Els by done. specialize (F6 c).
        pose proof (elem_of_list_singleton c r). pose proof (not_elem_of_nil c). unfold t in Els2. destruct (Nat.ltb ci 8).
        + rewrite decide_False in Els2 by done. assert (c = r -> c ∈ kids xl) by (by intros ->). tauto.
        + rewrite decide_True in Els2 by done. assert (c = r -> c ∈ kids xr) by (by intros ->). tauto. }
    destruct Hfin as [(llp & Hllp & Ellp) (lls & Hlls & Ells)].
    apply cwp_bind. eapply (cwp_unlock_split i _ _ _ _ _ _ w15 r n2); [exact A15|exact Hr14|by apply M15, Hvr14| |done|done|].
    { by apply Hrd15. }
    intros w16 A16 M16. pose proof (mono_trans _ _ _ M515 M16) as M516.
    apply cwp_bind. eapply (cwp_unlock i _ _ _ _ _ _ w16 l n1 lv MSpl rt); [exact A16| | | | |done|done|done| |].
    { by rewrite lookup_delete_ne. }
    { apply elem_of_difference. split; [apply elem_of_union_r, elem_sing|by rewrite elem_of_singleton]. }
    { by apply M516, Hvl5. }
    { eapply ready_pe; [by rewrite lookup_delete_ne|]. eapply ready_mono; [exact M16|]. by apply Hrd15. }
    { intros w17 M17 A17 Hr17. destruct (parented_root w17 l); [apply A17| |done]. eapply parented_mono; [exact (mono_trans _ _ _ M516 M17)|done]. }
    intros w17 A17 M17. pose proof (mono_trans _ _ _ M516 M17) as M517.
    assert (E : delete l (delete r nl14) = <[lp := NInode xl]> (<[ps := NInode xr]> ∅)).
    { unfold nl14. rewrite !delete_insert_ne by done. unfold nlr. by rewrite del_pair. }
    rewrite E in A17. apply cwp_done_mono with (f := id); [done|]. unfold id. change (fun a : bool => done_ w17 a) with (done_ w17).
    eapply (IH 0 w17 lp (NInode xl) ps (NInode xr) _ (S k) _ prt pmain). split.
    + eapply at_weaken; [exact A17|done| |].
      * intros y ->%elem_of_singleton. rewrite !elem_of_difference, elem_of_union, !elem_of_singleton. split; [split; [by left|exact Hpe_r]|exact Hpe_l].
      * intros y ->%elem_of_singleton. rewrite !elem_of_difference, !elem_of_singleton. split; [|done]. split; [|done]. split; [|done].
        apply Hzs; [apply elem_unl|]. intros Hin. destruct (kid_lev _ _ _ ps xr ps A14 Hs14 Hin) as [_ Hl]; [by intros ->|].
        rewrite (at_lev _ _ _ _ _ A14 Hs14) in Hl. cbn in Hl. injection Hl as Hl. lia.
    + done.
    + by eapply vis_mono; [exact M517|].
    + pose proof (mono_trans _ _ _ M15 (mono_trans _ _ _ M16 M17)) as M1417. split; [by apply M1417, M14, M13|]. apply M1417.
      rewrite (at_lev _ _ _ _ _ A14 Hs14). cbn. by rewrite Hxr.
    + cbn. by rewrite Hxl.
    + cbn. by rewrite Hxr.
    + split; [done|]. split; [done|]. exists llp. split; [|done]. by rewrite !lookup_delete_ne by done.
    + split; [done|]. split; [done|]. exists lls. split; [|done]. by rewrite !lookup_delete_ne by done.
    + cbn [nleaf]. rewrite <- Hx1v. exact Hv6.
    + cbn [nver]. rewrite Hvxl. congruence.
    + exists prt. cbn [nver nleaf]. by rewrite Hvxl.
    + cbn [nver nleaf]. by rewrite Hvxr.
    + intros Hf. eapply parented_mono; [|by apply Hpm].
      exact (mono_trans _ _ _ M8 (mono_trans _ _ _ M9 (mono_trans _ _ _ M10 (mono_trans _ _ _ M11 (mono_trans _ _ _ M12 (mono_trans _ _ _ M13 (mono_trans _ _ _ M14 (mono_trans _ _ _ M15 (mono_trans _ _ _ M16 M17))))))))).
  - apply cwp_bind. unfold mark_insert, guard_mark_insert. rewrite (vbits_inserting _ _ _ Hvpv). apply cwp_ret.
    assert (Hmp : mine ∅ ∅ lp x) by (split; [apply not_elem_of_empty|right; by rewrite (vbits_lockedf _ _ _ _ Hvpv)]).
    apply cwp_bind. eapply aw_insert_kc; [split; [exact A5|apply mono_refl]|done|done|done|lia|lia|right; rewrite Hhx; exact Hvr5|].
    intros w6 ks cs K1 K2 E2 [A6 M6].
    pose proof (add_kid_list x (iput x (i_nkeys x + 1) ks cs) ci r B2 K2 ltac:(lia) Hcil eq_refl E2) as Hkids.
    set (x2 := iput x (i_nkeys x + 1) ks cs) in *.
    assert (Hperm : kids x2 ≡ₚ r :: kids x) by (rewrite Hkids, <- Permutation_middle; by rewrite take_drop).
    assert (Hp6 : (<[lp := NInode x2]> nlr) !! lp = Some (NInode x2)) by apply lookup_insert.
    assert (Hr6 : (<[lp := NInode x2]> nlr) !! r = Some n2) by (by rewrite lookup_insert_ne).
    pose proof (vis_mono _ _ _ _ M6 Hvr5) as Hvr6. pose proof (vis_mono _ _ _ _ M6 Hvp5) as Hvp6.
    apply cwp_bind. eapply (cwp_setpar _ _ _ _ _ _ _ _ _ _ r lp k (kids x) _ false); [exact A6|exact Hp6|exact Hlk3|apply Hvp6|apply Hvp6|apply Hvr6|exact Hb| | |done|].
    { left. split; [apply elem_sing|]. intros w7 _ A7. by eapply at_nonroot. }
    { by intros ?%not_elem_of_empty. }
    intros w7 A7 M7 Hpr7. cbn iota in A7. rewrite set_back1 in A7. pose proof (mono_trans _ _ _ M6 M7) as M57.
    set (pe7 := move_kid r lp (kids x) pe3) in *. assert (Hmv : moved pe3 pe7 lp [r]) by (by apply moved_one).
    assert (Hrd7 : forall y nn, y <> lp -> nlr !! y = Some nn -> nlev nn = k -> ready w5 pe3 y nn -> ready w7 pe7 y nn).
    { intros y nn Hy Hnn Hlv' Hrd. eapply ready_moved; [exact Hmv|done| |by eapply ready_mono]. intros c ->%elem_of_list_singleton.
      eapply (not_nkid _ _ w5 y nn pe3 r k); [exact A5|cbn [Conc.nl]; unfold nl3; by rewrite lookup_insert_ne|done|apply Hvr5|lia]. }
    apply cwp_bind. eapply (cwp_unlock_split i _ _ _ _ _ _ w7 r n2); [exact A7|exact Hr6|by apply M7, Hvr6|by apply Hrd7|done|done|].
    intros w8 A8 M8. pose proof (mono_trans _ _ _ M57 M8) as M58.
    apply cwp_bind. eapply (cwp_unlock i _ _ _ _ _ _ w8 lp (NInode x2) _ MIns prt); [exact A8| | | | |done|done|done| |].
    + by rewrite lookup_delete_ne.
    + apply elem_of_difference. split; [apply elem_unl|by rewrite elem_of_singleton].
    + by apply M58, Hvp5.
    + split; [rewrite Hperm; by constructor|]. split; [rewrite Hperm, elem_of_cons; intros [?|?]; [congruence|done]|].
      exists (r :: kids x). split; [|intros c; by rewrite Hperm]. rewrite lookup_delete_ne by done. apply lookup_insert.
    + intros w9 M9 A9 Hr9. cbn. eapply (at_rootf _ _ _ lp (NInode x2)) in Hr9; [exact Hr9|exact A9|by cbn; rewrite lookup_delete_ne|exact Hvpv].
    + intros w9 A9 M9. pose proof (mono_trans _ _ _ M58 M9) as M59.
      apply cwp_bind. eapply (cwp_unlock i _ _ _ _ _ _ w9 l n1 lv MSpl rt); [exact A9| | | | |done|done|done| |].
      * by rewrite !lookup_delete_ne, lookup_insert_ne by done.
      * rewrite !elem_of_difference, elem_of_union, !elem_of_singleton. split; [split; [by right|exact Hlr]|]. intros E. by apply Hpe_l.
      * by apply M59, Hvl5.
      * apply (ready_pe _ pe7); [by rewrite !lookup_delete_ne by done|]. eapply ready_mono; [exact (mono_trans _ _ _ M8 M9)|]. by apply Hrd7.
      * intros w10 M10 A10 Hr10. destruct (parented_root w10 l); [apply A10| |done]. eapply parented_mono; [exact (mono_trans _ _ _ M59 M10)|done].
      * intros w10 A10 M10. apply cwp_ret. split; [done|]. split; [|by eapply mono_trans].
        assert (E : delete l (delete lp (delete r (<[lp := NInode x2]> nlr))) = ∅).
        { rewrite (delete_commute _ lp r), delete_insert by done. apply del_pair. }
        rewrite E in A10. eapply at_weaken; [exact A10|apply map_empty_subseteq|apply empty_subseteq|apply empty_subseteq].
Qed.
End Loop.
