(** Reclamation: what the collector frees between calls, and dropping the tree. *)
From Verif Require Import Base Perm PermFacts PermList SpecPerm PermLaws Key SpecKey KeyFacts Suffix Prog Version Mem Tree SpecTree SpecHist TreeState TreePrim TreeInv TreeRead TreeLeaf TreeContent TreeLoop TreeTop TreeLaws.

Lemma own_del {X} a L (mp : gmap N X) : own (a :: L) mp -> is_Some (mp !! a) /\ own L (delete a mp).
Proof.
  intros [H1 H2]. apply NoDup_cons in H1 as [H1 H3]. split; [apply H2; by left|]. split; [done|].
  intros x. destruct (decide (x = a)) as [->|Hn].
  - rewrite lookup_delete. split; [done|]. intros [? ?]; done.
  - rewrite lookup_delete_ne by done. rewrite <- H2, elem_of_cons. naive_solver.
Qed.
Lemma own_nil {X} (mp : gmap N X) : own [] mp -> mp = ∅.
Proof.
  intros [_ H]. apply map_eq; intros i0; rewrite lookup_empty; revert i0. intros i. destruct (mp !! i) as [x|] eqn:E; [|done]. exfalso.
  assert (Hi : i ∈ @nil N) by (apply H; rewrite E; by eexists). by apply elem_of_nil in Hi.
Qed.
Definition set_vb (V : gmap N N) (B : gmap N bag) (m : mem) : mem := mwith_bags B (mwith_vals V m).
Lemma set_vb_id m : set_vb (vals m) (bags m) m = m.
Proof. by destruct m. Qed.
Lemma reclaim_list_spec l : forall m X Y, own (X ++ retv l) (vals m) -> own (Y ++ retb l) (bags m) ->
  exists V B, reclaim_list l m = Ok (set_vb V B m) /\ own X V /\ own Y B /\
  (forall x, x ∈ X -> V !! x = vals m !! x) /\ (forall x, x ∈ Y -> B !! x = bags m !! x).
Proof.
  induction l as [|g l IH]; intros m X Y HV HB; cbn [reclaim_list].
  - exists (vals m), (bags m). rewrite set_vb_id. cbn in HV, HB. rewrite app_nil_r in HV, HB. done.
  - destruct g as [h|b]; cbn [reclaim1 res_bind].
    + change (retv (GVal h :: l)) with (h :: retv l) in HV. change (retb (GVal h :: l)) with (retb l) in HB.
      assert (HV' : own (h :: X ++ retv l) (vals m)) by (eapply own_perm; [|exact HV]; by rewrite Permutation_middle).
      destruct (own_del _ _ _ HV') as [[v Hv] HV2]. rewrite Hv. cbn [res_bind].
      destruct (IH (mwith_vals (delete h (vals m)) m) X Y HV2 HB) as (V & B & E & O1 & O2 & L1 & L2).
      exists V, B. split; [exact E|]. split; [done|]. split; [done|]. split; [|exact L2].
      intros x Hx. rewrite (L1 x Hx). cbn. apply lookup_delete_ne. intros ->.
      destruct HV' as [HV' _]. apply NoDup_cons in HV' as [HV' _]. apply HV'. apply elem_of_app. by left.
    + change (retb (GBag b :: l)) with (b :: retb l) in HB. change (retv (GBag b :: l)) with (retv l) in HV.
      assert (HB' : own (b :: Y ++ retb l) (bags m)) by (eapply own_perm; [|exact HB]; by rewrite Permutation_middle).
      destruct (own_del _ _ _ HB') as [[v Hv] HB2]. rewrite Hv. cbn [res_bind].
      destruct (IH (mwith_bags (delete b (bags m)) m) X Y HV HB2) as (V & B & E & O1 & O2 & L1 & L2).
      exists V, B. split; [exact E|]. split; [done|]. split; [done|]. split; [exact L1|].
      intros x Hx. rewrite (L2 x Hx). cbn. apply lookup_delete_ne. intros ->.
      destruct HB' as [HB' _]. apply NoDup_cons in HB' as [HB' _]. apply HB'. apply elem_of_app. by left.
Qed.
Lemma retv_app a b : retv (a ++ b) = retv a ++ retv b.
Proof. apply omap_app. Qed.
Lemma retb_app a b : retb (a ++ b) = retb a ++ retb b.
Proof. apply omap_app. Qed.

(** ** the collector between calls *)
Lemma st_reclaim keep m s : St m s -> exists V B, run (reclaim_old keep) m = Ok (tt, set_vb V B (mwith_retired (take keep (retired m)) m)) /\
  St (set_vb V B (mwith_retired (take keep (retired m)) m)) (setV V s) /\
  forall x, x ∈ vrefs (sA s) -> V !! x = sV s !! x.
Proof.
  intros H. set (m1 := mwith_retired (take keep (retired m)) m).
  destruct (reclaim_list_spec (drop keep (retired m)) m1 (vrefs (sA s) ++ retv (take keep (retired m)) ++ sfv s) (brefs (sA s) ++ retb (take keep (retired m))))
    as (V & B & E & O1 & O2 & L1 & L2).
  - change (vals m1) with (vals m). eapply own_perm; [|exact (st_ov _ _ H)]. rewrite <- (take_drop keep (retired m)) at 1. rewrite retv_app.
    generalize (vrefs (sA s)) (retv (take keep (retired m))) (retv (drop keep (retired m))) (sfv s). intros. perm_tac.
  - change (bags m1) with (bags m). eapply own_perm; [|exact (st_ob _ _ H)]. rewrite <- (take_drop keep (retired m)) at 1. rewrite retb_app.
    generalize (brefs (sA s)) (retb (take keep (retired m))) (retb (drop keep (retired m))). intros. perm_tac.
  - exists V, B. split; [cbn; fold m1; by rewrite E|]. destruct H. split; [|intros x Hx; rewrite L1; [cbn; by rewrite st_vals|apply elem_of_app; by left]].
    split; cbn [heap bags vals root cnt nxt retired tracked set_vb mwith_bags mwith_vals mwith_retired sA sR sC sV sfv sfn setV m1]; try done.
    + intros p. pose proof (st_heap p) as Hp. destruct (heap m !! p), (sA s !! p) as [an|] eqn:En; try done.
      eapply node_rel_bags; [|exact Hp]. intros b Hb. apply L2. apply elem_of_app. left. apply big_elem. exists p, an. done.
    + intros p Hp. apply st_ab. apply O2 in Hp. apply st_ob. rewrite <- (take_drop keep (retired m)), retb_app.
      apply elem_of_app in Hp as [Hp|Hp]; apply elem_of_app; [by left|right; apply elem_of_app; by left].
    + intros p Hp. apply st_av. apply O1 in Hp. apply st_ov. rewrite <- (take_drop keep (retired m)), retv_app.
      rewrite !elem_of_app in *. naive_solver.
Qed.
Lemma ent_ref s p g md rt pa L e : sA s !! p = Some (LF g md rt pa L) -> length (lb_sl L) = 24 -> p_wf P24 (lb_perm L) ->
  e ∈ es L -> s_ptr e <> 0%N -> (s_kx e < LAYER_KEYLENX)%N -> s_ptr e ∈ vrefs (sA s).
Proof.
  intros Hp Hl Hw He Hn Hk. apply big_elem. exists p, (LF g md rt pa L). split; [done|]. unfold nrefs. cbn [a_bd].
  apply elem_of_list_In, in_concat. exists (srefs e). split.
  - apply in_map. unfold es in He. apply elem_of_list_fmap in He as (i & -> & Hi). unfold ent. apply nth_In. rewrite Hl.
    by eapply ids_lt.
  - apply elem_of_list_In. unfold srefs. destruct (N.eqb_spec (s_ptr e) 0); [done|]. apply N.ltb_lt in Hk. rewrite Hk. cbn. by left.
Qed.

Lemma inv_setV K B s V pl pr : (forall x, x ∈ vrefs (sA s) -> V !! x = sV s !! x) -> Inv K B s pl pr -> Inv K B (setV V s) pl pr.
Proof.
  intros HV [H1 H2]. split; [done|]. cbn [setV sA sV]. intros p g md rt pa L Hp. pose proof (H2 p g md rt pa L Hp) as HL. destruct HL.
  split; try done. intros e He. destruct (lk_ent e He) as [Hn [Hv|Hy]]; (split; [done|]); [left|by right].
  destruct Hv as (r & v & Hr & Hl & Hv & HK). exists r, v. split; [done|]. split; [done|]. split; [|done].
  rewrite HV; [done|]. eapply ent_ref; [done|done|done|done|done|].
  destruct Hr as (_ & _ & Hr). destruct (Nat.leb_spec (length r) 8); [|destruct Hr as [-> _]; done]. rewrite Hr. unfold LAYER_KEYLENX. lia.
Qed.
Lemma reaches_ref K B s k l d h : Inv K B s 0 0 -> reaches (sA s) k l d h -> h ∈ vrefs (sA s).
Proof.
  intros HI. induction 1 as [l d e He Hk Hr|]; [|done]. destruct He as (p & g & md & rt & pa & L & Hp & _ & He).
  pose proof (iv_l _ _ _ _ _ HI p g md rt pa L Hp) as HL. eapply ent_ref; [done|apply HL|apply HL|done|by apply (lk_ent _ _ _ _ _ _ HL)|done].
Qed.
Lemma rel_reclaim fx K B m mu c keep : Rel fx K B m mu c -> exists m', run (reclaim_old keep) m = Ok (tt, m') /\ Rel fx K B m' mu c.
Proof.
  intros (HB & s & Hc & HS & HI & Hf & H1 & H2 & H3 & H4). destruct (st_reclaim keep m s HS) as (V & Bg & E & HS' & HV).
  eexists. split; [exact E|]. split; [done|]. exists (setV V s). split; [done|]. split; [exact HS'|]. split; [by apply inv_setV|].
  split; [done|]. split; [done|]. split; [done|]. split; [done|]. intros Hs. destruct (H4 Hs) as (X1 & X2 & X3). split; [done|]. split; [|done].
  intros k w Hk. rewrite <- X2 by done. unfold maps. cbn [setV sA sV]. split; intros (h & Hh & Hv); exists h; (split; [done|]).
  - rewrite <- HV; [done|]. by eapply reaches_ref.
  - rewrite HV; [done|]. by eapply reaches_ref.
Qed.

(** ** drop *)
Definition nr (x : node) (n : anode) : Prop :=
  match x, a_bd n with
  | NLeaf l, BLeaf L => l_val l = map s_ptr (lb_sl L) /\ l_klx l = map s_kx (lb_sl L) /\ l_ksuf l = lb_bg L
  | NInode _, BInode _ => True
  | _, _ => False
  end.
Lemma drop_slots_spec sl : forall m X, own (concat (map srefs sl) ++ X) (vals m) ->
  exists V, drop_slots (combine (map s_ptr sl) (map s_kx sl)) m = Ok (mwith_vals V m) /\ own X V.
Proof.
  induction sl as [|x sl IH]; intros m X H; cbn in H |- *.
  - exists (vals m). split; [by destruct m|done].
  - unfold srefs in H at 1. destruct (negb (s_ptr x =? 0)%N && (s_kx x <? LAYER_KEYLENX)%N); cbn in H.
    + destruct (own_del _ _ _ H) as [[v Hv] H2]. unfold free_val. cbn [reclaim1]. rewrite Hv. cbn [res_bind].
      destruct (IH (mwith_vals (delete (s_ptr x) (vals m)) m) X H2) as (V & E & HO). exists V. done.
    + by apply IH.
Qed.
Lemma big_del f A p n : A !! p = Some n -> big f A ≡ₚ f n ++ big f (delete p A).
Proof. intros H. rewrite <- (insert_delete A p n) at 1 by done. apply big_fresh, lookup_delete. Qed.
Lemma drop_nodes_spec ps : forall m A,
  (forall p, match heap m !! p, A !! p with Some x, Some n => nr x n | None, None => True | _, _ => False end) ->
  own (vrefs A) (vals m) -> own (brefs A) (bags m) -> own ps (heap m) ->
  exists m', drop_nodes ps m = Ok m' /\ heap m' = ∅ /\ vals m' = ∅ /\ bags m' = ∅ /\ retired m' = retired m.
Proof.
  induction ps as [|p ps IH]; intros m A Hh Hv Hb Hn; cbn [drop_nodes].
  - exists m. split; [done|]. apply own_nil in Hn as E. split; [done|].
    assert (EA : A = ∅). { apply map_eq; intros i0; rewrite lookup_empty; revert i0. intros i. specialize (Hh i). rewrite E, lookup_empty in Hh. by destruct (A !! i). }
    subst A. split; [by apply own_nil|]. split; [by apply own_nil|done].
  - destruct (own_del _ _ _ Hn) as [[x Hx] Hn']. specialize (Hh p) as Hp. rewrite Hx in Hp. destruct (A !! p) as [n|] eqn:EA; [|done].
    pose proof (own_perm _ _ _ (big_del nrefs A p n EA) Hv) as Hv1. pose proof (own_perm _ _ _ (big_del nbags A p n EA) Hb) as Hb1.
    assert (Hh' : forall V Bg q, match heap (mwith_heap (delete p (heap m)) (set_vb V Bg m)) !! q, delete p A !! q with Some x, Some n => nr x n | None, None => True | _, _ => False end).
    { intros V Bg q. cbn. destruct (decide (q = p)) as [->|Hq]; [by rewrite !lookup_delete|]. rewrite !lookup_delete_ne by done. apply Hh. }
    unfold drop_node. rewrite Hx. unfold nr in Hp. unfold nrefs at 1 in Hv1. unfold nbags at 1 in Hb1. destruct x as [l|i], (a_bd n) as [L|J]; try done.
    + destruct Hp as (E1 & E2 & E3). rewrite E1, E2, E3. destruct (drop_slots_spec _ _ _ Hv1) as (V & E & HV). rewrite E. cbn [res_bind].
      destruct (N.eqb_spec (lb_bg L) 0) as [Eb|Eb]; cbn [res_bind] in *.
      * destruct (IH (mwith_heap (delete p (heap m)) (set_vb V (bags m) m)) (delete p A)) as (m' & Em & R); [apply Hh'|done|done|done|]. exists m'. by rewrite <- Em.
      * cbn [app] in Hb1. destruct (own_del _ _ _ Hb1) as [[b Hb2] Hb3]. cbn [reclaim1 bags mwith_vals]. rewrite Hb2. cbn [res_bind].
        destruct (IH (mwith_heap (delete p (heap m)) (set_vb V (delete (lb_bg L) (bags m)) m)) (delete p A)) as (m' & Em & R); [apply Hh'|done|done|done|].
        exists m'. by rewrite <- Em.
    + cbn [res_bind]. destruct (IH (mwith_heap (delete p (heap m)) (set_vb (vals m) (bags m) m)) (delete p A)) as (m' & Em & R); [apply Hh'|done|done|done|].
      exists m'. rewrite <- Em. split; [|done]. by destruct m.
Qed.
Lemma drop_ok m s : St m s -> sfv s = [] -> sfn s = [] -> exists m', drop_tree m = Ok m' /\ heap m' = ∅ /\ vals m' = ∅ /\ bags m' = ∅ /\ retired m' = [] /\ tracked m' = [].
Proof.
  intros HS Hfv Hfn. destruct (st_reclaim 0 m s HS) as (V & B & E & HS' & HV). unfold drop_tree.
  change (run reclaim_all m) with (run (reclaim_old 0) m). rewrite E. cbn [res_bind]. destruct HS'. cbn in *. rewrite Hfv, Hfn in *. cbn in *. rewrite !app_nil_r in *.
  match goal with |- context [drop_nodes ?t ?m] => destruct (drop_nodes_spec t m (sA s)) as (m' & E' & R1 & R2 & R3 & R4) end.
  - intros p. specialize (st_heap p). cbn. destruct (heap m !! p) as [x|], (sA s !! p) as [n|]; try done. unfold node_rel in st_heap. unfold nr.
    destruct x as [l|i], (a_bd n) as [L|J]; try done. destruct st_heap as (_ & _ & []). done.
  - done.
  - done.
  - done.
  - cbn in E'. rewrite E'. cbn. eexists. split; [done|]. done.
Qed.

(** ** histories with collections *)
Lemma events_ok fx K F evs : 300 <= F -> forall B m mu c, Forall op_ok (calls evs) -> Forall (K_ok K) (calls evs) ->
  (B + costs (calls evs) < U32_MAX)%N -> Rel fx K B m mu c ->
  exists l m', run_events (insert_gen fx) F evs m = Ok (l, m') /\
    Rel fx K (B + costs (calls evs)) m' (snd (map_run mu (calls evs))) (fold_left bump l c) /\
    Forall2 answered (calls evs) l /\ (split_fine fx K -> l = fst (map_run mu (calls evs))).
Proof.
  intros HF. induction evs as [|[o|keep] evs IH]; intros B m mu c Hok HK HB HR.
  - exists [], m. cbn. rewrite N.add_0_r. done.
  - change (calls (Call o :: evs)) with (o :: calls evs) in *. inversion Hok; subst. inversion HK; subst. cbn [costs foldr] in HB. fold (costs (calls evs)) in HB.
    destruct (wp_run _ _ _ (call_ok fx K B F o m mu c HF ltac:(done) ltac:(done) ltac:(lia) HR)) as (a & m1 & E1 & R1 & W1 & X1).
    destruct (map_step mu o) as [a' mu1] eqn:Es. cbn [fst snd] in R1, X1.
    destruct (IH (B + cost o)%N m1 mu1 (bump c a)) as (l & m2 & E2 & R2 & L2 & X2); [done|done|lia|done|].
    exists (a :: l), m2. cbn [run_events]. rewrite E1. cbn [res_bind]. rewrite E2. cbn [res_bind]. split; [done|].
    cbn [map_run]. rewrite Es. destruct (map_run mu1 (calls evs)) as [l' mu2] eqn:Er. cbn [fst snd fold_left] in *.
    split; [cbn [costs foldr]; fold (costs (calls evs)); by rewrite N.add_assoc|].
    split; [constructor; [by eapply weak_answered|done]|]. intros Hs. by rewrite (X1 Hs), (X2 Hs).
  - change (calls (Collect keep :: evs)) with (calls evs) in *. destruct (rel_reclaim fx K B m mu c keep HR) as (m1 & E1 & R1).
    destruct (IH B m1 mu c Hok HK HB R1) as (l & m2 & E2 & R2). exists l, m2. cbn [run_events]. rewrite E1. cbn [res_bind]. done.
Qed.
Lemma events_run fx F evs : 300 <= F -> history_ok (calls evs) -> exists l m,
  run_events (insert_gen fx) F evs tree_new = Ok (l, m) /\ Rel fx (Kof (calls evs)) (6144 + costs (calls evs)) m (map_run ∅ (calls evs)).2 (fold_left bump l 0%N) /\
  Forall2 answered (calls evs) l /\ (fx = true \/ unambiguous (calls evs) -> l = (map_run ∅ (calls evs)).1).
Proof.
  intros HF [Hok HB]. rewrite key_bytes_costs in HB. destruct (events_ok fx (Kof (calls evs)) F evs HF 6144 tree_new ∅ 0) as (l & m & E & R & L & X).
  - done.
  - apply Kof_ok.
  - unfold U32_MAX. lia.
  - apply rel_new.
  - exists l, m. split; [done|]. split; [done|]. split; [done|]. intros Hs. apply X. destruct Hs as [|Hs]; [by left|right].
    intros k1 k2 v1 v2 H1 H2 Hc. apply clash_amb in Hc. exact (Hs k1 k2 v1 v2 H1 H2 Hc).
Qed.
Lemma freed_once F evs : 300 <= F -> history_ok (calls evs) -> exists l m m',
  run_events insert F evs tree_new = Ok (l, m) /\ drop_tree m = Ok m' /\
  vals m' = ∅ /\ bags m' = ∅ /\ heap m' = ∅ /\ retired m' = [].
Proof.
  intros HF Hok. destruct (events_run false F evs HF Hok) as (l & m & E & (_ & s & _ & HS & _ & _ & H1 & H2 & _) & _).
  destruct (drop_ok m s HS H1 H2) as (m' & E' & R1 & R2 & R3 & R4 & _). exists l, m, m'. done.
Qed.
Lemma collection_invisible F evs : 300 <= F -> history_ok (calls evs) -> unambiguous (calls evs) ->
  exists m, run_events insert F evs tree_new = Ok ((map_run ∅ (calls evs)).1, m).
Proof.
  intros HF Hok Hu. destruct (events_run false F evs HF Hok) as (l & m & E & _ & _ & X). exists m. rewrite <- (X (or_intror Hu)). done.
Qed.
Lemma collection_safe F evs : 300 <= F -> history_ok (calls evs) ->
  exists l m, run_events insert F evs tree_new = Ok (l, m) /\ Forall2 answered (calls evs) l.
Proof. intros HF Hok. destruct (events_run false F evs HF Hok) as (l & m & E & _ & X & _). eauto. Qed.
