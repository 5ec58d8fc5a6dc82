(** Concurrent executions on the whole tree: the start, dropping the tree, and the theorems. *)
From Verif Require Import Base Perm PermFacts PermList PermLaws SpecPerm Key SpecKey KeyFacts Prog Version VersionFacts Mem Tree
  SpecTree TreeState TreeRead TreeSplit TreeTop SpecLin Suffix SuffixFacts SpecConc ConcVar ConcVal Conc ConcRead ConcBag ConcIns ConcSplit ConcSys.

Definition w_start : world := mk_w tree_new ∅ {[2%N]} ∅ (fun _ => 0%N) ∅ ∅ ∅ ∅ [] 0 [] [].
Lemma inv_start : Inv w_start.
Proof.
  destruct (empty_law_holds P24 P24_ok) as (Hp & Ha & _). change (p_empty P24) with perm_empty in *.
  apply perm_word_wf in Hp.
  assert (actv leaf_new_root = []) as E by (unfold actv; change (l_perm leaf_new_root) with perm_empty; by rewrite ids_active).
  assert (forall p n, hp w_start !! p = Some n -> p = 2%N /\ n = NLeaf leaf_new_root) as Hh.
  { intros p n. change (hp w_start) with ({[2%N := NLeaf leaf_new_root]} : gmap N node). rewrite lookup_singleton_Some.
    intros [E1 E2]. split; symmetry; [exact E1|exact E2]. }
  assert (hp w_start !! 2%N = Some (NLeaf leaf_new_root)) as H2.
  { change (hp w_start) with ({[2%N := NLeaf leaf_new_root]} : gmap N node). apply lookup_singleton. }
  assert (2%N ∈ wpub w_start) as Hpub by (change (2%N ∈ ({[2%N]} : gset N)); by apply elem_of_singleton).
  assert (forall p, wown w_start !! p = None) as Hown by (intros; apply lookup_empty).
  assert (forall p, wvl w_start !! p = None) as Hvl by (intros; apply lookup_empty).
  assert (forall p, wtag w_start !! p = None) as Htag by (intros; apply lookup_empty).
  assert (forall p, wunt w_start !! p = None) as Hunt by (intros; apply lookup_empty).
  assert (forall p, vals (wm w_start) !! p = None) as Hv by (intros; apply lookup_empty).
  assert (forall p, bags (wm w_start) !! p = None) as Hbg by (intros; apply lookup_empty).
  assert (forall p, wbh w_start !! p = None) as Hbh by (intros; apply lookup_empty).
  assert (forall l s x, l = l_klx leaf_new_root \/ l = l_val leaf_new_root -> l !! s = Some x -> x = 0%N) as Hz.
  { intros l s x Hl Hx. apply elem_of_list_lookup_2, elem_of_list_In in Hx. destruct Hl as [->| ->]; exact (repeat_spec _ _ _ Hx). }
  split.
  - split; [reflexivity|reflexivity].
  - intros p n H. destruct (Hh _ _ H) as [-> _]. split; [|reflexivity]. split; reflexivity.
  - intros p n H. destruct (Hh _ _ H) as [-> ->]. split; [left; reflexivity|]. split.
    + split; [reflexivity|split; reflexivity].
    + intros s x Hx. rewrite (Hz _ s x (or_introl eq_refl) Hx). left. lia.
    + intros Hk0. by destruct Hk0.
    + left. reflexivity.
    + exists MFree, true. apply (vbits_root _ _ false), vbits_new.
    + reflexivity.
    + intros _. exact Hp.
    + intros s x Hx Hn. destruct Hn. unfold lptrs in Hx. apply lookup_app_Some in Hx as [Hx|[_ Hx]]; [exact (Hz _ s x (or_intror eq_refl) Hx)|].
      apply list_lookup_singleton_Some in Hx as [_ <-]. reflexivity.
    + intros s x Hx Hn. destruct Hn. exact (Hz _ s x (or_intror eq_refl) Hx).
    + intros _. eapply ids_not_frozen; exact Hp.
    + intros _. rewrite E. intros s Hs. by apply elem_of_nil in Hs.
  - intros p n H _. destruct (Hh _ _ H) as [-> ->]. split; [|reflexivity]. split.
    + exact Hp.
    + reflexivity.
    + intros s Hs _. destruct (lookup_lt_is_Some_2 (l_val leaf_new_root) s) as [x Hx]; [exact Hs|]. rewrite Hx. f_equal.
      exact (Hz _ s x (or_intror eq_refl) Hx).
    + intros i j s s' x x' _ Hi. rewrite E in Hi. by rewrite lookup_nil in Hi.
    + intros s s' k Hs. rewrite E in Hs. by apply elem_of_nil in Hs.
  - intros p j H. by rewrite Hown in H.
  - intros p H. change (p ∈ ({[2%N]} : gset N)) in H. apply elem_of_singleton in H as ->. rewrite H2. eexists; reflexivity.
  - intros p n H _ _. destruct (Hh _ _ H) as [-> ->]. rewrite Hown. split; reflexivity.
  - intros p n H Hn. destruct (Hh _ _ H) as [-> ->]. by destruct Hn.
  - intros q Hq. by apply elem_of_empty in Hq.
  - exists (NLeaf leaf_new_root). split; [exact H2|]. split; [exact Hpub|]. split; reflexivity.
  - intros h. rewrite Hvl, Hv, Hbg. split; [intros [x H]; discriminate H|]. intros [[x H]|[x H]]; discriminate H.
  - intros h x H. by rewrite Hvl in H.
  - intros h v H. by rewrite Hv in H.
  - intros h x H. by rewrite Htag in H.
  - intros h x H. by rewrite Htag in H.
  - intros k v Hk. by apply elem_of_nil in Hk.
  - intros k v k' v' Hk. by apply elem_of_nil in Hk.
  - intros h p s H. by rewrite Hvl in H.
  - split; [constructor|]. split; [reflexivity|]. split; [intros g Hg; by apply elem_of_nil in Hg|]. intros h B. rewrite Hvl.
    split; [done|]. intros (j & Hj & _). change (@nil N !! j = Some h) in Hj. by rewrite lookup_nil in Hj.
  - intros b bg H. by rewrite Hbg in H.
  - intros b q H. by rewrite Hbh in H.
  - split; [apply NoDup_singleton|]. split; [|intros p j H; by rewrite Hunt in H]. intros p. change (tracked (wm w_start)) with [2%N].
    rewrite elem_of_list_singleton. split.
    + intros ->. rewrite H2, Hunt. split; [eexists|]; reflexivity.
    + intros [[n Hn] _]. by destruct (Hh _ _ Hn).
Qed.

Lemma sinv_start scripts : SInv scripts (c_start scripts) [] w_start.
Proof.
  assert (holders (c_thr (c_start scripts)) = []) as Eh.
  { destruct (holders (c_thr (c_start scripts))) as [|x l] eqn:E; [done|].
    assert (x ∈ holders (c_thr (c_start scripts))) as H by (rewrite E; by left). apply elem_holders in H as (p & ops & H).
    cbn in H. apply list_lookup_fmap_Some in H as (ops' & _ & ?). done. }
  split; try done.
  - apply inv_start.
  - cbn. intros i t ops Hi. apply list_lookup_fmap_Some in Hi as (ops' & Hi & [= -> ->]).
    split; [|done]. intros o Ho. rewrite elem_of_list_In, in_concat. exists ops'. split; apply elem_of_list_In; [by eapply elem_of_list_lookup_2|done].
  - intros k v H. by apply elem_of_nil in H.
  - intros k v H. by apply elem_of_nil in H.
  - exists (fun _ => 0). split.
    + cbn. intros i p ops Hi. apply list_lookup_fmap_Some in Hi as (ops' & Hi & ?). done.
    + assert (forall n a, sum_list_with (fun _ => 0) (seq a n) = 0) as E0 by (intros n; induction n; intros a; cbn; auto).
      unfold sumf. rewrite E0. cbn [wtag w_start]. rewrite map_size_empty. unfold todo. cbn [c_thr c_start].
      rewrite map_map. cbn. rewrite map_id. lia.
  - intros h1 t i a h2 H. by destruct h1.
  - intros B j H. by apply elem_of_nil in H.
Qed.
Lemma conc_ok_v F scripts acts : conc_calls scripts ->
  exists w, SInv scripts (c_runv F acts (c_start scripts)).1 (c_runv F acts (c_start scripts)).2 w.
Proof.
  intros Hg. destruct (c_run_ok scripts Hg F acts _ _ _ (sinv_start scripts)) as (w & HS & _). by exists w.
Qed.
Lemma sinv_running scripts c h w : SInv scripts c h w -> running c.
Proof. intros S i ops Hi. apply (si_thr _ _ _ _ S) in Hi as (_ & t1 & o & _ & H). by destruct H. Qed.
Lemma conc_ok F scripts acts c h : conc_calls scripts -> c_run F acts (c_start scripts) = (c, h) ->
  exists c' w, sim c c' /\ SInv scripts c' h w.
Proof.
  intros Hg Hr. destruct (sim_run F acts _ _ (sim_start scripts)) as [Eh Hs].
  { intros acts'. destruct (conc_ok_v F scripts acts' Hg) as [w S]. by eapply sinv_running. }
  destruct (conc_ok_v F scripts acts Hg) as [w S]. rewrite Hr in Eh, Hs. cbn [fst snd] in Eh, Hs. rewrite <- Eh in S.
  by exists (c_runv F acts (c_start scripts)).1, w.
Qed.

(** ** dropping the tree *)
Definition there (m : mem) (g : garbage) : Prop := match g with GVal h => is_Some (vals m !! h) | GBag b => is_Some (bags m !! b) end.
Lemma reclaim_list_c l : forall m, NoDup l -> (forall g, g ∈ l -> there m g) ->
  exists V B, reclaim_list l m = Ok (mwith_bags B (mwith_vals V m)) /\
    (forall h, GVal h ∈ l -> V !! h = None) /\ (forall h, GVal h ∉ l -> V !! h = vals m !! h) /\
    (forall b, GBag b ∈ l -> B !! b = None) /\ (forall b, GBag b ∉ l -> B !! b = bags m !! b).
Proof.
  induction l as [|g l IH]; intros m Hn Hl; cbn [reclaim_list].
  - exists (vals m), (bags m). split; [by destruct m|]. split; [intros h Hh; by apply elem_of_nil in Hh|]. split; [done|]. split; [|done].
    intros h Hh; by apply elem_of_nil in Hh.
  - apply NoDup_cons in Hn as [Hg Hn]. pose proof (Hl g ltac:(by left)) as Hx. destruct g as [h|b]; destruct Hx as [v Hv]; cbn [reclaim1]; rewrite Hv; cbn [res_bind].
    + destruct (IH (mwith_vals (delete h (vals m)) m) Hn) as (V & B & E & V1 & V2 & B1 & B2).
      * intros g Hgl. pose proof (Hl g ltac:(by right)) as Hs. destruct g as [h'|b]; [|done]. cbn in *. rewrite lookup_delete_ne; [done|]. by intros ->.
      * exists V, B. split; [exact E|]. split; [|split; [|split]].
        -- intros h' [[= ->]|H]%elem_of_cons; [|by apply V1]. rewrite V2 by done. cbn. by rewrite lookup_delete.
        -- intros h' [H1 H2]%not_elem_of_cons. rewrite V2 by done. cbn. rewrite lookup_delete_ne; [done|]. congruence.
        -- intros b [?|H]%elem_of_cons; [done|by apply B1].
        -- intros b [H1 H2]%not_elem_of_cons. by apply B2.
    + destruct (IH (mwith_bags (delete b (bags m)) m) Hn) as (V & B & E & V1 & V2 & B1 & B2).
      * intros g Hgl. pose proof (Hl g ltac:(by right)) as Hs. destruct g as [h'|b']; [done|]. cbn in *. rewrite lookup_delete_ne; [done|]. by intros ->.
      * exists V, B. split; [exact E|]. split; [|split; [|split]].
        -- intros h [?|H]%elem_of_cons; [done|by apply V1].
        -- intros h [H1 H2]%not_elem_of_cons. by apply V2.
        -- intros h' [[= ->]|H]%elem_of_cons; [|by apply B1]. rewrite B2 by done. cbn. by rewrite lookup_delete.
        -- intros h' [H1 H2]%not_elem_of_cons. rewrite B2 by done. cbn. rewrite lookup_delete_ne; [done|]. congruence.
Qed.
Lemma drop_slots_c sl : forall m, (forall s x, sl !! s = Some x -> (x.2 < LAYER_KEYLENX)%N) ->
  (forall s h k, sl !! s = Some (h, k) -> h <> 0%N -> is_Some (vals m !! h)) ->
  (forall s s' h k k', sl !! s = Some (h, k) -> sl !! s' = Some (h, k') -> h <> 0%N -> s = s') ->
  exists V, drop_slots sl m = Ok (mwith_vals V m) /\
    forall h, V !! h = if decide (h <> 0%N /\ h ∈ sl.*1) then None else vals m !! h.
Proof.
  induction sl as [|[h k] sl IH]; intros m H8 Hv Hu; cbn [drop_slots].
  - exists (vals m). split; [by destruct m|]. intros h. rewrite decide_False; [done|]. intros [_ H]. by apply elem_of_nil in H.
  - assert (k <? LAYER_KEYLENX = true)%N as -> by (apply N.ltb_lt; exact (H8 0 _ eq_refl)).
    rewrite andb_true_r. destruct (N.eqb_spec h 0) as [->|Hne]; cbn [negb].
    + destruct (IH m) as (V & E & HV).
      * intros s x. apply (H8 (S s)).
      * intros s h k'. apply (Hv (S s)).
      * intros s s' h k1 k2 H1 H2 H3. by injection (Hu (S s) (S s') h k1 k2 H1 H2 H3).
      * exists V. split; [done|]. intros h. rewrite HV. apply decide_ext. cbn. rewrite elem_of_cons. naive_solver.
    + destruct (Hv 0 h k eq_refl Hne) as [v Hh]. unfold free_val. cbn [reclaim1]. rewrite Hh. cbn [res_bind].
      destruct (IH (mwith_vals (delete h (vals m)) m)) as (V & E & HV).
      * intros s x. apply (H8 (S s)).
      * intros s h' k' H1 H2. cbn. rewrite lookup_delete_ne; [by apply (Hv (S s) h' k')|]. intros <-. by specialize (Hu 0 (S s) h k k' eq_refl H1 Hne).
      * intros s s' h' k1 k2 H1 H2 H3. by injection (Hu (S s) (S s') h' k1 k2 H1 H2 H3).
      * exists V. split; [exact E|]. intros h'. rewrite HV. cbn [vals mwith_vals fmap list_fmap fst]. destruct (decide (h' = h)) as [->|Hd].
        -- rewrite lookup_delete. rewrite (decide_True (P := h <> 0%N /\ h ∈ h :: sl.*1)) by (split; [done|by left]). by case_decide.
        -- rewrite lookup_delete_ne by done. apply decide_ext. rewrite elem_of_cons. naive_solver.
Qed.

Record droppable (m : mem) : Prop := {
  dr_leaf : forall p l, heap m !! p = Some (NLeaf l) ->
    length (l_klx l) = length (l_val l) /\ (forall s x, l_klx l !! s = Some x -> (x < LAYER_KEYLENX)%N);
  dr_vals : forall h, is_Some (vals m !! h) <-> h <> 0%N /\ exists p l s, heap m !! p = Some (NLeaf l) /\ l_val l !! s = Some h;
  dr_uniq : forall p l s p' l' s' h, heap m !! p = Some (NLeaf l) -> heap m !! p' = Some (NLeaf l') ->
    l_val l !! s = Some h -> l_val l' !! s' = Some h -> h <> 0%N -> p = p' /\ s = s';
  dr_bags : forall b, is_Some (bags m !! b) <-> b <> 0%N /\ exists p l, heap m !! p = Some (NLeaf l) /\ l_ksuf l = b;
  dr_one : forall p l p' l', heap m !! p = Some (NLeaf l) -> heap m !! p' = Some (NLeaf l') ->
    l_ksuf l = l_ksuf l' -> l_ksuf l <> 0%N -> p = p' }.
Lemma lookup_combine {A B} (xs : list A) (ys : list B) s x y : combine xs ys !! s = Some (x, y) <-> xs !! s = Some x /\ ys !! s = Some y.
Proof.
  revert ys s. induction xs as [|a xs IH]; intros [|b ys] [|s]; cbn; try naive_solver.
Qed.
Lemma combine_fst {A B} (xs : list A) (ys : list B) : length ys = length xs -> (combine xs ys).*1 = xs.
Proof. revert ys. induction xs as [|a xs IH]; intros [|b ys]; cbn; intros H; try done. f_equal. apply IH. lia. Qed.
Lemma drop_nodes_c ps : forall m, droppable m -> NoDup ps -> (forall p, p ∈ ps <-> is_Some (heap m !! p)) ->
  exists m', drop_nodes ps m = Ok m' /\ heap m' = ∅ /\ vals m' = ∅ /\ bags m' = ∅ /\ retired m' = retired m.
Proof.
  induction ps as [|p ps IH]; intros m D Hn Hp; cbn [drop_nodes].
  - exists m. split; [done|].
    assert (forall q, heap m !! q = None) as Hh.
    { intros q. destruct (heap m !! q) eqn:E; [|done]. assert (q ∈ @nil N) as H by (apply Hp; rewrite E; by eexists). by apply elem_of_nil in H. }
    split; [by apply map_empty|]. split; [|split; [|done]].
    + apply map_empty. intros h. destruct (vals m !! h) eqn:E; [|done].
      destruct (proj1 (dr_vals _ D h)) as (_ & q & l & s & Hq & _); [rewrite E; by eexists|]. by rewrite Hh in Hq.
    + apply map_empty. intros h. destruct (bags m !! h) eqn:E; [|done].
      destruct (proj1 (dr_bags _ D h)) as (_ & q & l & Hq & _); [rewrite E; by eexists|]. by rewrite Hh in Hq.
  - apply NoDup_cons in Hn as [Hn1 Hn2]. destruct (proj1 (Hp p)) as [n Hx]; [by left|]. unfold drop_node. rewrite Hx.
    assert (forall q, q ∈ ps <-> is_Some (delete p (heap m) !! q)) as Hp'.
    { intros q. destruct (decide (q = p)) as [->|Hne].
      - rewrite lookup_delete. split; [done|]. intros [x H]; done.
      - rewrite lookup_delete_ne by done. rewrite <- Hp, elem_of_cons. naive_solver. }
    destruct n as [l|x].
    + destruct (dr_leaf _ D p l Hx) as (L1 & L2).
      destruct (drop_slots_c (combine (l_val l) (l_klx l)) m) as (V & E & HV).
      * intros s [h k] Hs. apply lookup_combine in Hs as [_ Hs]. by eapply L2.
      * intros s h k Hs Hh. apply lookup_combine in Hs as [Hs _]. apply (dr_vals _ D). split; [done|]. by exists p, l, s.
      * intros s s' h k k' Hs Hs' Hh. apply lookup_combine in Hs as [Hs _]. apply lookup_combine in Hs' as [Hs' _].
        by destruct (dr_uniq _ D p l s p l s' h).
      * rewrite E. cbn [res_bind]. rewrite combine_fst in HV by done.
        assert (exists B, (if (l_ksuf l =? 0)%N then Ok (mwith_vals V m) else reclaim1 (GBag (l_ksuf l)) (mwith_vals V m)) = Ok (mwith_bags B (mwith_vals V m)) /\
          forall b, B !! b = if decide (b <> 0%N /\ b = l_ksuf l) then None else bags m !! b) as (B & -> & HB).
        { destruct (N.eqb_spec (l_ksuf l) 0) as [Ez|Ez].
          - exists (bags m). split; [by destruct m|]. intros b. rewrite decide_False; [done|]. intros [? ->]. done.
          - destruct (proj2 (dr_bags _ D (l_ksuf l))) as [bg Hbg]; [split; [done|by exists p, l]|]. cbn [reclaim1 bags mwith_vals]. rewrite Hbg.
            eexists. split; [reflexivity|]. intros b. destruct (decide (b = l_ksuf l)) as [->|Hne].
            + rewrite lookup_delete, decide_True by done. done.
            + rewrite lookup_delete_ne by done. rewrite decide_False; [done|]. by intros [_ ?]. }
        cbn [res_bind].
        destruct (IH (mwith_heap (delete p (heap (mwith_bags B (mwith_vals V m)))) (mwith_bags B (mwith_vals V m)))) as (m' & Em & R); [|done|exact Hp'|by exists m'].
        split; cbn [heap vals bags mwith_heap mwith_vals mwith_bags].
        -- intros q l'. intros [_ H]%lookup_delete_Some. by apply (dr_leaf _ D q).
        -- intros h. rewrite HV. case_decide as Hd.
           ++ split; [intros [y Hy]; done|]. intros (Hh & q & l' & s & Hq & Hs). exfalso. apply lookup_delete_Some in Hq as [Hne Hq].
              destruct Hd as [_ [s' Hs']%elem_of_list_lookup_1]. by destruct (dr_uniq _ D p l s' q l' s h) as [? _].
           ++ rewrite (dr_vals _ D h). split.
              ** intros (Hh & q & l' & s & Hq & Hs). split; [done|]. exists q, l', s. split; [|done]. apply lookup_delete_Some. split; [|done].
                 intros <-. apply Hd. split; [done|]. apply elem_of_list_lookup. exists s. congruence.
              ** intros (Hh & q & l' & s & Hq & Hs). apply lookup_delete_Some in Hq as [_ Hq]. split; [done|]. by exists q, l', s.
        -- intros q l1 s q' l2 s' h [_ H1]%lookup_delete_Some [_ H2]%lookup_delete_Some. by apply (dr_uniq _ D).
        -- intros b. rewrite HB. case_decide as Hd.
           ++ destruct Hd as [Hd1 ->]. split; [intros [y Hy]; done|]. intros (Hh & q & l' & Hq & Hs). exfalso. apply lookup_delete_Some in Hq as [Hne Hq].
              destruct Hne. by eapply (dr_one _ D p l q l').
           ++ rewrite (dr_bags _ D b). split.
              ** intros (Hh & q & l' & Hq & Hs). split; [done|]. exists q, l'. split; [|done]. apply lookup_delete_Some. split; [|done].
                 intros <-. apply Hd. split; [done|]. congruence.
              ** intros (Hh & q & l' & Hq & Hs). apply lookup_delete_Some in Hq as [_ Hq]. split; [done|]. by exists q, l'.
        -- intros q l1 q' l2 [_ H1]%lookup_delete_Some [_ H2]%lookup_delete_Some. by apply (dr_one _ D).
    + cbn [res_bind]. destruct (IH (mwith_heap (delete p (heap m)) m)) as (m' & Em & R); [|done|exact Hp'|by exists m'].
      split; cbn [heap vals bags mwith_heap].
      * intros q l'. intros [_ H]%lookup_delete_Some. by apply (dr_leaf _ D q).
      * intros h. rewrite (dr_vals _ D h). split; intros (Hh & q & l' & s & Hq & Hs); (split; [done|]).
        -- exists q, l', s. split; [|done]. apply lookup_delete_Some. split; [|done]. intros <-. congruence.
        -- apply lookup_delete_Some in Hq as [_ Hq]. by exists q, l', s.
      * intros q l1 s q' l2 s' h [_ H1]%lookup_delete_Some [_ H2]%lookup_delete_Some. by apply (dr_uniq _ D).
      * intros b. rewrite (dr_bags _ D b). split; intros (Hh & q & l' & Hq & Hs); (split; [done|]).
        -- exists q, l'. split; [|done]. apply lookup_delete_Some. split; [|done]. intros <-. congruence.
        -- apply lookup_delete_Some in Hq as [_ Hq]. by exists q, l'.
      * intros q l1 q' l2 [_ H1]%lookup_delete_Some [_ H2]%lookup_delete_Some. by apply (dr_one _ D).
Qed.
Lemma quiet_free scripts c h w : SInv scripts c h w -> c_quiet c -> forall i, free i w.
Proof.
  intros S Hq i. destruct (decide (i < length (c_thr c))) as [Hlt|Hge]; [|apply S; lia].
  destruct (lookup_lt_is_Some_2 _ _ Hlt) as [[t ops] Hc]. pose proof (Hq i t ops Hc) as ->. by apply (si_thr _ _ _ _ S) in Hc as [_ ?].
Qed.
(** values and bags do not share addresses *)
Lemma val_not_bag w h : Inv w -> is_Some (wtag w !! h) -> is_Some (wbh w !! h) -> False.
Proof. intros I H1 H2. by destruct (kinds_apart w h h I). Qed.
Lemma tag_val w h : Inv w -> is_Some (wtag w !! h) -> is_Some (wvl w !! h) -> is_Some (vals (wm w) !! h).
Proof.
  intros I Ht Hv. apply (iv_vals _ I) in Hv as [Hv|[bg Hb]]; [done|]. apply (iv_bags _ I) in Hb as [Hb _]. by destruct (val_not_bag w h I).
Qed.
Lemma home_bag w h : Inv w -> is_Some (wbh w !! h) -> is_Some (wvl w !! h) -> is_Some (bags (wm w) !! h).
Proof.
  intros I Ht Hv. apply (iv_vals _ I) in Hv as [[v Hv]|Hb]; [|done]. apply (iv_tag _ I) in Hv as [k Hk]. destruct (val_not_bag w h I); [by eexists|done].
Qed.
Lemma drop_conc w : Inv w -> (forall i, free i w) ->
  exists m', drop_tree (wm w) = Ok m' /\ heap m' = ∅ /\ vals m' = ∅ /\ bags m' = ∅ /\ retired m' = [] /\ tracked m' = [].
Proof.
  intros I Hf. destruct (iv_ret _ I) as (R1 & R2 & R3 & R4). unfold drop_tree, reclaim_all. cbn [run atomic].
  assert (forall h, h ∈ gaddr <$> retired (wm w) <-> exists B, wvl w !! h = Some (VRet B)) as Hret.
  { intros h. split.
    - intros [j Hj]%elem_of_list_lookup_1. destruct (lookup_lt_is_Some_2 (wblk w) j) as [B HB].
      { rewrite R2, <- (fmap_length gaddr). by eapply lookup_lt_Some. }
      exists B. apply R4. by exists j.
    - intros [B HB]. apply R4 in HB as (j & Hj & _). by eapply elem_of_list_lookup_2. }
  assert (forall g, g ∈ retired (wm w) -> exists B, wvl w !! gaddr g = Some (VRet B)) as Hgr.
  { intros g Hg. apply Hret. by apply elem_of_list_fmap_1. }
  assert (forall h, wvl w !! h = None \/ (exists B, wvl w !! h = Some (VRet B)) \/ exists p s, wvl w !! h = Some (VSlot p s)) as Hst.
  { intros h. destruct (wvl w !! h) as [[p s|i|B]|] eqn:Ev; [right; right; by exists p, s| |right; left; by exists B|by left].
    by destruct (fr_hold _ _ (Hf i) h). }
  destruct (reclaim_list_c (retired (wm w)) (mwith_retired [] (wm w))) as (V & B & E & V1 & V2 & B1 & B2).
  { by eapply NoDup_fmap_1. }
  { intros g Hg. pose proof (R3 g Hg) as Hk. destruct (Hgr g Hg) as [B HB]. destruct g as [h|b]; cbn in *.
    - apply tag_val; [done|done|by eexists].
    - apply home_bag; [done|done|by eexists]. }
  cbn. rewrite E. cbn [res_bind].
  assert (forall h B', is_Some (wtag w !! h) -> wvl w !! h = Some (VRet B') -> GVal h ∈ retired (wm w)) as HrV.
  { intros h B' Ht HB. assert (h ∈ gaddr <$> retired (wm w)) as (g & -> & Hg)%elem_of_list_fmap by (apply Hret; by exists B').
    destruct g as [h|b]; [done|]. destruct (val_not_bag w b I); [done|exact (R3 _ Hg)]. }
  assert (forall h B', is_Some (wbh w !! h) -> wvl w !! h = Some (VRet B') -> GBag h ∈ retired (wm w)) as HrB.
  { intros h B' Ht HB. assert (h ∈ gaddr <$> retired (wm w)) as (g & -> & Hg)%elem_of_list_fmap by (apply Hret; by exists B').
    destruct g as [h|b]; [|done]. destruct (val_not_bag w h I); [exact (R3 _ Hg)|done]. }
  destruct (iv_trk _ I) as (T1 & T2 & T3).
  destruct (drop_nodes_c (tracked (wm w)) (mwith_bags B (mwith_vals V (mwith_retired [] (wm w))))) as (m' & Em & D1 & D2 & D3 & D4).
  - split; cbn.
    + intros p l Hp. destruct (iv_node _ I p _ Hp) as [_ Hl]. pose proof (lo_len _ _ _ Hl) as (L1 & L2 & L3). split; [congruence|].
      intros s x Hx. destruct (lo_klx _ _ _ Hl s x Hx) as [?| ->]; [unfold LAYER_KEYLENX; lia|done].
    + intros h. split.
      * intros Hv. assert (GVal h ∉ retired (wm w)) as Hni by (intros Hin; rewrite V1 in Hv by done; by destruct Hv). rewrite V2 in Hv by done. cbn in Hv.
        assert (is_Some (wvl w !! h)) as Hw by (apply (iv_vals _ I); by left). assert (is_Some (wtag w !! h)) as Ht.
        { destruct Hv as [v Hv]. apply (iv_tag _ I) in Hv as [k Hk]. by eexists. }
        split; [destruct Hw as [x Hx]; by eapply (iv_hdl _ I)|]. destruct (Hst h) as [E0|[[B' HB]|(p & s & Hx)]].
        -- rewrite E0 in Hw. by destruct Hw.
        -- destruct Hni. by eapply HrV.
        -- destruct (iv_slot _ I h p s Hx) as (l & H1 & H2). exists p, l, s. split; [done|]. unfold lptrs in H2.
           apply lookup_app_Some in H2 as [H2|[_ H2]]; [done|]. apply list_lookup_singleton_Some in H2 as [_ <-].
           destruct (iv_node _ I p _ H1) as [_ Hl]. destruct (val_not_bag w (l_ksuf l) I); [done|]. eexists. apply (lo_ksuf _ _ _ Hl).
           eapply (iv_hdl _ I); exact Hx.
      * intros (Hh & p & l & s & Hp & Hs). destruct (iv_node _ I p _ Hp) as [_ Hl]. pose proof (lo_val _ _ _ Hl s h (lptrs_val _ _ _ Hs) Hh) as Ev.
        rewrite V2; [|intros (B' & HB)%Hgr; cbn in HB; congruence]. cbn. apply tag_val; [done|by eapply (lo_isval _ _ _ Hl)|by eexists].
    + intros p l s p' l' s' h Hp Hp' Hs Hs' Hh. destruct (iv_node _ I p _ Hp) as [_ Hl]. destruct (iv_node _ I p' _ Hp') as [_ Hl'].
      pose proof (lo_val _ _ _ Hl s h (lptrs_val _ _ _ Hs) Hh) as E1. pose proof (lo_val _ _ _ Hl' s' h (lptrs_val _ _ _ Hs') Hh) as E2. rewrite E1 in E2. by injection E2.
    + intros b. split.
      * intros Hv. assert (GBag b ∉ retired (wm w)) as Hni by (intros Hin; rewrite B1 in Hv by done; by destruct Hv). rewrite B2 in Hv by done. cbn in Hv.
        assert (is_Some (wvl w !! b)) as Hw by (apply (iv_vals _ I); by right). assert (is_Some (wbh w !! b)) as Ht.
        { destruct Hv as [v Hv]. by apply (iv_bags _ I) in Hv as [Hv _]. }
        split; [destruct Hw as [x Hx]; by eapply (iv_hdl _ I)|]. destruct (Hst b) as [E0|[[B' HB]|(p & s & Hx)]].
        -- rewrite E0 in Hw. by destruct Hw.
        -- destruct Hni. by eapply HrB.
        -- destruct (iv_slot _ I b p s Hx) as (l & H1 & H2). exists p, l. split; [done|]. unfold lptrs in H2.
           apply lookup_app_Some in H2 as [H2|[_ H2]]; [|by apply list_lookup_singleton_Some in H2 as [_ <-]].
           destruct (iv_node _ I p _ H1) as [_ Hl]. destruct (val_not_bag w b I); [|done]. eapply (lo_isval _ _ _ Hl); [done|].
           eapply (iv_hdl _ I); exact Hx.
      * intros (Hh & p & l & Hp & Hs). destruct (iv_node _ I p _ Hp) as [_ Hl]. subst b.
        pose proof (lo_val _ _ _ Hl 24 _ (lptrs_24 _ (proj2 (proj2 (lo_len _ _ _ Hl)))) Hh) as Ev.
        rewrite B2; [|intros (B' & HB)%Hgr; cbn in HB; congruence]. cbn. apply home_bag; [done|eexists; by apply (lo_ksuf _ _ _ Hl)|by eexists].
    + intros p l p' l' Hp Hp' Hs Hh. destruct (iv_node _ I p _ Hp) as [_ Hl]. destruct (iv_node _ I p' _ Hp') as [_ Hl'].
      pose proof (lo_ksuf _ _ _ Hl Hh) as E1. rewrite Hs in Hh, E1. pose proof (lo_ksuf _ _ _ Hl' Hh) as E2. congruence.
  - done.
  - intros p. cbn. rewrite T2. split; [by intros [? _]|]. intros H. split; [done|]. destruct (wunt w !! p) as [j|] eqn:Eu; [|done].
    by destruct (fr_unt _ _ (Hf j) p).
  - cbn in *. rewrite Em. cbn [res_bind]. eexists. split; [reflexivity|]. cbn. done.
Qed.

(** ** the theorems *)
Section Run.
Context (F : nat) (scripts : list (list op)) (acts : list act) (c : csys) (h : list (N * event)).
Hypothesis Hops : conc_calls scripts.
Hypothesis Hrun : c_run F acts (c_start scripts) = (c, h).

Lemma conc_safe : c_fault c = false /\ forall i e, c_failed c i e -> e = Fuel \/ e = Limit.
Proof.
  destruct (conc_ok F scripts acts c h Hops Hrun) as (c' & w & Hs & S). split; [rewrite (sim_fault _ _ Hs); apply S|]. intros i e [ops Hc].
  destruct (Forall2_lookup_l _ _ _ _ _ (sim_thr _ _ Hs) Hc) as ([t' ops'] & Hc' & _ & Ha). cbn in Ha. destruct t' as [|p']; [done|].
  pose proof (sinv_running _ _ _ _ S i ops') as Hnp.
  apply (si_thr _ _ _ _ S) in Hc' as Hc2. destruct Hc2 as (_ & t1 & o & _ & Hw).
  destruct p' as [a|e'|R f k]; cbn in Ha; [done| |by destruct Ha as (? & ? & _)].
  destruct Ha as [->|[= <-]]; [by destruct Hnp|exact Hw].
Qed.
Lemma conc_no_ub : c_fault c = false /\ forall i, ~ c_failed c i UB.
Proof. destruct conc_safe as [H1 H2]. split; [exact H1|]. intros i H. by destruct (H2 i UB H). Qed.
Lemma conc_lookup h1 t i v h2 t1 k : h = h1 ++ (t, ERet i (AGet (Some v))) :: h2 ->
  last_at i h1 = Some (t1, ECall i (Get k)) \/ last_at i h1 = Some (t1, ECall i (GetRef k)) ->
  (t < t1 + 2 ^ 19)%N -> asked k v h1.
Proof.
  intros Hh Hl Ht. destruct (conc_ok F scripts acts c h Hops Hrun) as (c' & w & Hs & S).
  destruct (si_hist _ _ _ _ S _ _ _ _ _ Hh) as (t1' & o & Hl' & Ha).
  destruct Hl as [Hl|Hl]; rewrite Hl in Hl'; injection Hl' as <- <-; by apply Ha.
Qed.
Lemma conc_replaced h1 t i v h2 t1 k v' : h = h1 ++ (t, ERet i (AIns (Some v))) :: h2 ->
  last_at i h1 = Some (t1, ECall i (Insert k v')) -> asked k v h1.
Proof.
  intros Hh Hl. destruct (conc_ok F scripts acts c h Hops Hrun) as (c' & w & Hs & S).
  destruct (si_hist _ _ _ _ S _ _ _ _ _ Hh) as (t1' & o & Hl' & Ha). rewrite Hl in Hl'. injection Hl' as <- <-. exact Ha.
Qed.
Lemma conc_answers h1 t i a h2 : h = h1 ++ (t, ERet i a) :: h2 -> exists t1 o, last_at i h1 = Some (t1, ECall i o) /\
  match o, a with
  | Insert _ _, AIns _ | Get _, AGet _ | GetRef _, AGet _ | Len, ALen _ => True
  | _, _ => False
  end.
Proof.
  intros Hh. destruct (conc_ok F scripts acts c h Hops Hrun) as (c' & w & Hs & S).
  destruct (si_hist _ _ _ _ S _ _ _ _ _ Hh) as (t1 & o & Hl & Ha). exists t1, o. split; [done|].
  by destruct o, a as [[]| | | |]; cbn in Ha.
Qed.
Hypothesis Hq : c_quiet c.
Lemma quiet_sim c' : sim c c' -> c_quiet c'.
Proof.
  intros Hs i t ops Hc. destruct (Forall2_lookup_r _ _ _ _ _ (sim_thr _ _ Hs) Hc) as ([t' ops'] & Hc' & _ & Ha). cbn in Ha.
  pose proof (Hq i t' ops' Hc') as ->. by destruct t.
Qed.
Lemma conc_unlocked p : ~ node_locked (c_mem c) p.
Proof.
  destruct (conc_ok F scripts acts c h Hops Hrun) as (c' & w & Hs & S). pose proof (quiet_free _ _ _ _ S (quiet_sim _ Hs)) as Hf.
  pose proof (si_inv _ _ _ _ S) as I. unfold node_locked. rewrite (sim_mem _ _ Hs), <- (si_mem _ _ _ _ S). change (heap (wm w)) with (hp w).
  destruct (hp w !! p) as [n|] eqn:Hp; [|intros []].
  assert (wown w !! p = None) as Ho. { destruct (wown w !! p) as [j|] eqn:E; [|done]. by destruct (fr_own _ _ (Hf j) p). }
  assert (p ∈ wpub w) as Hpub. { destruct (decide (p ∈ wpub w)); [done|]. by destruct (iv_priv _ I p n Hp). }
  assert (p ∉ wnas w) as Hnas. { intros Hn. destruct (iv_nas _ I p Hn) as (j & x & Hj & _). congruence. }
  pose proof (proj1 (iv_lock _ I p n Hp Hpub Hnas) Ho) as E. destruct n; cbn in E; congruence.
Qed.
Lemma conc_drop : exists m', drop_tree (c_mem c) = Ok m' /\
  heap m' = ∅ /\ vals m' = ∅ /\ bags m' = ∅ /\ retired m' = [] /\ tracked m' = [].
Proof.
  destruct (conc_ok F scripts acts c h Hops Hrun) as (c' & w & Hs & S). rewrite (sim_mem _ _ Hs), <- (si_mem _ _ _ _ S).
  apply drop_conc; [apply S|]. by apply (quiet_free _ _ _ _ S (quiet_sim _ Hs)).
Qed.
Lemma conc_unblocked B : B ∈ c_blk c -> B = [].
Proof.
  destruct (conc_ok F scripts acts c h Hops Hrun) as (c' & w & Hs & S). rewrite (sim_blk _ _ Hs). intros HB. destruct B as [|j B]; [done|].
  assert (j ∈ wrun w) as Hj by (eapply (si_grd _ _ _ _ S); [rewrite (si_blk _ _ _ _ S); exact HB|by left]).
  rewrite (si_run _ _ _ _ S) in Hj. apply elem_holders in Hj as (p & ops & Hj). by specialize (quiet_sim _ Hs _ _ _ Hj).
Qed.
End Run.
