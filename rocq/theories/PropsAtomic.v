(** Atomicity of concurrent executions (SpecConc.v) of the whole tree, in terms of SpecAtomic.v:
    any number of threads and calls, any schedule, any collection times.  The inserted values
    are assumed pairwise different so that they can be told apart. *)
From Verif Require Import Base Prog Version Mem Tree SpecTree SpecLin SpecConc SpecAtomic ConcAtomic PropsConc PropsVal.

(** ** C49: every call takes effect at one instant between the call and its answer, on a
    collection of entries: an insertion adds an entry or replaces the value of an entry with
    its key, handing that back, and a lookup finds the value of an entry with its key or
    misses.  Once all calls have returned, the leaves hold exactly these entries. *)
Theorem C49_calls_are_atomic F scripts acts c h :
  conc_calls scripts -> NoDup (values_of (concat scripts)) ->
  c_run F acts (c_start scripts) = (c, h) -> prompt h ->
  exists s, atomically entries_step ∅ (length scripts) h s /\
    (c_quiet c -> forall k v, Forall (fun b => b < 256)%N k -> stored (c_mem c) k v <-> (k, v) ∈ s).
Proof. exact (fun Ho Hd Hr Hp => conc_atomic scripts Hd Ho F acts c h Hr Hp). Qed.
Print Assumptions C49_calls_are_atomic.

(** ** C50: if moreover no two insertions of a key answered that it was not there, the tree
    was an atomic map but for lookups that missed *)
Theorem C50_atomic_map_with_misses F scripts acts c h :
  conc_calls scripts -> NoDup (values_of (concat scripts)) ->
  c_run F acts (c_start scripts) = (c, h) -> prompt h -> c_quiet c -> new_once h ->
  exists mu, atomically missing_step ∅ (length scripts) h mu /\
    forall k v, Forall (fun b => b < 256)%N k -> stored (c_mem c) k v <-> mu !! k = Some v.
Proof. exact (fun Ho Hd Hr Hp Hq Hn => conc_missing scripts Hd Ho F acts c h Hr Hp Hq Hn). Qed.
Print Assumptions C50_atomic_map_with_misses.

(** ** The execution of PropsVal.v meets the hypotheses, and its entries are not trivial *)
(** the insertions that answered that the key was new *)
Fixpoint news_from (h1 h : list (N * event)) : list (bytes * N) :=
  match h with
  | [] => []
  | e :: h => (match e.2 with ERet i (AIns None) => match last_at i h1 with Some (_, ECall _ (Insert k v)) => [(k, v)] | _ => [] end | _ => [] end) ++ news_from (h1 ++ [e]) h
  end.
Lemma news_from_spec h : forall h1 h2 t i h3 t1 j k v, h = h2 ++ (t, ERet i (AIns None)) :: h3 -> last_at i (h1 ++ h2) = Some (t1, ECall j (Insert k v)) -> (k, v) ∈ news_from h1 h.
Proof.
  induction h as [|e h IH]; intros h1 h2 t i h3 t1 j k v E L; [by destruct h2|]. cbn [news_from]. apply elem_of_app. destruct h2 as [|e' h2].
  - injection E as -> ->. left. rewrite app_nil_r in L. cbn [snd]. rewrite L. by left.
  - injection E as -> ->. right. eapply IH; [done|]. by rewrite <- app_assoc.
Qed.
Definition atomic_check (x : csys * list (N * event)) : bool :=
  forallb (fun x => match x.1 with TIdle => true | _ => false end) (c_thr x.1) && forallb (fun e => (e.1 <? 2 ^ 19)%N) x.2 &&
  forallb (fun p => forallb (fun q => implb (bool_decide (p.1 = q.1)) (p.2 =? q.2)%N) (news_from [] x.2)) (news_from [] x.2) &&
  is_event x.2 69 (ERet 0 (AIns (Some 111%N))) && is_event x.2 75 (ERet 2 (AGet (Some 11%N))) && (10 <=? length (news_from [] x.2)).
Lemma atomic_generic (x : csys * list (N * event)) : atomic_check x = true ->
  exists c h, x = (c, h) /\ c_quiet c /\ prompt h /\ new_once h /\
    (exists t, (t, ERet 0 (AIns (Some 111%N))) ∈ h) /\ (exists t, (t, ERet 2 (AGet (Some 11%N))) ∈ h) /\ 10 <= length (news_from [] h).
Proof.
  intros H. destruct x as [c h]. exists c, h. split; [done|]. unfold atomic_check in H. cbn [fst snd] in H. rewrite !andb_true_iff in H.
  destruct H as [[[[[Hq Ht] Hn] H1] H2] H3]. apply is_event_spec in H1 as [t H1], H2 as [t2 H2]. split; [|split; [|split; [|split; [|split]]]].
  - intros i st ops Hi. rewrite forallb_forall in Hq. apply elem_of_list_lookup_2, elem_of_list_In in Hi. specialize (Hq _ Hi). by destruct st.
  - intros h1 t0 i a h2 t1 k o -> _ _. rewrite forallb_app in Ht. apply andb_true_iff in Ht as [_ Ht]. cbn [forallb fst] in Ht.
    apply andb_true_iff in Ht as [Ht%N.ltb_lt _]. eapply N.lt_le_trans; [exact Ht|]. apply N.le_add_l.
  - intros k v v' (h1 & t0 & i & h2 & t1 & E & L) (h1' & t0' & i' & h2' & t1' & E' & L').
    apply (news_from_spec h [] h1 t0 i h2 t1 i k v E) in L. apply (news_from_spec h [] h1' t0' i' h2' t1' i' k v' E') in L'.
    rewrite forallb_forall in Hn. apply elem_of_list_In in L, L'. specialize (Hn _ L). rewrite forallb_forall in Hn. specialize (Hn _ L'). cbn [fst snd] in Hn.
    rewrite bool_decide_eq_true_2 in Hn by done. by apply N.eqb_eq in Hn.
  - exists t. by eapply elem_of_list_lookup_2.
  - exists t2. by eapply elem_of_list_lookup_2.
  - by apply Nat.leb_le.
Qed.
Example atomic_satisfiable : conc_calls val_scripts /\ NoDup (values_of (concat val_scripts)) /\
  exists c h, c_run 400 conc_acts (c_start val_scripts) = (c, h) /\ c_quiet c /\ prompt h /\ new_once h /\
    (exists t, (t, ERet 0 (AIns (Some 111%N))) ∈ h) /\ (exists t, (t, ERet 2 (AGet (Some 11%N))) ∈ h) /\ 10 <= length (news_from [] h).
Proof.
  split; [apply conc_callsb_spec; vm_compute; reflexivity|]. split; [apply (bool_decide_unpack _); vm_compute; exact I|].
  apply atomic_generic. vm_cast_no_check (eq_refl true).
Qed.
(** The specifications do exclude histories: no value is found that was not inserted. *)
Lemma atomic_nothing n acts s st : atomic entries_step ∅ n acts s st -> (forall i k v, ECall i (Insert k v) ∉ visible acts) ->
  s = ∅ /\ forall i q, st !! i = Some q -> (forall k v, q <> Pending (Insert k v)) /\ forall v, q <> Done (AGet (Some v)).
Proof.
  intros H. assert (forall acts a, visible (acts ++ [a]) = visible acts ++ visible [a]) as Hv by (intros; apply omap_app).
  induction H as [|acts s st i o H IH Hi|acts s st i o a s' H IH Hi Hs|acts s st i a H IH Hi]; intros Hn.
  - split; [done|]. intros i q Hq. apply lookup_replicate in Hq as [-> _]. done.
  - rewrite Hv in Hn. destruct IH as [-> IH]. { intros j k v Hin. apply (Hn j k v), elem_of_app. by left. }
    split; [done|]. intros j q Hq. apply list_lookup_insert_Some in Hq as [(<- & <- & _)|[_ Hq]]; [|by apply (IH j)].
    split; [|done]. intros k v [= ->]. apply (Hn i k v), elem_of_app. right. by left.
  - rewrite Hv in Hn. destruct IH as [-> IH]. { intros j k v Hin. apply (Hn j k v), elem_of_app. by left. }
    destruct (IH _ _ Hi) as [H1 _]. assert (s' = ∅ /\ forall v, a <> AGet (Some v)) as [-> Ha].
    { remember (∅ : entries) as s0 eqn:E0. destruct Hs; subst; try done; try (by destruct (H1 k v)); by apply elem_of_empty in H0. }
    split; [done|]. intros j q Hq. apply list_lookup_insert_Some in Hq as [(<- & <- & _)|[_ Hq]]; [|by apply (IH j)].
    split; [done|]. intros v [= E]. by apply (Ha v).
  - rewrite Hv in Hn. destruct IH as [-> IH]. { intros j k v Hin. apply (Hn j k v), elem_of_app. by left. }
    split; [done|]. intros j q Hq. apply list_lookup_insert_Some in Hq as [(<- & <- & _)|[_ Hq]]; [done|by apply (IH j)].
Qed.
Example entries_exclude k v s : ~ atomically entries_step ∅ 1 [(0%N, ECall 0 (Get k)); (1%N, ERet 0 (AGet (Some v)))] s.
Proof.
  intros (acts & st & H & E). cbn in E. remember (∅ : entries) as s0 eqn:E0. assert (forall acts a, visible (acts ++ [a]) = visible acts ++ visible [a]) as Hv by (intros; apply omap_app).
  induction H as [|acts s st i o H IH Hi|acts s st i o a s' H IH Hi Hs|acts s st i a H IH Hi]; subst.
  - done.
  - rewrite Hv in E. cbn in E. change [ECall 0 (Get k); ERet 0 (AGet (Some v))] with ([ECall 0 (Get k)] ++ [ERet 0 (AGet (Some v))]) in E. by apply app_inj_tail in E as [_ E].
  - apply IH. rewrite Hv in E. cbn in E. by rewrite app_nil_r in E.
  - rewrite Hv in E. cbn in E. change [ECall 0 (Get k); ERet 0 (AGet (Some v))] with ([ECall 0 (Get k)] ++ [ERet 0 (AGet (Some v))]) in E. apply app_inj_tail in E as [E [= -> ->]].
    destruct (atomic_nothing _ _ _ _ H) as [_ Hn]; [rewrite E; intros j k' v' Hin; by apply elem_of_list_singleton in Hin|]. by destruct (Hn _ _ Hi) as [_ []].
Qed.
