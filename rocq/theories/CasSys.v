(** Lock-free insertions running at the same time: the whole system. *)
From Verif Require Import Base Perm PermFacts PermList SpecPerm PermLaws Key SpecKey KeyFacts Suffix SpecSuffix SuffixFacts Prog Version VersionFacts VersionTry Mem Tree SpecTree SpecHist TreeState TreePrim TreeInv TreeRead TreeSplit TreeSkel TreeInode TreeProp TreeLeaf TreeContent TreeInsert TreeLayer TreeConv TreeLoop TreeTop TreeLaws TreeDrop Freeze CasInsert CasFacts SpecCas CasConc CasSteps CasPub CasThread CasRun.

(** ** the winners *)
Lemma elem_of_won kv : forall calls rs, kv ∈ won calls rs <-> exists i r, calls !! i = Some kv /\ rs !! i = Some r /\ succeeded r = true.
Proof.
  induction calls as [|a calls IH]; intros [|r rs]; cbn [won].
  - split; [by intros ?%elem_of_nil|]. intros (i & x & H & _). done.
  - split; [by intros ?%elem_of_nil|]. intros (i & x & H & _). done.
  - split; [by intros ?%elem_of_nil|]. intros (i & x & _ & H & _). done.
  - rewrite elem_of_app, IH. split.
    + intros [H|(i & x & H)]; [|by exists (S i), x]. destruct (succeeded r) eqn:E; [|by apply elem_of_nil in H].
      apply elem_of_list_singleton in H as ->. by exists 0, r.
    + intros ([|i] & x & H1 & H2 & H3); cbn in H1, H2; [|right; by exists i, x]. left. injection H1 as ->. injection H2 as ->. rewrite H3. by left.
Qed.
Lemma won_nodup : forall calls rs,
  (forall i j k v v' r r', calls !! i = Some (k, v) -> calls !! j = Some (k, v') -> rs !! i = Some r -> rs !! j = Some r' -> succeeded r = true -> succeeded r' = true -> i = j) ->
  NoDup (map fst (won calls rs)).
Proof.
  induction calls as [|[k v] calls IH]; intros [|r rs] H; cbn [won]; [constructor..|].
  assert (HI : NoDup (map fst (won calls rs))).
  { apply IH. intros i j k0 v0 v' r0 r' H1 H2 H3 H4 H5 H6. enough (S i = S j) by lia. by eapply (H (S i) (S j)). }
  destruct (succeeded r) eqn:E; [|done]. cbn. constructor; [|done]. intros Hin. apply elem_of_list_fmap in Hin as ([k' v'] & Ek & Hin). cbn in Ek. subst k'.
  apply elem_of_won in Hin as (i & r' & H1 & H2 & H3). enough (0 = S i) by lia. by eapply (H 0 (S i)).
Qed.
Lemma last_value_elem k v : forall l, last_value k l = Some v -> (k, v) ∈ l.
Proof.
  induction l as [|[k' v'] l IH]; cbn; [done|]. destruct (last_value k l) as [z|] eqn:E.
  - intros H. right. by apply IH.
  - destruct (decide (k' = k)) as [->|]; [|done]. intros [= ->]. by left.
Qed.
Lemma elem_last_value k v : forall l, (k, v) ∈ l -> is_Some (last_value k l).
Proof.
  induction l as [|[k' v'] l IH]; cbn; intros H; [by apply elem_of_nil in H|]. destruct (last_value k l) as [z|] eqn:E; [done|].
  apply elem_of_cons in H as [[= <- <-]|H]; [rewrite decide_True by done; done|]. apply IH in H as [? ?]. done.
Qed.
Lemma inserts_as l : inserts (as_inserts l) = l.
Proof. induction l as [|[k v] l IH]; [done|]. change (inserts (as_inserts ((k, v) :: l))) with ((k, v) :: inserts (as_inserts l)). by rewrite IH. Qed.

Lemma cpost_rely i kb r w w' : Rely i w w' -> (forall p g rt pa L, sA (ws w') !! p = Some (LF g MFree rt pa L) -> NoDup (ids L)) -> cpost i kb r w -> cpost i kb r w'.
Proof.
  intros HR Hnd. destruct r as [o|s| |s| |]; cbn; try done; rewrite (rl_ph _ _ _ HR).
  - done.
  - intros (H1 & H2 & [x H3]). split; [done|]. split; [done|]. exists x. by eapply lookup_weaken; [|apply HR].
  - intros (H1 & H2 & p & g & rt & pa & L & H3 & H4 & H5). split; [done|]. split; [done|].
    destruct (grown_leaf _ _ _ _ _ _ _ _ (rl_grow _ _ _ HR) H3) as (L' & HL & HG). exists p, g, rt, pa, L'. split; [done|]. split; [by eapply Hnd|].
    assert (Hln : forall M, length (ids M) = perm_size (lb_perm M)) by (intros M; unfold ids, active_slots; by rewrite map_length, seq_length).
    rewrite <- Hln in *. etrans; [exact H5|]. apply submseteq_length, NoDup_submseteq; [done|]. intros a Ha. by apply (lg_in _ _ HG).
  - intros (H1 & [H2|H2]); (split; [done|]); [by left|right]. by apply (rl_busy _ _ _ HR).
Qed.

Section Sys.
Context (K : bytes -> N -> Prop) (B : N) (mb : mem) (sb : ast) (mu0 : gmap bytes N) (calls : list (bytes * N)).
Local Notation CInv := (CInv K B mb sb mu0 calls).
Lemma ci_nodup w p g rt pa L : CInv w -> sA (ws w) !! p = Some (LF g MFree rt pa L) -> NoDup (ids L).
Proof. intros HC Hp. exact (ids_nodup _ (lk_perm _ _ _ _ _ _ (iv_l _ _ _ _ _ (ti_inv (ci_t HC)) _ _ _ _ _ _ Hp))). Qed.
(** when nothing is under way, the memory is that of a tree *)
Lemma quiet_rel w : CInv w -> (6144 <= B)%N -> sC sb = N.of_nat (size mu0) -> (forall i c, wph w !! i = Some c -> c = Counted) -> Rel false K B (wm w) (wmu w) (sC (ws w)).
Proof.
  intros HC HB Hcb Hq. destruct (ci_t HC) as [T1 T2 T3 T4 T5 T6 T7 T8 T9]. destruct (ci_m HC) as [M1 M2 M3 M4 M5 M6 M7 M8]. destruct (ci_v HC) as [V1 V2 V3 V4].
  assert (Hno : forall i p j ik kx x h, wph w !! i = Some (Claimed p j ik kx x h) -> False) by (intros ? ? ? ? ? ? ? H; by apply Hq in H).
  assert (Eh : heap (wm w) = heap (wt w)).
  { apply map_eq. intros p. specialize (M2 p). destruct (heap (wm w) !! p) as [[l|y]|], (heap (wt w) !! p) as [[l'|y']|]; try done.
    f_equal. f_equal. destruct M2 as [O1 O2 O3 O4].
    assert (Ev : l_val l = l_val l'). { apply list_eq. intros j. apply O3. intros (i & a1 & a2 & a3 & a4 & H). by eapply Hno. }
    rewrite O1, <- Ev. by destruct l. }
  assert (Ev : vals (wm w) = vals (wt w)).
  { apply map_eq. intros h. destruct (vals (wt w) !! h) as [z|] eqn:E; [by apply V1|]. destruct (vals (wm w) !! h) as [z|] eqn:E'; [|done]. exfalso.
    destruct (V2 h) as [[? H]|(i & c & H1 & H2)]; [by eexists|congruence|]. apply Hq in H1 as ->. done. }
  assert (Em : wm w = wt w). { destruct (wm w), (wt w). cbn in *. by subst. }
  rewrite Em. split; [done|]. exists (ws w). split; [done|]. split; [done|]. split; [done|]. split; [done|]. split; [done|]. split; [done|]. split.
  - destruct (ci_e HC) as [[H1 H2]|[H1 [H2|(i & p & j & a1 & a2 & a3 & a4 & H2)]]]; [by left|by right|]. by apply Hno in H2.
  - intros _. split; [done|]. split; [done|]. destruct (ci_g HC) as [[G1 G1'] [G2 G2'] G3 G4 G5 G6 G7 G8 G9]. rewrite G3, G4, Hcb.
    assert (length (wcn w) = length (wpub w)) as ->; [|lia]. apply Permutation_length, NoDup_Permutation; [done|done|]. intros i. rewrite G1', G2'.
    destruct (wph w !! i) as [c|] eqn:E; [|done]. apply Hq in E as ->. done.
Qed.
(** the final map *)
Lemma quiet_map w ops rs : CInv w -> mu0 = (map_run ∅ ops).2 ->
  (forall i, i ∈ wpub w <-> exists r, rs !! i = Some r /\ is_Some (calls !! i) /\ succeeded r = true) ->
  NoDup (map fst (won calls rs)) /\ (forall k v, (k, v) ∈ won calls rs -> mu0 !! k = None) /\ wmu w = (map_run ∅ (ops ++ as_inserts (won calls rs))).2 /\
  (wpub w <> [] -> won calls rs <> []).
Proof.
  intros HC Emu Hpub. destruct (ci_g HC) as [G1 G2 G3 G4 G5 G6 G7 G8 G9].
  assert (Hin : forall k v, (k, v) ∈ won calls rs <-> exists i, i ∈ wpub w /\ calls !! i = Some (k, v)).
  { intros k v. rewrite elem_of_won. split.
    - intros (i & r & H1 & H2 & H3). exists i. split; [|done]. apply Hpub. exists r. eauto.
    - intros (i & H1 & H2). apply Hpub in H1 as (r & H3 & _ & H4). by exists i, r. }
  split; [|split; [|split]].
  - apply won_nodup. intros i j k v v' r r' H1 H2 H3 H4 H5 H6. eapply G9; [apply Hpub|apply Hpub|exact H1|exact H2]; eauto.
  - intros k v H. apply Hin in H as (i & H1 & H2). destruct (G7 i H1) as (k' & v' & E1 & E2 & E3). rewrite H2 in E1. by injection E1 as <- <-.
  - apply map_eq. intros k. rewrite map_content, lookup_empty, inserts_app, inserts_as, last_value_app.
    assert (Elv : mu0 !! k = last_value k (inserts ops)).
    { rewrite Emu, map_content, lookup_empty. by destruct (last_value k (inserts ops)). }
    rewrite <- Elv. destruct (last_value k (won calls rs)) as [v|] eqn:E.
    + apply last_value_elem, Hin in E as (i & H1 & H2). destruct (G7 i H1) as (k' & v' & E1 & E2 & E3). rewrite H2 in E1. by injection E1 as <- <-.
    + destruct (wmu w !! k) as [z|] eqn:Ez.
      * destruct (G8 k z Ez) as [->|(i & H1 & H2)]; [done|]. exfalso. assert (Hw : (k, z) ∈ won calls rs) by (apply Hin; eauto).
        apply elem_last_value in Hw as [? Hw]. congruence.
      * destruct (mu0 !! k) as [z|] eqn:E0; [|done]. assert (wmu w !! k = Some z) by (by eapply lookup_weaken). congruence.
  - intros Hn E. destruct (wpub w) as [|i l] eqn:Ep; [done|]. destruct (G7 i) as (k & v & H1 & _); [by left|].
    assert (Hw : (k, v) ∈ won calls rs) by (apply Hin; exists i; split; [by left|done]). rewrite E in Hw. by apply elem_of_nil in Hw.
Qed.
End Sys.

Lemma cas_start K B m s mu0 calls : St m s -> Inv K B s 0 0 -> free_but [] (sA s) -> sfv s = [] -> sfn s = [] -> NoDead (sA s) ->
  (forall k v, is_bytes k -> maps s k v <-> mu0 !! k = Some v) -> ((exists e, entry (sA s) MAIN e) /\ mu0 <> ∅ \/ sA s = sA s0 /\ mu0 = ∅) ->
  CInv K B m s mu0 calls (mk_cw m m s ∅ mu0 [] []).
Proof.
  intros HS HI Hfree Hfv Hfn X1 X2 Hor.
  split; cbn.
    - split; try done. apply grown_refl.
    - split; try done. intros p. destruct (heap m !! p) as [[lf|y]|] eqn:E; try done. split.
      + by destruct lf.
      + destruct (sA s !! p) as [n|] eqn:Hn; [|apply (St_none _ _ _ HS) in Hn; congruence].
        destruct (St_lookup _ _ _ _ HS Hn) as (x & Hx & Hr). rewrite E in Hx. injection Hx as <-. destruct n as [g md rt pa [L0|J]]; [|by destruct Hr].
        destruct (St_leaf _ _ _ _ _ _ _ _ HS Hn) as (l2 & Q1 & _ & _ & Q4). assert (l2 = lf) as -> by congruence.
        rewrite (lr_val _ _ _ Q4), map_length, (lr_len _ _ _ Q4). done.
      + done.
      + done.
    - split; intros; by rewrite lookup_empty in *.
    - split; [done|by left|..]; intros; by rewrite lookup_empty in *.
    - split; cbn; try done.
      + split; [constructor|]. intros i. by rewrite lookup_empty, elem_of_nil.
      + split; [constructor|]. intros i. by rewrite lookup_empty, elem_of_nil.
      + lia.
      + intros _ p g g' md md' rt rt' pa pa' L1 L2 H1 H2. congruence.
      + intros i ?%elem_of_nil. done.
      + by left.
      + intros i j k v v' ?%elem_of_nil. done.
    - destruct Hor as [?|[? ?]]; [by left|right]. split; [done|by left].
Qed.

Lemma cas_together F ops calls ops2 sched l m : 300 <= F -> history_ok (ops ++ as_inserts calls ++ ops2) -> unambiguous (ops ++ as_inserts calls ++ ops2) ->
  run_calls insert F ops tree_new = Ok (l, m) ->
  let c := exec sched (m, map (fun kv => try_cas_insert F kv.1 kv.2) calls) in
  (forall e, Fail e ∉ c.2) /\
  forall rs, c.2 = map Ret rs ->
    NoDup (map fst (won calls rs)) /\ (forall k v, (k, v) ∈ won calls rs -> last_value k (inserts ops) = None) /\
    (forall i k v r, calls !! i = Some (k, v) -> rs !! i = Some r ->
      match r with
      | CSuccess old => old = None /\ length k <= 8
      | CExists _ => length k <= 8 /\ is_Some (last_value k (inserts ops ++ won calls rs))
      | CFull => length k <= 8 /\ full_leaf c.1
      | CFallback => 8 < length k \/ won calls rs <> []
      | CLayer _ | CSlot0 => False
      end) /\
    exists m' m2, run_calls insert F ops2 c.1 = Ok ((map_run (map_run ∅ (ops ++ as_inserts (won calls rs))).2 ops2).1, m') /\
      drop_tree m' = Ok m2 /\ heap m2 = ∅ /\ vals m2 = ∅ /\ bags m2 = ∅ /\ retired m2 = [].
Proof.
  intros HF [Hok HB] Hun Hrun c. set (all := ops ++ as_inserts calls ++ ops2) in *. rewrite key_bytes_costs in HB.
  assert (Hc : costs all = (costs ops + costs (as_inserts calls) + costs ops2)%N).
  { unfold all. rewrite <- !key_bytes_costs, !key_bytes_app. lia. }
  pose proof (Kof_ok all) as HK. unfold all in Hok, HK at 2. apply Forall_app in Hok as [Hok1 Hok2], HK as [HK1 HK2]. apply Forall_app in Hok2 as [Hok2 Hok3], HK2 as [HK2 HK3].
  set (K := Kof all) in *. set (B := (6144 + costs ops)%N).
  destruct (run_ok false K F ops HF 6144 tree_new ∅ 0) as (l' & m1 & E & R & L & X); [done|done|unfold U32_MAX; lia|apply rel_new|].
  change (insert_gen false) with insert in E. rewrite Hrun in E. injection E as <- <-. fold B in R.
  pose proof (split_fine_of all Hun) as Hsf. set (mu0 := (map_run ∅ ops).2) in *.
  destruct R as (HB0 & s & Hsc & HS & HI & Hfree & Hfv & Hfn & Hor & Hex). destruct (Hex Hsf) as (X1 & X2 & X3).
  set (w0 := mk_cw m m s ∅ mu0 [] []).
  assert (HC0 : CInv K B m s mu0 calls w0) by (by apply cas_start).
  destruct (sys_exec K B m s mu0 calls (fun i r w => forall k v, calls !! i = Some (k, v) -> cpost i k r w) sched w0 (m, map (fun kv => try_cas_insert F kv.1 kv.2) calls) HC0 eq_refl) as (w' & HC & Hm & Hout & Hlen & Hthr).
  { cbn [snd]. intros i pr Hi. exists w0. split; [apply rely_refl|]. rewrite list_lookup_fmap in Hi. destruct (calls !! i) as [[k v]|] eqn:Ei; [|done]. injection Hi as <-.
    eapply cwp_mono; [|eapply (c_try_cas K B m s mu0 calls i k v F w0)]; try done.
    - cbn. intros a w1 H k1 v1 [= <- <-]. exact H.
    - assert (Hop : op_ok (Insert k v)). { eapply (proj1 (Forall_forall _ _) Hok2). apply elem_of_list_fmap. exists (k, v). split; [done|by eapply elem_of_list_lookup_2]. } apply Hop.
    - assert (Hop : op_ok (Insert k v)). { eapply (proj1 (Forall_forall _ _) Hok2). apply elem_of_list_fmap. exists (k, v). split; [done|by eapply elem_of_list_lookup_2]. } apply Hop.
    - apply (proj1 (Forall_forall _ _) HK2 (Insert k v)). apply elem_of_list_fmap. exists (k, v). split; [done|by eapply elem_of_list_lookup_2]. }
  fold c in Hm, Hlen, Hthr. cbn [snd] in Hlen, Hout. rewrite map_length in Hlen, Hout. split.
  { intros e He. apply elem_of_list_lookup in He as [i Hi]. destruct (Hthr i _ Hi) as (w1 & _ & H). exact H. }
  intros rs Hrs. rewrite Hrs, map_length in Hlen.
  assert (Hpost : forall i k v r, calls !! i = Some (k, v) -> rs !! i = Some r -> cpost i k r w').
  { intros i k v r H1 H2. destruct (Hthr i (Ret r)) as (w1 & HR & H). { by rewrite Hrs, list_lookup_fmap, H2. }
    eapply cpost_rely; [exact HR| |by eapply H]. intros. by eapply ci_nodup. }
  assert (Hph : forall i, (is_Some (calls !! i) /\ exists r, rs !! i = Some r /\ wph w' !! i = (if succeeded r then Some Counted else None)) \/ (wph w' !! i = None /\ rs !! i = None)).
  { intros i. destruct (calls !! i) as [[k v]|] eqn:Ei.
    - left. split; [done|]. destruct (lookup_lt_is_Some_2 rs i) as [r Hr]; [rewrite Hlen; by eapply lookup_lt_Some|]. exists r. split; [done|].
      pose proof (Hpost i k v r Ei Hr) as Hp. destruct r; cbn in Hp; try done; cbn; apply Hp.
    - right. apply lookup_ge_None in Ei. split; [|apply lookup_ge_None; lia]. rewrite (rl_ph _ _ _ (Hout i (or_introl Ei))). apply lookup_empty. }
  assert (Hq : forall i x, wph w' !! i = Some x -> x = Counted).
  { intros i x Hx. destruct (Hph i) as [(_ & r & _ & H)|[H _]]; [|congruence]. destruct (succeeded r); congruence. }
  pose proof (quiet_rel K B m s mu0 calls w' HC HB0 X3 Hq) as HR.
  destruct (quiet_map K B m s mu0 calls w' ops rs HC eq_refl) as (Q1 & Q2 & Q3 & Q4).
  { intros i. rewrite (proj2 (gi_pub (ci_g HC)) i). destruct (Hph i) as [(Hs & r & H1 & H2)|[H1 H2]].
    - rewrite H2. destruct (succeeded r) eqn:Es; cbn; [split; [eauto|done]|]. split; [done|]. intros (r' & H3 & _ & H4). congruence.
    - rewrite H1. split; [done|]. intros (r & H3 & _). congruence. }
  assert (Elv : forall k0, mu0 !! k0 = last_value k0 (inserts ops)).
  { intros k0. unfold mu0. rewrite map_content, lookup_empty. by destruct (last_value k0 (inserts ops)). }
  split; [exact Q1|]. split; [intros k v Hkv; rewrite <- Elv; by eapply Q2|]. split.
  - intros i k v r H1 H2. pose proof (Hpost i k v r H1 H2) as Hp. destruct r; cbn in Hp; try done.
    + by destruct Hp as (H3 & H4 & _).
    + destruct Hp as (_ & H3 & [z H4]). split; [done|]. exists z. rewrite Q3, map_content, lookup_empty, inserts_app, inserts_as in H4. by destruct (last_value k (inserts ops ++ won calls rs)).
    + destruct Hp as (_ & H3 & p & g & rt & pa & L0 & H4 & _ & H5). split; [done|].
      destruct (leaf_at _ _ _ _ _ _ _ _ _ _ _ _ _ HC H4) as (lf & lf' & E1 & _ & _ & _ & E2 & _). exists p, lf. rewrite <- Hm. split; [done|]. by rewrite E2.
    + destruct Hp as (_ & [H3|H3]); [by left|right]. apply Q4. destruct H3 as [(i' & p & j & a1 & a2 & a3 & a4 & H3)|H3]; [|done]. by apply Hq in H3.
  - rewrite Hm in HR. rewrite <- Q3.
    destruct (run_ok false K F ops2 HF B c.1 (wmu w') (sC (ws w'))) as (l2 & m2 & E2 & R2 & _ & Y2); [done|done|unfold B, U32_MAX; lia|done|].
    destruct R2 as (_ & s2 & _ & HS2 & _ & _ & Hfv2 & Hfn2 & _). destruct (drop_ok m2 s2 HS2 Hfv2 Hfn2) as (m3 & E3 & D1 & D2 & D3 & D4 & _).
    exists m2, m3. rewrite <- (Y2 Hsf). done.
Qed.
