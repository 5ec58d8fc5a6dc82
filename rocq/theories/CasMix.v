(** Lock-free insertions and lookups running at the same time: the whole system. *)
From Verif Require Import Base Perm PermFacts PermList SpecPerm PermLaws Key SpecKey KeyFacts Suffix SpecSuffix SuffixFacts Prog Version VersionFacts VersionTry Mem Tree SpecTree SpecHist TreeState TreePrim TreeInv TreeRead TreeSplit TreeSkel TreeInode TreeProp TreeLeaf TreeContent TreeInsert TreeLayer TreeConv TreeLoop TreeTop TreeLaws TreeDrop Freeze CasInsert CasFacts SpecCas CasConc CasSteps CasPub CasThread CasRun CasSys CasRead.

(** a thread that is not scheduled stays as it is *)
Lemma exec_unmoved {M A} i : forall sched (c : M * list (prog M A)), i ∉ sched -> (exec sched c).2 !! i = c.2 !! i.
Proof.
  induction sched as [|j sched IH]; intros c Hi; [done|]. apply not_elem_of_cons in Hi as [Hne Hi].
  change (exec (j :: sched) c) with (exec sched (thread_step j c)). rewrite IH by done. unfold thread_step.
  destruct (c.2 !! j) as [[a|e|R f k]|]; try done. destruct (f c.1) as [[r m']|e]; cbn [snd]; by rewrite list_lookup_insert_ne by done.
Qed.
Lemma mix_lookup F calls keys i pr : cas_and_get F calls keys !! i = Some pr ->
  (exists k v, calls !! i = Some (k, v) /\ pr = (r <- try_cas_insert F k v ;; Ret (inl r))) \/
  (exists k, length calls <= i /\ keys !! (i - length calls) = Some k /\ pr = (o <- get F k ;; Ret (inr o))).
Proof.
  intros H. apply lookup_app_Some in H as [H|[Hl H]].
  - rewrite list_lookup_fmap in H. destruct (calls !! i) as [[k v]|] eqn:E; [|done]. injection H as <-. left. by exists k, v.
  - rewrite map_length in Hl, H. rewrite list_lookup_fmap in H. destruct (keys !! (i - length calls)) as [k|] eqn:E; [|done]. injection H as <-. right. by exists k.
Qed.

Lemma cas_mixed F ops calls keys ops2 sched1 sched2 l m : 300 <= F ->
  history_ok (ops ++ as_inserts calls ++ map Get keys ++ ops2) -> unambiguous (ops ++ as_inserts calls ++ map Get keys ++ ops2) ->
  run_calls insert F ops tree_new = Ok (l, m) ->
  let c1 := exec sched1 (m, cas_and_get F calls keys) in
  let c2 := exec sched2 c1 in
  (forall e, Fail e ∉ c2.2) /\
  (forall j k o, keys !! j = Some k -> c2.2 !! (length calls + j) = Some (Ret (inr o)) ->
    match o with
    | Some v => last_value k (inserts ops) = Some v \/
        exists i, calls !! i = Some (k, v) /\ i ∈ sched1 ++ sched2 /\ forall r, c2.2 !! i = Some (Ret (inl r)) -> succeeded r = true
    | None => last_value k (inserts ops) = None /\
        (length calls + j ∉ sched1 ->
          (forall i v r, calls !! i = Some (k, v) -> c1.2 !! i = Some (Ret (inl r)) -> match r with CSuccess _ | CExists _ => False | _ => True end) /\
          (forall j' o', keys !! j' = Some k -> c1.2 !! (length calls + j') = Some (Ret (inr o')) -> o' = None))
    end) /\
  (forall rs os, c2.2 = map Ret (map inl rs ++ map inr os) -> length rs = length calls ->
    NoDup (map fst (won calls rs)) /\ (forall k v, (k, v) ∈ won calls rs -> last_value k (inserts ops) = None) /\
    (forall i k v r, calls !! i = Some (k, v) -> rs !! i = Some r ->
      match r with
      | CSuccess old => old = None /\ length k <= 8
      | CExists _ => length k <= 8 /\ is_Some (last_value k (inserts ops ++ won calls rs))
      | CFull => length k <= 8 /\ full_leaf c2.1
      | CFallback => 8 < length k \/ won calls rs <> []
      | CLayer _ | CSlot0 => False
      end) /\
    exists m' m2, run_calls insert F ops2 c2.1 = Ok ((map_run (map_run ∅ (ops ++ as_inserts (won calls rs))).2 ops2).1, m') /\
      drop_tree m' = Ok m2 /\ heap m2 = ∅ /\ vals m2 = ∅ /\ bags m2 = ∅ /\ retired m2 = []).
Proof.
  intros HF [Hok HB] Hun Hrun c1 c2. set (all := ops ++ as_inserts calls ++ map Get keys ++ ops2) in *. rewrite key_bytes_costs in HB.
  assert (Hc : costs all = (costs ops + costs (as_inserts calls) + costs (map Get keys) + costs ops2)%N).
  { unfold all. rewrite <- !key_bytes_costs, !key_bytes_app. lia. }
  pose proof (Kof_ok all) as HK. unfold all in Hok, HK at 2. apply Forall_app in Hok as [Hok1 Hok2], HK as [HK1 HK2]. apply Forall_app in Hok2 as [Hok2 Hok3], HK2 as [HK2 HK3].
  apply Forall_app in Hok3 as [Hok3 Hok4], HK3 as [_ HK4].
  set (K := Kof all) in *. set (B := (6144 + costs ops)%N).
  destruct (run_ok false K F ops HF 6144 tree_new ∅ 0) as (l' & m1 & E & R & L & X); [done|done|unfold U32_MAX; lia|apply rel_new|].
  change (insert_gen false) with insert in E. rewrite Hrun in E. injection E as <- <-. fold B in R.
  pose proof (split_fine_of all Hun) as Hsf. set (mu0 := (map_run ∅ ops).2) in *.
  destruct R as (HB0 & s & Hsc & HS & HI & Hfree & Hfv & Hfn & Hor & Hex). destruct (Hex Hsf) as (X1 & X2 & X3).
  set (w0 := mk_cw m m s ∅ mu0 [] []).
  assert (HC0 : CInv K B m s mu0 calls w0) by (by apply cas_start).
  assert (Hgop : forall j k, keys !! j = Some k -> length k <= 256 /\ is_bytes k).
  { intros j k Hk. apply (proj1 (Forall_forall _ _) Hok3 (Get k)). apply elem_of_list_fmap. exists k. split; [done|by eapply elem_of_list_lookup_2]. }
  assert (Hiop : forall i k v, calls !! i = Some (k, v) -> (length k <= 256 /\ is_bytes k) /\ K k v).
  { intros i k v Hk. assert (He : Insert k v ∈ as_inserts calls). { apply elem_of_list_fmap. exists (k, v). split; [done|by eapply elem_of_list_lookup_2]. }
    split; [apply (proj1 (Forall_forall _ _) Hok2 _ He)|apply (proj1 (Forall_forall _ _) HK2 _ He)]. }
  set (Q1 := fun (i : nat) (r : cas_res + option N) (w : cw) => match r with
    | inl r => exists k v, calls !! i = Some (k, v) /\ cpost i k r w
    | inr o => wph w !! i = None /\ exists k, length calls <= i /\ keys !! (i - length calls) = Some k /\ match o with Some v => wmu w !! k = Some v | None => mu0 !! k = None end end).
  (* the first part of the schedule *)
  destruct (sys_exec K B m s mu0 calls Q1 sched1 w0 (m, cas_and_get F calls keys) HC0 eq_refl) as (w1 & HC1 & Hm1 & Hout1 & Hlen1 & Hthr1).
  { cbn [snd]. intros i pr Hi. exists w0. split; [apply rely_refl|]. destruct (mix_lookup _ _ _ _ _ Hi) as [(k & v & Hk & ->)|(k & Hl & Hk & ->)].
    - destruct (Hiop _ _ _ Hk) as ((O1 & O2) & O3). apply cwp_bind. eapply cwp_mono; [|by apply (c_try_cas K B m s mu0 calls i k v F w0)].
      cbn. intros r w H. exists k, v. done.
    - destruct (Hgop _ _ Hk) as (O1 & O2). apply cwp_bind. eapply cwp_mono; [|by apply (c_get K B m s mu0 calls i k O2 O1 HS HI Hfree F HF w0)].
      cbn. intros o w (HR & _ & H). split; [by rewrite (rl_ph _ _ _ HR)|]. exists k. split; [done|]. split; [done|]. exact H. }
  fold c1 in Hm1, Hlen1, Hthr1. cbn [snd] in Hlen1, Hout1.
  set (Q2 := fun (i : nat) (r : cas_res + option N) (w : cw) => Q1 i r w /\ (i ∉ sched1 -> r = inr None -> forall k, length calls <= i -> keys !! (i - length calls) = Some k -> wmu w1 !! k = None)).
  (* the second part *)
  destruct (sys_exec K B m s mu0 calls Q2 sched2 w1 c1 HC1 Hm1) as (w2 & HC2 & Hm2 & Hout2 & Hlen2 & Hthr2).
  { intros i pr Hi. destruct (decide (i ∈ sched1)) as [Hin|Hin].
    - destruct (Hthr1 i pr Hi) as (w & H1 & H2). exists w. split; [done|]. eapply cwp_mono; [|exact H2]. intros r w' H. split; [done|]. done.
    - assert (Hi0 : cas_and_get F calls keys !! i = Some pr) by (etrans; [symmetry; exact (exec_unmoved i sched1 (m, cas_and_get F calls keys) Hin)|exact Hi]). destruct (mix_lookup _ _ _ _ _ Hi0) as [(k & v & Hk & Epr)|(k & Hl & Hk & Epr)].
      + destruct (Hthr1 i pr Hi) as (w & H1 & H2). exists w. split; [done|]. eapply cwp_mono; [|exact H2]. intros r w' H. split; [done|]. intros _ _ k' Hl _. apply lookup_lt_Some in Hk. lia.
      + destruct (Hgop _ _ Hk) as (O1 & O2). exists w1. split; [apply rely_refl|]. rewrite Epr. apply cwp_bind. eapply cwp_mono; [|by apply (c_get K B m s mu0 calls i k O2 O1 HS HI Hfree F HF w1)].
        cbn. intros o w (HR & _ & H). split.
        * split; [rewrite (rl_ph _ _ _ HR), (rl_ph _ _ _ (Hout1 i (or_intror Hin))); apply lookup_empty|]. exists k. split; [done|]. split; [done|]. destruct o as [v|]; [done|]. by eapply lookup_weaken_None, (gi_mu0 (ci_g HC1)).
        * intros _ [= ->] k' _ Hk'. assert (k' = k) as -> by congruence. exact H. }
  fold c2 in Hm2, Hlen2, Hthr2.
  assert (Hnd : forall w, CInv K B m s mu0 calls w -> forall p g rt pa L, sA (ws w) !! p = Some (LF g MFree rt pa L) -> NoDup (ids L)) by (intros; by eapply ci_nodup).
  assert (Hcp1 : forall i k v r, calls !! i = Some (k, v) -> c1.2 !! i = Some (Ret (inl r)) -> cpost i k r w1).
  { intros i k v r Hk Hi. destruct (Hthr1 i _ Hi) as (w & HR & k' & v' & Hk' & H). assert (k' = k) as -> by congruence. eapply cpost_rely; [exact HR|by apply Hnd|done]. }
  assert (Hcp2 : forall i k v r, calls !! i = Some (k, v) -> c2.2 !! i = Some (Ret (inl r)) -> cpost i k r w2).
  { intros i k v r Hk Hi. destruct (Hthr2 i _ Hi) as (w & HR & (k' & v' & Hk' & H) & _). assert (k' = k) as -> by congruence. eapply cpost_rely; [exact HR|by apply Hnd|done]. }
  assert (Elv : forall k0, mu0 !! k0 = last_value k0 (inserts ops)).
  { intros k0. unfold mu0. rewrite map_content, lookup_empty. by destruct (last_value k0 (inserts ops)). }
  split; [|split].
  - intros e He. apply elem_of_list_lookup in He as [i Hi]. destruct (Hthr2 i _ Hi) as (w & _ & H). exact H.
  - intros j k o Hj Hi. destruct (Hthr2 _ _ Hi) as (w & HR & (_ & k' & _ & Hk' & H) & Hnone). replace (length calls + j - length calls) with j in * by lia.
    assert (k' = k) as -> by congruence. destruct o as [v|].
    + assert (Hv : wmu w2 !! k = Some v) by (by eapply lookup_weaken; [|apply HR]).
      destruct (gi_old (ci_g HC2) k v Hv) as [Hv0|(i & Hp & Hc0)]; [left; by rewrite <- Elv|right]. exists i. split; [done|]. apply (proj2 (gi_pub (ci_g HC2)) i) in Hp. split.
      { destruct (decide (i ∈ sched1 ++ sched2)) as [|Hno]; [done|]. exfalso. apply not_elem_of_app in Hno as [N1 N2].
        rewrite (rl_ph _ _ _ (Hout2 i (or_intror N2))), (rl_ph _ _ _ (Hout1 i (or_intror N1))) in Hp. cbn in Hp. by rewrite lookup_empty in Hp. }
      intros r Hr. pose proof (Hcp2 _ _ _ _ Hc0 Hr) as Hcp. destruct r; cbn in Hcp; try done; destruct Hcp as [Hz _]; rewrite Hz in Hp; done.
    + split; [by rewrite <- Elv|]. intros Hn. specialize (Hnone Hn eq_refl k ltac:(lia) ltac:(by replace (length calls + j - length calls) with j by lia)). split.
      * intros i v r Hc0 Hr. pose proof (Hcp1 _ _ _ _ Hc0 Hr) as Hcp. destruct r; cbn in Hcp; try done.
        { destruct Hcp as (_ & _ & Hph). assert (Hp : i ∈ wpub w1) by (apply (proj2 (gi_pub (ci_g HC1)) i); by rewrite Hph).
          destruct (gi_new (ci_g HC1) i Hp) as (k1 & v1 & E1 & E2 & _). rewrite Hc0 in E1. injection E1 as <- <-. congruence. }
        { destruct Hcp as (_ & _ & [z Hz]). congruence. }
      * intros j' o' Hj' Hr. destruct (Hthr1 _ _ Hr) as (w' & HR' & _ & k1 & _ & Hk1 & H1). replace (length calls + j' - length calls) with j' in * by lia.
        assert (k1 = k) as -> by congruence. destruct o' as [v'|]; [|done]. exfalso. assert (wmu w1 !! k = Some v') by (by eapply lookup_weaken; [|apply HR']). congruence.
  - intros rs os Hrs Hlen.
    assert (Hget : forall i r, rs !! i = Some r -> c2.2 !! i = Some (Ret (inl r))).
    { intros i r Hr. rewrite Hrs, list_lookup_fmap, lookup_app_l by (rewrite map_length; by eapply lookup_lt_Some). by rewrite list_lookup_fmap, Hr. }
    assert (Hpost : forall i k v r, calls !! i = Some (k, v) -> rs !! i = Some r -> cpost i k r w2) by (intros; eapply Hcp2; [done|by apply Hget]).
    assert (Hlate : forall i, length calls <= i -> wph w2 !! i = None).
    { intros i Hge. destruct (c2.2 !! i) as [pr|] eqn:Ei.
      - assert (exists o, pr = Ret (inr o)) as [o ->].
        { rewrite Hrs, list_lookup_fmap, lookup_app_r, list_lookup_fmap in Ei by (rewrite map_length; lia). destruct (os !! _) as [o|]; [|done]. injection Ei as <-. by exists o. }
        destruct (Hthr2 i _ Ei) as (w & HR & (Hz & _) & _). by rewrite (rl_ph _ _ _ HR).
      - apply lookup_ge_None in Ei. rewrite Hlen2 in Ei. rewrite (rl_ph _ _ _ (Hout2 i (or_introl Ei))). rewrite Hlen1 in Ei. rewrite (rl_ph _ _ _ (Hout1 i (or_introl Ei))). apply lookup_empty. }
    assert (Hph : forall i, (is_Some (calls !! i) /\ exists r, rs !! i = Some r /\ wph w2 !! i = (if succeeded r then Some Counted else None)) \/ (wph w2 !! i = None /\ rs !! i = None)).
    { intros i. destruct (calls !! i) as [[k v]|] eqn:Ei.
      - left. split; [done|]. destruct (lookup_lt_is_Some_2 rs i) as [r Hr]; [rewrite Hlen; by eapply lookup_lt_Some|]. exists r. split; [done|].
        pose proof (Hpost i k v r Ei Hr) as Hp. destruct r; cbn in Hp; try done; cbn; apply Hp.
      - right. apply lookup_ge_None in Ei. split; [by apply Hlate|apply lookup_ge_None; lia]. }
    assert (Hq : forall i x, wph w2 !! i = Some x -> x = Counted).
    { intros i x Hx. destruct (Hph i) as [(_ & r & _ & H)|[H _]]; [|congruence]. destruct (succeeded r); congruence. }
    pose proof (quiet_rel K B m s mu0 calls w2 HC2 HB0 X3 Hq) as HR.
    destruct (quiet_map K B m s mu0 calls w2 ops rs HC2 eq_refl) as (Z1 & Z2 & Z3 & Z4).
    { intros i. rewrite (proj2 (gi_pub (ci_g HC2)) i). destruct (Hph i) as [(Hs & r & H1 & H2)|[H1 H2]].
      - rewrite H2. destruct (succeeded r) eqn:Es; cbn; [split; [eauto|done]|]. split; [done|]. intros (r' & H3 & _ & H4). congruence.
      - rewrite H1. split; [done|]. intros (r & H3 & _). congruence. }
    split; [exact Z1|]. split; [intros k v Hkv; rewrite <- Elv; by eapply Z2|]. split.
    + intros i k v r H1 H2. pose proof (Hpost i k v r H1 H2) as Hp. destruct r; cbn in Hp; try done.
      * by destruct Hp as (H3 & H4 & _).
      * destruct Hp as (_ & H3 & [z H4]). split; [done|]. exists z. rewrite Z3, map_content, lookup_empty, inserts_app, inserts_as in H4. by destruct (last_value k (inserts ops ++ won calls rs)).
      * destruct Hp as (_ & H3 & p & g & rt & pa & L0 & H4 & _ & H5). split; [done|].
        destruct (leaf_at _ _ _ _ _ _ _ _ _ _ _ _ _ HC2 H4) as (lf & lf' & E1 & _ & _ & _ & E2 & _). exists p, lf. rewrite <- Hm2. split; [done|]. by rewrite E2.
      * destruct Hp as (_ & [H3|H3]); [by left|right]. apply Z4. destruct H3 as [(i' & p & j & a1 & a2 & a3 & a4 & H3)|H3]; [|done]. by apply Hq in H3.
    + rewrite Hm2 in HR. rewrite <- Z3.
      destruct (run_ok false K F ops2 HF B c2.1 (wmu w2) (sC (ws w2))) as (l2 & m2 & E2 & R2 & _ & Y2); [done|done|unfold B, U32_MAX; lia|done|].
      destruct R2 as (_ & s2 & _ & HS2 & _ & _ & Hfv2 & Hfn2 & _). destruct (drop_ok m2 s2 HS2 Hfv2 Hfn2) as (m3 & E3 & D1 & D2 & D3 & D4 & _).
      exists m2, m3. rewrite <- (Y2 Hsf). done.
Qed.
