(** The properties of single-threaded histories, from the refinement proof. *)
From Verif Require Import Base Key SpecKey KeyFacts Suffix Prog Version Mem Tree SpecTree SpecHist TreeState TreeInv TreeLeaf TreeTop.

(** ** specification facts *)
Lemma key_bytes_costs ops : key_bytes ops = costs ops.
Proof. induction ops as [|[k v|k|k| |] ops IH]; cbn; [done|..]; rewrite IH; done. Qed.
Lemma key_bytes_app a b : key_bytes (a ++ b) = (key_bytes a + key_bytes b)%N.
Proof. induction a as [|[k v|k|k| |] a IH]; cbn; rewrite ?IH; lia. Qed.
Lemma inserts_app a b : inserts (a ++ b) = inserts a ++ inserts b.
Proof. unfold inserts. apply omap_app. Qed.
Lemma last_value_app k a b : last_value k (a ++ b) = match last_value k b with Some v => Some v | None => last_value k a end.
Proof. induction a as [|[k' v] a IH]; cbn; [by destruct (last_value k b)|]. rewrite IH. by destruct (last_value k b). Qed.
Lemma last_value_in k v l : last_value k l = Some v -> (k, v) ∈ l.
Proof.
  induction l as [|[k' v'] l IH]; cbn; [done|]. destruct (last_value k l) as [w|].
  - intros [= ->]. right. by apply IH.
  - destruct (decide (k' = k)) as [->|]; [|done]. intros [= ->]. by left.
Qed.
Lemma map_run_app mu a b : map_run mu (a ++ b) =
  let '(l1, mu1) := map_run mu a in let '(l2, mu2) := map_run mu1 b in (l1 ++ l2, mu2).
Proof.
  revert mu. induction a as [|o a IH]; intros mu; cbn; [by destruct (map_run mu b)|].
  destruct (map_step mu o) as [x mu1]. rewrite IH. destruct (map_run mu1 a) as [l1 mu2]. destruct (map_run mu2 b) as [l2 mu3]. done.
Qed.
Lemma map_run_len mu a : length (map_run mu a).1 = length a.
Proof. revert mu. induction a as [|o a IH]; intros mu; cbn; [done|]. destruct (map_step mu o) as [x mu1]. specialize (IH mu1). destruct (map_run mu1 a). cbn in *. by rewrite IH. Qed.
Lemma run_calls_app ins F a b m : run_calls ins F (a ++ b) m =
  res_bind (run_calls ins F a m) (fun '(l1, m1) => res_bind (run_calls ins F b m1) (fun '(l2, m2) => Ok (l1 ++ l2, m2))).
Proof.
  revert m. induction a as [|o a IH]; intros m; cbn.
  - by destruct (run_calls ins F b m) as [[l2 m2]|].
  - destruct (run (call ins F o) m) as [[x m1]|]; [|done]. cbn. rewrite IH. destruct (run_calls ins F a m1) as [[l1 m2]|]; [|done]. cbn.
    by destruct (run_calls ins F b m2) as [[l2 m3]|].
Qed.
Lemma map_content mu ops k : (map_run mu ops).2 !! k = match last_value k (inserts ops) with Some v => Some v | None => mu !! k end.
Proof.
  revert mu. induction ops as [|o ops IH]; intros mu; [done|]. cbn [map_run]. destruct (map_step mu o) as [x mu1] eqn:Es.
  specialize (IH mu1). destruct (map_run mu1 ops) as [l mu2]. cbn [snd] in *. rewrite IH.
  destruct o as [k' v|k'|k'| |]; cbn in Es; injection Es as _ <-; try done.
  change (inserts (Insert k' v :: ops)) with ((k', v) :: inserts ops). cbn [last_value]. destruct (last_value k (inserts ops)); [done|].
  destruct (decide (k' = k)) as [->|]; [by rewrite lookup_insert|by rewrite lookup_insert_ne].
Qed.
Lemma last_value_none k l : last_value k l = None <-> k ∉ map fst l.
Proof.
  induction l as [|[k' v] l IH]; cbn; [split; [intros _; apply not_elem_of_nil|done]|]. rewrite not_elem_of_cons.
  destruct (last_value k l) as [w|].
  - split; [done|]. intros [_ H]. apply IH in H. done.
  - destruct (decide (k' = k)) as [->|]; naive_solver.
Qed.
Lemma map_size ops : N.of_nat (size (map_run ∅ ops).2) = distinct_keys (inserts ops).
Proof.
  unfold distinct_keys. f_equal. rewrite <- (size_dom (D := gset bytes)).
  assert (E : dom (map_run ∅ ops).2 =@{gset bytes} list_to_set (remove_dups (map fst (inserts ops)))).
  { apply set_eq. intros k. rewrite elem_of_dom, elem_of_list_to_set, elem_of_remove_dups, map_content, lookup_empty.
    destruct (last_value k (inserts ops)) as [v|] eqn:E.
    - split; [|by eauto]. intros _. destruct (decide (k ∈ map fst (inserts ops))) as [|Hn]; [done|]. apply last_value_none in Hn. congruence.
    - apply last_value_none in E. split; [intros [? ?]; done|done]. }
  rewrite E, size_list_to_set; [done|]. apply NoDup_remove_dups.
Qed.
Lemma map_empty ops : bool_decide ((map_run ∅ ops).2 = ∅) = bool_decide (inserts ops = []).
Proof.
  apply bool_decide_ext. split.
  - intros E. destruct (inserts ops) as [|[k v] l] eqn:Ei; [done|]. exfalso.
    assert (H : (map_run ∅ ops).2 !! k = None) by (rewrite E; apply lookup_empty). rewrite map_content, Ei, lookup_empty in H.
    destruct (last_value k ((k, v) :: l)) eqn:El; [done|]. apply last_value_none in El. apply El. by left.
  - intros E. apply map_empty. intros k. by rewrite map_content, E, lookup_empty.
Qed.

(** ** ambiguous keys *)
Lemma slice_pad k d : slice k d = pad8 (drop (d * 8) k).
Proof.
  unfold slice, pad8. rewrite (Nat.mul_comm 8 d). set (r := drop (d * 8) k).
  do 8 (destruct r as [|? r]; [done|]). done.
Qed.
Lemma clash_amb k1 k2 : clash k1 k2 <-> ambiguous k1 k2.
Proof.
  unfold clash, ambiguous. split; intros [Hne (d & H1 & H2 & H3)]; (split; [done|]); exists d; rewrite !slice_pad in *; rewrite !(Nat.mul_comm 8 d) in *.
  - split; [done|]. split; [done|]. rewrite !drop_length in H3. lia.
  - split; [done|]. split; [done|]. rewrite !drop_length. lia.
Qed.
Lemma fixed_length_unambiguous ops n : (forall k v, (k, v) ∈ inserts ops -> length k = n) -> unambiguous ops.
Proof.
  intros H k1 k2 v1 v2 H1%H H2%H [Hne (d & E1 & E2 & E3)]. apply Hne. rewrite !slice_pad in E2. rewrite !(Nat.mul_comm 8 d) in *.
  rewrite <- (take_drop (d * 8) k1), <- (take_drop (d * 8) k2), E1. f_equal.
  assert (L1 : length (drop (d * 8) k1) <= 8) by (rewrite drop_length; lia). assert (L2 : length (drop (d * 8) k2) <= 8) by (rewrite drop_length; lia).
  apply pad8_inj; [rewrite !drop_length; lia|done|done].
Qed.

(** ** running a history *)
Definition Kof (ops : list op) (k : bytes) (v : N) : Prop := (k, v) ∈ inserts ops.
Lemma Kof_ok ops : Forall (K_ok (Kof ops)) ops.
Proof.
  apply Forall_forall. intros [k v|k|k| |] H; cbn; try done. unfold Kof, inserts. apply elem_of_list_omap. eexists. split; [exact H|done].
Qed.
Lemma Kof_mono ops ops' : (forall x, x ∈ inserts ops -> x ∈ inserts ops') -> Forall (K_ok (Kof ops')) ops.
Proof.
  intros H. apply Forall_forall. intros [k v|k|k| |] Hin; cbn; try done. apply H. unfold inserts. apply elem_of_list_omap. eexists. split; [exact Hin|done].
Qed.
Lemma history_run fx F ops : 300 <= F -> history_ok ops -> exists l m,
  run_calls (insert_gen fx) F ops tree_new = Ok (l, m) /\ Rel fx (Kof ops) (6144 + costs ops) m (map_run ∅ ops).2 (fold_left bump l 0%N) /\
  length l = length ops /\ (fx = true \/ unambiguous ops -> l = (map_run ∅ ops).1).
Proof.
  intros HF [Hok HB]. rewrite key_bytes_costs in HB. destruct (run_ok fx (Kof ops) F ops HF 6144 tree_new ∅ 0) as (l & m & E & R & L & X).
  - done.
  - apply Kof_ok.
  - unfold U32_MAX. lia.
  - apply rel_new.
  - exists l, m. split; [done|]. split; [done|]. split; [done|]. intros Hs. apply X. destruct Hs as [|Hs]; [by left|right].
    intros k1 k2 v1 v2 H1 H2 Hc. apply clash_amb in Hc. exact (Hs k1 k2 v1 v2 H1 H2 Hc).
Qed.

(** ** C01 *)
Lemma map_semantics fx F ops : 300 <= F -> history_ok ops -> fx = true \/ unambiguous ops ->
  exists m, run_calls (insert_gen fx) F ops tree_new = Ok ((map_run ∅ ops).1, m).
Proof. intros HF Hok Hs. destruct (history_run fx F ops HF Hok) as (l & m & E & _ & _ & X). exists m. by rewrite <- (X Hs). Qed.

(** one more call after a history *)
Lemma history_snoc fx F ops o : 300 <= F -> history_ok (ops ++ [o]) -> exists l m a m',
  run_calls (insert_gen fx) F ops tree_new = Ok (l, m) /\ run (call (insert_gen fx) F o) m = Ok (a, m') /\
  run_calls (insert_gen fx) F (ops ++ [o]) tree_new = Ok (l ++ [a], m') /\
  weak (Kof (ops ++ [o])) (map_run ∅ ops).2 (fold_left bump l 0%N) o a /\
  (fx = true \/ unambiguous (ops ++ [o]) -> l = (map_run ∅ ops).1 /\ a = (map_step (map_run ∅ ops).2 o).1).
Proof.
  intros HF [Hok HB]. rewrite key_bytes_costs in HB.
  assert (Hc : costs (ops ++ [o]) = (costs ops + cost o)%N).
  { rewrite <- !key_bytes_costs, key_bytes_app. destruct o; cbn; lia. }
  apply Forall_app in Hok as [Hok1 Hok2]. inversion Hok2; subst.
  assert (HK : Forall (K_ok (Kof (ops ++ [o]))) (ops ++ [o])) by apply Kof_ok. apply Forall_app in HK as [HK1 HK2]. inversion HK2; subst.
  rewrite Hc in HB. assert (6144 + costs ops + cost o < U32_MAX)%N by (unfold U32_MAX; lia).
  destruct (run_ok fx (Kof (ops ++ [o])) F ops HF 6144 tree_new ∅ 0) as (l & m & E & R & L & X); [done|done|lia|apply rel_new|].
  destruct (wp_run _ _ _ (call_ok fx (Kof (ops ++ [o])) (6144 + costs ops) F o m _ _ HF ltac:(done) ltac:(done) ltac:(lia) R)) as (a & m' & E1 & R1 & W1 & X1).
  exists l, m, a, m'. split; [done|]. split; [done|]. split; [|split; [done|]].
  - rewrite run_calls_app, E. cbn [res_bind run_calls]. rewrite E1. done.
  - intros Hs. assert (Hf : split_fine fx (Kof (ops ++ [o]))).
    { destruct Hs as [|Hs]; [by left|right]. intros k1 k2 v1 v2 H5 H6 Hcl. apply clash_amb in Hcl. exact (Hs k1 k2 v1 v2 H5 H6 Hcl). }
    split; [by apply X|by apply X1].
Qed.
Lemma unambiguous_incl ops ops' : (forall x, x ∈ inserts ops' -> x ∈ inserts ops) -> unambiguous ops -> unambiguous ops'.
Proof. intros H Hu k1 k2 v1 v2 H1 H2. by eapply Hu; apply H. Qed.

(** ** C01, as lookups after a history of inserts *)
Lemma get_last fx F ops k : 300 <= F -> history_ok (ops ++ [Get k]) -> fx = true \/ unambiguous ops ->
  exists l m, run_calls (insert_gen fx) F (ops ++ [Get k]) tree_new = Ok (l ++ [AGet (last_value k (inserts ops))], m).
Proof.
  intros HF Hok Hs. destruct (history_snoc fx F ops (Get k) HF Hok) as (l & m & a & m' & _ & _ & E & _ & X).
  exists l, m'. destruct X as [_ Ha].
  { destruct Hs as [|Hs]; [by left|right]. eapply unambiguous_incl; [|exact Hs]. intros x. rewrite inserts_app. cbn. by rewrite app_nil_r. }
  rewrite Ha in E. cbn in E. rewrite map_content, lookup_empty in E. by destruct (last_value k (inserts ops)).
Qed.

(** ** C02: lookups return values inserted under the key *)
Lemma get_inserted fx F ops k : 300 <= F -> history_ok (ops ++ [Get k]) ->
  exists l m r, run_calls (insert_gen fx) F (ops ++ [Get k]) tree_new = Ok (l ++ [AGet r], m) /\ forall v, r = Some v -> (k, v) ∈ inserts ops.
Proof.
  intros HF Hok. destruct (history_snoc fx F ops (Get k) HF Hok) as (l & m & a & m' & _ & _ & E & (r & -> & Hr) & _).
  exists l, m', r. split; [done|]. intros v Hv. specialize (Hr v Hv). unfold Kof in Hr. rewrite inserts_app in Hr. cbn in Hr. by rewrite app_nil_r in Hr.
Qed.
(** ** C03 *)
Lemma insert_previous fx F ops k v : 300 <= F -> history_ok (ops ++ [Insert k v]) -> fx = true \/ unambiguous (ops ++ [Insert k v]) ->
  exists l m, run_calls (insert_gen fx) F (ops ++ [Insert k v]) tree_new = Ok (l ++ [AIns (last_value k (inserts ops))], m).
Proof.
  intros HF Hok Hs. destruct (history_snoc fx F ops (Insert k v) HF Hok) as (l & m & a & m' & _ & _ & E & _ & X).
  exists l, m'. destruct (X Hs) as [_ Ha]. rewrite Ha in E. cbn in E. rewrite map_content, lookup_empty in E. by destruct (last_value k (inserts ops)).
Qed.
(** ** C04 *)
Lemma bump_new l c : fold_left bump l c = (c + new_keys l)%N.
Proof.
  revert c. unfold new_keys. induction l as [|a l IH]; intros c; cbn; [lia|]. rewrite IH. destruct a as [[w|]| | | |]; cbn; lia.
Qed.
Lemma len_counts_new fx F ops : 300 <= F -> history_ok ops -> exists l m,
  run_calls (insert_gen fx) F (ops ++ [Len]) tree_new = Ok (l ++ [ALen (new_keys l)], m).
Proof.
  intros HF [Hok HB]. destruct (history_snoc fx F ops Len HF) as (l & m & a & m' & _ & _ & E & -> & _).
  - split; [apply Forall_app; split; [done|]; by constructor|]. rewrite key_bytes_app. cbn [key_bytes]. lia.
  - exists l, m'. by rewrite bump_new, N.add_0_l in E.
Qed.
Lemma len_distinct fx F ops : 300 <= F -> history_ok ops -> fx = true \/ unambiguous ops -> exists l m,
  run_calls (insert_gen fx) F (ops ++ [Len]) tree_new = Ok (l ++ [ALen (distinct_keys (inserts ops))], m).
Proof.
  intros HF [Hok HB] Hs. destruct (history_snoc fx F ops Len HF) as (l & m & a & m' & _ & _ & E & _ & X).
  - split; [apply Forall_app; split; [done|]; by constructor|]. rewrite key_bytes_app. cbn [key_bytes]. lia.
  - exists l, m'. destruct X as [_ Ha].
    { destruct Hs as [|Hs]; [by left|right]. eapply unambiguous_incl; [|exact Hs]. intros x. rewrite inserts_app. cbn. by rewrite app_nil_r. }
    rewrite Ha in E. cbn [map_step fst] in E. by rewrite map_size in E.
Qed.
(** ** C05 *)
Lemma is_empty_exact fx F ops : 300 <= F -> history_ok ops -> exists l m,
  run_calls (insert_gen fx) F (ops ++ [IsEmpty]) tree_new = Ok (l ++ [AEmpty (bool_decide (inserts ops = []))], m).
Proof.
  intros HF [Hok HB]. destruct (history_snoc fx F ops IsEmpty HF) as (l & m & a & m' & _ & _ & E & Ha & _).
  - split; [apply Forall_app; split; [done|]; by constructor|]. rewrite key_bytes_app. cbn [key_bytes]. lia.
  - exists l, m'. cbn in Ha. rewrite Ha, map_empty in E. done.
Qed.
(** ** C07 *)
Lemma insert_independent fx F ops k v k' : 300 <= F -> history_ok (ops ++ [Insert k v]) -> op_ok (Get k') -> k <> k' ->
  fx = true \/ unambiguous (ops ++ [Insert k v]) ->
  exists l m old m' r, run_calls (insert_gen fx) F ops tree_new = Ok (l, m) /\
    run (insert_gen fx F k v) m = Ok (IOk old, m') /\ run (get F k') m = Ok (r, m) /\ run (get F k') m' = Ok (r, m').
Proof.
  intros HF Hok Hk Hne Hs.
  assert (Hok1 : history_ok (ops ++ [Get k'])).
  { destruct Hok as [H1 H2]. apply Forall_app in H1 as [H1 _]. rewrite key_bytes_app in H2. split; [apply Forall_app; split; [done|by constructor]|].
    rewrite key_bytes_app. cbn [key_bytes]. lia. }
  assert (Hok2 : history_ok ((ops ++ [Insert k v]) ++ [Get k'])).
  { destruct Hok as [H1 H2]. split; [apply Forall_app; split; [done|by constructor]|]. rewrite key_bytes_app. cbn [key_bytes]. lia. }
  assert (Hi : forall x, x ∈ inserts ((ops ++ [Insert k v]) ++ [Get k']) -> x ∈ inserts (ops ++ [Insert k v])).
  { intros x. rewrite (inserts_app _ [Get k']). cbn. by rewrite app_nil_r. }
  destruct (history_snoc fx F ops (Get k') HF Hok1) as (l & m & a & m1 & E1 & E2 & _ & _ & X1).
  destruct (history_snoc fx F ops (Insert k v) HF Hok) as (l' & m' & a' & m2 & E1' & E2' & E3' & W' & X1').
  destruct (history_snoc fx F _ (Get k') HF Hok2) as (l3 & m3 & a3 & m4 & E13 & E23 & _ & _ & X3).
  rewrite E1 in E1'. injection E1' as <- <-. rewrite E3' in E13. injection E13 as <- <-.
  destruct X1 as [_ Ha]. { destruct Hs as [|Hs]; [by left|right]. eapply unambiguous_incl; [|exact Hs]. intros x. rewrite !inserts_app. cbn. rewrite app_nil_r. intros. apply elem_of_app. by left. }
  destruct X3 as [_ Ha3]. { destruct Hs as [|Hs]; [by left|right]. eapply unambiguous_incl; [exact Hi|exact Hs]. }
  cbn in Ha, Ha3. rewrite map_content, lookup_empty in Ha, Ha3. rewrite inserts_app, last_value_app in Ha3. cbn in Ha3. rewrite decide_False in Ha3 by done.
  destruct W' as (old & -> & _). exists l, m, old, m2.
  cbn [call] in E2, E2', E23. rewrite VersionLaws.run_bind in E2. rewrite VersionLaws.run_bind in E2'. rewrite VersionLaws.run_bind in E23.
  destruct (run (get F k') m) as [[r1 n1]|] eqn:G1; [|done]. cbn in E2. injection E2 as <- <-.
  destruct (run (get F k') m2) as [[r2 n2]|] eqn:G2; [|done]. cbn in E23. injection E23 as <- <-.
  destruct (run (insert_gen fx F k v) m) as [[r3 n3]|] eqn:G3; [|done]. cbn in E2'. injection E2' as E2' <-.
  exists r1. split; [done|]. split; [destruct r3; [by injection E2' as ->|done]|].
  pose proof (ro_run _ (ro_get F k') _ _ _ G1) as ->. pose proof (ro_run _ (ro_get F k') _ _ _ G2) as ->. split; [done|]. congruence.
Qed.
(** ** C06 *)
Lemma weak_answered K mu c o a : weak K mu c o a -> answered o a.
Proof. destruct o; cbn; intros; destruct_and?; try (by subst); destruct H as (? & -> & _); done. Qed.
Lemma run_answered fx K F ops : 300 <= F -> forall B m mu c, Forall op_ok ops -> Forall (K_ok K) ops -> (B + costs ops < U32_MAX)%N -> Rel fx K B m mu c ->
  exists l m', run_calls (insert_gen fx) F ops m = Ok (l, m') /\ Forall2 answered ops l.
Proof.
  intros HF. induction ops as [|o ops IH]; intros B m mu c Hok HK HB HR; [exists [], m; done|].
  inversion Hok; subst. inversion HK; subst. cbn [costs foldr] in HB. fold (costs ops) in HB.
  destruct (wp_run _ _ _ (call_ok fx K B F o m mu c HF ltac:(done) ltac:(done) ltac:(lia) HR)) as (a & m1 & E1 & R1 & W1 & X1).
  destruct (IH (B + cost o)%N m1 _ _ ltac:(done) ltac:(done) ltac:(lia) R1) as (l & m2 & E2 & R2).
  exists (a :: l), m2. cbn [run_calls]. rewrite E1. cbn [res_bind]. rewrite E2. split; [done|]. constructor; [by eapply weak_answered|done].
Qed.
Lemma never_fails fx F ops : 300 <= F -> history_ok ops -> exists l m,
  run_calls (insert_gen fx) F ops tree_new = Ok (l, m) /\ Forall2 answered ops l.
Proof.
  intros HF [Hok HB]. rewrite key_bytes_costs in HB. eapply (run_answered fx (Kof ops) F ops HF 6144 tree_new ∅ 0); [done|apply Kof_ok|unfold U32_MAX; lia|apply rel_new].
Qed.
(** ** C08 *)
Lemma long_key F k v : 256 < length k -> get F k = Fail Panic /\ get_ref F k = Fail Panic /\ insert F k v = Fail Panic.
Proof. intros H. unfold get, get_ref, insert, insert_gen. by rewrite (key_new_none k H). Qed.
Lemma short_key F ops k v : 300 <= F -> history_ok (ops ++ [Insert k v]) ->
  exists l m old m' r, run_calls insert F ops tree_new = Ok (l, m) /\
    run (insert F k v) m = Ok (IOk old, m') /\ run (get F k) m = Ok (r, m).
Proof.
  intros HF Hok. assert (Hok1 : history_ok (ops ++ [Get k])).
  { destruct Hok as [H1 H2]. apply Forall_app in H1 as [H1 H3]. inversion H3; subst. rewrite key_bytes_app in H2. split; [apply Forall_app; split; [done|by constructor]|].
    rewrite key_bytes_app. cbn [key_bytes]. lia. }
  destruct (history_snoc false F ops (Get k) HF Hok1) as (l & m & a & m1 & E1 & E2 & _ & _ & _).
  destruct (history_snoc false F ops (Insert k v) HF Hok) as (l' & m' & a' & m2 & E1' & E2' & _ & W' & _).
  rewrite E1 in E1'. injection E1' as <- <-. destruct W' as (old & -> & _). exists l, m, old, m2.
  cbn [call] in E2, E2'. rewrite VersionLaws.run_bind in E2. rewrite VersionLaws.run_bind in E2'.
  destruct (run (get F k) m) as [[r1 n1]|] eqn:G1; [|done]. pose proof (ro_run _ (ro_get F k) _ _ _ G1) as ->. exists r1.
  split; [done|]. split; [|done]. change insert with (insert_gen false).
  destruct (run (insert_gen false F k v) m) as [[r3 n3]|] eqn:G3; [|done]. cbn in E2'. injection E2' as E2' <-.
  destruct r3; [by injection E2' as ->|done].
Qed.
(** ** C09 *)
Lemma lookups_read_only F k m r m' : run (get F k) m = Ok (r, m') \/ run (get_ref F k) m = Ok (r, m') -> m' = m.
Proof. intros [H|H]; [exact (ro_run _ (ro_get F k) _ _ _ H)|exact (ro_run _ (ro_get_ref F k) _ _ _ H)]. Qed.
Lemma thread_from_ro F ops : forall l, Forall lookup_call ops -> ro (thread_from F l ops).
Proof.
  induction ops as [|o ops IH]; intros l H; cbn; [constructor|]. inversion H as [|? ? H1 H2]; subst. destruct o as [|k|k| |]; try done; cbn [call].
  - apply ro_bind; [|intros; by apply IH]. apply ro_bind; [apply ro_get|intros; constructor].
  - apply ro_bind; [|intros; by apply IH]. apply ro_bind; [apply ro_get_ref|intros; constructor].
Qed.
Lemma exec_ro {M A} sched : forall (m : M) (ps : list (prog M A)), Forall ro ps ->
  (exec sched (m, ps)).1 = m /\ Forall ro (exec sched (m, ps)).2.
Proof.
  induction sched as [|i sched IH]; intros m ps H; [done|]. unfold exec. cbn [fold_left]. fold (exec sched (thread_step i (m, ps))).
  assert (X : (thread_step i (m, ps)).1 = m /\ Forall ro (thread_step i (m, ps)).2).
  { unfold thread_step. cbn [fst snd]. destruct (ps !! i) as [p|] eqn:Ei; [|done].
    pose proof (Forall_lookup_1 _ _ _ _ H Ei) as [a|e|R f k Hf Hk]; [done|done|].
    destruct (f m) as [[r m']|e] eqn:E; cbn [fst snd].
    - split; [by eapply Hf|by apply Forall_insert].
    - split; [done|]. apply Forall_insert; [done|constructor]. }
  destruct X as [X1 X2]. destruct (thread_step i (m, ps)) as [m1 ps1]. cbn in X1, X2. subst. by apply IH.
Qed.
Lemma concurrent_lookups_read_only F m ts sched :
  Forall (Forall lookup_call) ts -> (exec sched (start F m ts)).1 = m.
Proof.
  intros H. apply exec_ro. apply Forall_map. eapply Forall_impl; [exact H|]. intros ops Ho. by apply thread_from_ro.
Qed.
(** ** C10, under any schedule *)
Lemma peq_sym {M A} (p q : prog M A) : peq p q -> peq q p.
Proof. induction 1; by constructor. Qed.
Lemma call_peq F o o' : same_call o o' -> peq (call insert F o) (call insert F o').
Proof.
  intros [->|(k & -> & ->)]; [apply peq_refl|]. cbn [call]. apply peq_bind; [|intros; apply peq_refl]. apply peq_sym, get_ref_peq.
Qed.
Lemma thread_from_peq F ops ops' : Forall2 same_call ops ops' -> forall l, peq (thread_from F l ops) (thread_from F l ops').
Proof. induction 1; intros acc; cbn; [constructor|]. apply peq_bind; [by apply call_peq|auto]. Qed.
Lemma exec_peq {M A} sched : forall (m : M) (ps qs : list (prog M A)), Forall2 peq ps qs ->
  (exec sched (m, ps)).1 = (exec sched (m, qs)).1 /\ Forall2 peq (exec sched (m, ps)).2 (exec sched (m, qs)).2.
Proof.
  induction sched as [|i sched IH]; intros m ps qs H; [done|]. unfold exec. cbn [fold_left].
  fold (exec sched (thread_step i (m, ps))) (exec sched (thread_step i (m, qs))).
  assert (X : (thread_step i (m, ps)).1 = (thread_step i (m, qs)).1 /\ Forall2 peq (thread_step i (m, ps)).2 (thread_step i (m, qs)).2).
  { unfold thread_step. cbn [fst snd]. destruct (ps !! i) as [p|] eqn:Ei.
    - destruct (Forall2_lookup_l _ _ _ _ _ H Ei) as (q & -> & [a|e|R f k k' Hk]); try done.
      destruct (f m) as [[r m']|e]; cbn; (split; [done|]); apply Forall2_insert; try done. constructor.
    - assert (Hq : qs !! i = None) by (apply lookup_ge_None; rewrite <- (Forall2_length _ _ _ H); by apply lookup_ge_None). by rewrite Hq. }
  destruct X as [X1 X2]. destruct (thread_step i (m, ps)) as [m1 ps1], (thread_step i (m, qs)) as [m2 qs2]. cbn in X1, X2. subst. by apply IH.
Qed.
Lemma get_ref_agrees_concurrent F m ts ts' sched i l : Forall2 (Forall2 same_call) ts ts' ->
  finished (exec sched (start F m ts)) i l -> finished (exec sched (start F m ts')) i l.
Proof.
  intros H. unfold start, finished. 
  assert (X : Forall2 peq (map (thread F) ts) (map (thread F) ts')).
  { induction H; cbn; constructor; [by apply thread_from_peq|done]. }
  destruct (exec_peq sched m _ _ X) as [_ Y]. intros Hi. destruct (Forall2_lookup_l _ _ _ _ _ Y Hi) as (q & Hq & Hp). etransitivity; [exact Hq|]. inversion Hp; done.
Qed.

Lemma get_present F ops k v : 300 <= F -> history_ok (ops ++ [Get k]) -> unambiguous ops -> last_value k (inserts ops) = Some v ->
  exists m, reachable m /\ run (get F k) m = Ok (Some v, m).
Proof.
  intros HF Hok Hu Hv. destruct (history_snoc false F ops (Get k) HF Hok) as (l & m & a & m' & E1 & E2 & _ & _ & X).
  destruct X as [_ Ha].
  { right. eapply unambiguous_incl; [|exact Hu]. intros x. rewrite inserts_app. cbn. by rewrite app_nil_r. }
  cbn in Ha. rewrite map_content, Hv in Ha. exists m. split.
  - exists F, ops, l. split; [|exact E1]. destruct Hok as [Hok _]. by apply Forall_app in Hok as [? _].
  - cbn [call] in E2. rewrite VersionLaws.run_bind in E2. destruct (run (get F k) m) as [[r1 n1]|] eqn:G1; [|done].
    pose proof (ro_run _ (ro_get F k) _ _ _ G1) as ->. cbn in E2. congruence.
Qed.
(** ** deciding ambiguity *)
Definition ambb (k1 k2 : bytes) : bool := negb (bool_decide (k1 = k2)) &&
  existsb (fun d => bool_decide (take (8 * d) k1 = take (8 * d) k2) && bool_decide (slice k1 d = slice k2 d) &&
    (Nat.leb (length k1) (8 * d + 8) || Nat.leb (length k2) (8 * d + 8))) (seq 0 (S (length k1 + length k2))).
Lemma ambb_ok k1 k2 : ambb k1 k2 = false -> ~ ambiguous k1 k2.
Proof.
  unfold ambb. intros H [Hne (d & H1 & H2 & H3)]. rewrite bool_decide_false in H by done. cbn [negb andb] in H.
  destruct (decide (d < S (length k1 + length k2))) as [Hd|Hd].
  - apply not_true_iff_false in H. apply H. apply existsb_exists. exists d. split; [apply in_seq; lia|].
    rewrite !bool_decide_true by done. cbn [andb]. apply orb_true_iff. rewrite !Nat.leb_le. done.
  - apply Hne. rewrite !take_ge in H1 by lia. done.
Qed.
Definition unambb (ops : list op) : bool :=
  forallb (fun x => forallb (fun y => negb (ambb x.1 y.1)) (inserts ops)) (inserts ops).
Lemma unambb_ok ops : unambb ops = true -> unambiguous ops.
Proof.
  unfold unambb. intros H k1 k2 v1 v2 H1 H2. rewrite forallb_forall in H. specialize (H (k1, v1) ltac:(by apply elem_of_list_In)).
  rewrite forallb_forall in H. specialize (H (k2, v2) ltac:(by apply elem_of_list_In)). cbn in H. apply ambb_ok. by destruct (ambb k1 k2).
Qed.
