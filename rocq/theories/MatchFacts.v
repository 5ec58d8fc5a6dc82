(** Proofs for key matching and suffix compaction in a leaf (C59, C18) and the insert position
    of an internode (C23). *)
From Verif Require Import Base Perm SpecPerm PermFacts PermLaws Key SpecKey KeyFacts Suffix SpecSuffix SuffixFacts SpecSearch SearchFacts Prog Version Mem Tree TreeState TreePrim TreeInv TreeRead TreeSplit TreeLayer NodeMatch SpecNode NodeOps LeafOps SpecMatch.

Lemma entry_parts m l s ik kx sf v : entry_of m l s = Some (ik, kx, sf, v) ->
  l_ikey l !! s = Some ik /\ l_klx l !! s = Some kx /\ sf = suffix_of m l kx s.
Proof.
  unfold entry_of. destruct (l_ikey l !! s) as [a|]; [|done]. destruct (l_klx l !! s) as [b|]; [|done].
  destruct (l_val l !! s) as [c|]; [|done]. intros [= <- <- <- <-]. done.
Qed.
Lemma suffix_bag m l s x : bags m !! 0%N = None -> suffix_of m l 64 s = Some x ->
  l_ksuf l <> 0%N /\ exists b, bags m !! l_ksuf l = Some b /\ bag_get b s = Ok (Some x).
Proof.
  intros H0. unfold suffix_of. cbn [N.eqb Pos.eqb]. destruct (bags m !! l_ksuf l) as [b|] eqn:E; [|done].
  destruct (bag_get b s) as [o|] eqn:E2; [|done]. intros ->. split; [|by exists b]. intros Hz. rewrite Hz in E. congruence.
Qed.

Section Slot.
Context (m : mem) (p : N) (l : leaf) (Hp : heap m !! p = Some (NLeaf l)) (H0 : bags m !! 0%N = None).
Lemma mw_ld {R} (f : leaf -> option R) r (Q : R -> mem -> Prop) : f l = Some r -> Q r m -> wp (leaf_ld p f) m Q.
Proof. intros H HQ. eapply wp_atomic; [|exact HQ]. cbn beta. by rewrite Hp, H. Qed.
Lemma mw_bag_ld {R} b bg (f : bag -> res R) r (Q : R -> mem -> Prop) : bags m !! b = Some bg -> f bg = Ok r -> Q r m -> wp (bag_ld b f) m Q.
Proof. intros H1 H2 HQ. eapply wp_atomic; [|exact HQ]. cbn beta. by rewrite H1, H2. Qed.

Lemma mw_equals s x suf (Q : bool -> mem -> Prop) : l_klx l !! s = Some 64%N -> suffix_of m l 64 s = Some x ->
  Q (bool_decide (x = suf)) m -> wp (ksuf_equals p s suf) m Q.
Proof.
  intros Hk Hs HQ. destruct (suffix_bag _ _ _ _ H0 Hs) as (Hz & b & B1 & B2). unfold ksuf_equals.
  apply wp_bind. eapply mw_ld; [exact Hk|]. change (64 =? KSUF_KEYLENX)%N with true. cbn iota.
  apply wp_bind. eapply mw_ld; [done|]. destruct (N.eqb_spec (l_ksuf l) 0); [done|].
  eapply mw_bag_ld; [exact B1| |exact HQ]. unfold bag_equals. by rewrite B2.
Qed.

Lemma class_inl k : length k <= 8 -> length_class k = N.of_nat (length k).
Proof. intros H. unfold length_class. destruct (Nat.leb_spec (length k) 8); [done|lia]. Qed.
Lemma class_suf k : 8 < length k -> length_class k = 64%N.
Proof. intros H. unfold length_class. destruct (Nat.leb_spec (length k) 8); [lia|done]. Qed.
Lemma rest_nil k : rest k = [] <-> length k <= 8.
Proof.
  unfold rest. split; intros H.
  - apply (f_equal length) in H. rewrite drop_length in H. cbn in H. lia.
  - by apply drop_ge.
Qed.
Lemma key_eq k k0 : is_bytes k -> is_bytes k0 -> slice k 0 = slice k0 0 -> length k = length k0 -> rest k = rest k0 -> k = k0.
Proof.
  intros Hb Hb0 Hs Hl Hr. pose proof (slice_tail_inj k k0 0 Hb Hb0 ltac:(lia) ltac:(lia) Hs) as H.
  cbn [Nat.mul Nat.add] in H. rewrite !drop_0 in H. by apply H.
Qed.
Lemma holds_inl s k : holds_key m l s k -> length k <= 8 ->
  l_ikey l !! s = Some (slice k 0) /\ l_klx l !! s = Some (N.of_nat (length k)).
Proof.
  intros [v H] Hl. apply entry_parts in H as (H1 & H2 & _). rewrite class_inl in H2 by done. done.
Qed.
Lemma holds_suf s k : holds_key m l s k -> 8 < length k ->
  l_ikey l !! s = Some (slice k 0) /\ l_klx l !! s = Some 64%N /\ suffix_of m l 64 s = Some (rest k).
Proof.
  intros [v H] Hl. apply entry_parts in H as (H1 & H2 & H3). rewrite class_suf in H2, H3 by done.
  destruct (Nat.leb_spec (length k) 8); [lia|]. done.
Qed.
Lemma eq_rest k k0 : is_bytes k -> is_bytes k0 -> slice k 0 = slice k0 0 -> 8 < length k -> 8 < length k0 ->
  bool_decide (rest k0 = rest k) = bool_decide (k = k0).
Proof.
  intros Hb Hb0 Hs Hl Hl0. apply bool_decide_ext. split; [|by intros ->]. intros Hr. apply key_eq; [done|done|done| |done].
  apply (f_equal length) in Hr. unfold rest in Hr. rewrite !drop_length in Hr. lia.
Qed.

Lemma match_key s k0 k : is_bytes k -> is_bytes k0 -> holds_key m l s k0 -> slice k 0 = slice k0 0 ->
  run (ksuf_match_result p s (length_class k) (rest k)) m = Ok ((if bool_decide (k = k0) then 1 else 0)%Z, m).
Proof.
  intros Hb Hb0 Hh Hs.
  assert (HW : wp (ksuf_match_result p s (length_class k) (rest k)) m (fun r m' => m' = m /\ r = (if bool_decide (k = k0) then 1 else 0)%Z)).
  { unfold ksuf_match_result. destruct (decide (length k0 <= 8)) as [Hl|Hl].
    - destruct (holds_inl _ _ Hh Hl) as [H1 H2]. apply wp_bind. eapply mw_ld; [exact H2|].
      destruct (N.leb_spec LAYER_KEYLENX (N.of_nat (length k0))) as [Hx|_]; [unfold LAYER_KEYLENX in Hx; lia|].
      apply wp_bind. eapply mw_ld; [exact H2|].
      destruct (N.eqb_spec (N.of_nat (length k0)) KSUF_KEYLENX) as [Hx|_]; [unfold KSUF_KEYLENX in Hx; lia|]. cbn [negb].
      apply wp_ret. split; [done|]. destruct (decide (length k <= 8)) as [Hk|Hk].
      + rewrite (proj2 (rest_nil k) Hk), class_inl by done. rewrite andb_true_r.
        destruct (N.eqb_spec (N.of_nat (length k0)) (N.of_nat (length k))) as [He|He].
        * rewrite bool_decide_true; [done|]. apply key_eq; [done|done|done|lia|].
          by rewrite (proj2 (rest_nil k) Hk), (proj2 (rest_nil k0) Hl).
        * rewrite bool_decide_false; [done|]. intros ->. done.
      + rewrite bool_decide_false by (intros ->; done). rewrite class_suf by lia.
        destruct (N.eqb_spec (N.of_nat (length k0)) 64); [lia|]. done.
    - destruct (holds_suf _ _ Hh ltac:(lia)) as (H1 & H2 & H3). apply wp_bind. eapply mw_ld; [exact H2|].
      change (LAYER_KEYLENX <=? 64)%N with false. cbn iota. apply wp_bind. eapply mw_ld; [exact H2|].
      change (negb (64 =? KSUF_KEYLENX)%N) with false. cbn iota.
      destruct (decide (length k <= 8)) as [Hk|Hk].
      + rewrite (proj2 (rest_nil k) Hk). apply wp_ret. split; [done|]. rewrite bool_decide_false; [done|]. intros ->. done.
      + destruct (rest k) as [|x r] eqn:Er; [apply rest_nil in Er; lia|]. rewrite <- Er.
        apply wp_bind. eapply mw_equals; [exact H2|exact H3|]. apply wp_ret. split; [done|].
        by rewrite eq_rest by (done || lia). }
  apply wp_run in HW as (r & m' & -> & -> & ->). done.
Qed.
Lemma match_layer s kx suf : holds_layer m l s -> run (ksuf_match_result p s kx suf) m = Ok ((-8)%Z, m).
Proof.
  intros (ik & st & sf & v & H & Hge). apply entry_parts in H as (_ & H2 & _).
  assert (HW : wp (ksuf_match_result p s kx suf) m (fun r m' => m' = m /\ r = (-8)%Z)).
  { unfold ksuf_match_result. apply wp_bind. eapply mw_ld; [exact H2|].
    destruct (N.leb_spec LAYER_KEYLENX st) as [_|Hx]; [|unfold LAYER_KEYLENX in Hx; lia]. by apply wp_ret. }
  apply wp_run in HW as (r & m' & -> & -> & ->). done.
Qed.

(** a key with more than eight bytes *)
Lemma matches_long s k0 k : is_bytes k -> is_bytes k0 -> holds_key m l s k0 -> 8 < length k ->
  run (ksuf_matches p s (slice k 0) (rest k)) m = Ok (bool_decide (k = k0), m).
Proof.
  intros Hb Hb0 Hh Hk.
  assert (HW : wp (ksuf_matches p s (slice k 0) (rest k)) m (fun r m' => m' = m /\ r = bool_decide (k = k0))).
  { unfold ksuf_matches. destruct (rest k) as [|x r] eqn:Er; [apply rest_nil in Er; lia|]. rewrite <- Er.
    destruct (decide (length k0 <= 8)) as [Hl|Hl].
    - destruct (holds_inl _ _ Hh Hl) as [H1 H2]. apply wp_bind. eapply mw_ld; [exact H1|].
      rewrite bool_decide_false by (intros ->; lia).
      destruct (N.eqb_spec (slice k0 0) (slice k 0)); [|by apply wp_ret].
      unfold ksuf_equals. apply wp_bind. eapply mw_ld; [exact H2|].
      destruct (N.eqb_spec (N.of_nat (length k0)) KSUF_KEYLENX) as [Hx|_]; [unfold KSUF_KEYLENX in Hx; lia|]. by apply wp_ret.
    - destruct (holds_suf _ _ Hh ltac:(lia)) as (H1 & H2 & H3). apply wp_bind. eapply mw_ld; [exact H1|].
      destruct (N.eqb_spec (slice k0 0) (slice k 0)) as [E|E].
      + eapply mw_equals; [exact H2|exact H3|]. split; [done|]. by rewrite eq_rest by (done || lia).
      + apply wp_ret. split; [done|]. rewrite bool_decide_false; [done|]. intros ->. done. }
  apply wp_run in HW as (r & m' & -> & -> & ->). done.
Qed.
(** a key of at most eight bytes: only the slice and the absence of a suffix are looked at *)
Lemma matches_short s k0 k : is_bytes k -> is_bytes k0 -> holds_key m l s k0 -> length k <= 8 ->
  run (ksuf_matches p s (slice k 0) (rest k)) m = Ok (bool_decide (slice k 0 = slice k0 0 /\ length k0 <= 8), m).
Proof.
  intros Hb Hb0 Hh Hk.
  assert (HW : wp (ksuf_matches p s (slice k 0) (rest k)) m (fun r m' => m' = m /\ r = bool_decide (slice k 0 = slice k0 0 /\ length k0 <= 8))).
  { unfold ksuf_matches. rewrite (proj2 (rest_nil k) Hk).
    destruct (decide (length k0 <= 8)) as [Hl|Hl].
    - destruct (holds_inl _ _ Hh Hl) as [H1 H2]. apply wp_bind. eapply mw_ld; [exact H1|].
      destruct (N.eqb_spec (slice k0 0) (slice k 0)) as [E|E].
      + apply wp_bind. eapply mw_ld; [exact H2|]. apply wp_ret. split; [done|]. rewrite bool_decide_true by done.
        destruct (N.eqb_spec (N.of_nat (length k0)) KSUF_KEYLENX) as [Hx|_]; [unfold KSUF_KEYLENX in Hx; lia|]. done.
      + apply wp_ret. split; [done|]. rewrite bool_decide_false; [done|]. intros [? _]. congruence.
    - destruct (holds_suf _ _ Hh ltac:(lia)) as (H1 & H2 & H3). rewrite bool_decide_false by lia.
      apply wp_bind. eapply mw_ld; [exact H1|]. destruct (N.eqb_spec (slice k0 0) (slice k 0)) as [E|E].
      + apply wp_bind. eapply mw_ld; [exact H2|]. by apply wp_ret.
      + by apply wp_ret. }
  apply wp_run in HW as (r & m' & -> & -> & ->). done.
Qed.
Lemma compare_key_suf s k0 suf : holds_key m l s k0 ->
  run (ksuf_compare p s suf) m = Ok (if Nat.leb (length k0) 8 then None else Some (lex (rest k0) suf), m).
Proof.
  intros Hh.
  assert (HW : wp (ksuf_compare p s suf) m (fun r m' => m' = m /\ r = if Nat.leb (length k0) 8 then None else Some (lex (rest k0) suf))).
  { unfold ksuf_compare. destruct (Nat.leb_spec (length k0) 8) as [Hl|Hl].
    - destruct (holds_inl _ _ Hh Hl) as [H1 H2]. apply wp_bind. eapply mw_ld; [exact H2|].
      destruct (N.eqb_spec (N.of_nat (length k0)) KSUF_KEYLENX) as [Hx|_]; [unfold KSUF_KEYLENX in Hx; lia|]. by apply wp_ret.
    - destruct (holds_suf _ _ Hh ltac:(lia)) as (H1 & H2 & H3). destruct (suffix_bag _ _ _ _ H0 H3) as (Hz & b & B1 & B2).
      apply wp_bind. eapply mw_ld; [exact H2|]. change (64 =? KSUF_KEYLENX)%N with true. cbn iota.
      apply wp_bind. eapply mw_ld; [done|]. destruct (N.eqb_spec (l_ksuf l) 0); [done|].
      eapply mw_bag_ld; [exact B1| |]; [unfold bag_compare; by rewrite B2|]. cbn. by rewrite bytes_cmp_lex. }
  apply wp_run in HW as (r & m' & -> & -> & ->). done.
Qed.
End Slot.

(** ** compaction *)
Lemma bag_run_app ops1 : forall b m b' m' ops2, bag_run b m ops1 = Ok (b', m') -> bag_run b m (ops1 ++ ops2) = bag_run b' m' ops2.
Proof.
  induction ops1 as [|o ops1 IH]; intros b m b' m' ops2; cbn [bag_run app]; [by intros [= -> ->]|].
  destruct (bag_run1 b o) as [[ok b1]|]; [|done]. apply IH.
Qed.
Lemma bytes_app a b : bytes_written (a ++ b) = (bytes_written a + bytes_written b)%N.
Proof.
  unfold bytes_written. rewrite map_app, fold_right_app. induction a as [|o a IH]; cbn [map fold_right]; [lia|]. rewrite IH. lia.
Qed.
Lemma stored_run m l s b cap ops mm : bags m !! l_ksuf l = Some b -> Forall (op_in_range 24) ops -> (bytes_written ops < 2 ^ 32 - 1)%N ->
  bag_run (bag_with_capacity 24 cap) (fun _ => None) ops = Ok (b, mm) -> s < 24 -> stored m l s = mm s.
Proof.
  intros Hb Ho Hn Hr Hs. destruct (faithful 24 cap ops Ho Hn) as (b1 & m1 & E & HG). rewrite Hr in E. injection E as <- <-.
  unfold stored, suffix_of. cbn [N.eqb Pos.eqb]. by rewrite Hb, (HG s Hs).
Qed.

(** the live suffixes occupy disjoint parts of the buffer *)
Lemma spans_nodup (sp : nat -> list nat) (act : list nat) : NoDup act -> (forall s, NoDup (sp s)) ->
  (forall s t x, s <> t -> x ∈ sp s -> x ∉ sp t) -> NoDup (concat (map sp act)).
Proof.
  intros Hnd Hs Hd. induction Hnd as [|s act Hin Hnd IH]; cbn [map concat]; [constructor|]. apply NoDup_app. split; [done|]. split; [|done].
  intros x Hx Hc. apply elem_of_list_In, in_concat in Hc as (y & Hy & Hxy). apply in_map_iff in Hy as (t & <- & Ht).
  apply elem_of_list_In in Hxy, Ht. eapply (Hd s t x); [|done|done]. intros ->. done.
Qed.
Lemma live_fits w bound b m act : bag_inv w bound b m -> NoDup act -> sum_list (map (live_len b) act) <= bag_used b.
Proof.
  intros HI Hnd.
  pose (sp := fun s => match b_slots b !! s with Some me => if meta_has me then seq (N.to_nat (m_off me)) (m_len me) else [] | None => [] end).
  assert (Hsum : forall l, sum_list (map (live_len b) l) = length (concat (map sp l))).
  { induction l as [|s l IH]; [done|]. cbn [map concat]. rewrite sum_cons, app_length, IH. f_equal. unfold live_len, sp.
    destruct (b_slots b !! s) as [me|]; [|done]. destruct (meta_has me); [|done]. by rewrite seq_length. }
  rewrite Hsum. unfold bag_used. rewrite <- (seq_length (length (b_data b)) 0). apply NoDup_incl_length.
  - apply NoDup_ListNoDup, spans_nodup; [done| |].
    + intros s. unfold sp. destruct (b_slots b !! s) as [me|]; [|constructor]. destruct (meta_has me); [apply NoDup_seq|constructor].
    + intros s t x Hst. unfold sp. destruct (b_slots b !! s) as [me|] eqn:E1; [|by intros ?%not_elem_of_nil].
      destruct (meta_has me) eqn:F1; [|by intros ?%not_elem_of_nil]. destruct (b_slots b !! t) as [mt|] eqn:E2; [|by intros _ ?%not_elem_of_nil].
      destruct (meta_has mt) eqn:F2; [|by intros _ ?%not_elem_of_nil]. rewrite !elem_of_seq.
      pose proof (bi_disj _ _ _ _ HI s t me mt Hst E1 E2 F1 F2). lia.
  - intros x Hx. apply in_concat in Hx as (y & Hy & Hxy). apply in_map_iff in Hy as (s & <- & _). unfold sp in Hxy.
    destruct (b_slots b !! s) as [me|] eqn:E1; [|done]. destruct (meta_has me) eqn:F1; [|done].
    apply in_seq in Hxy. apply in_seq. pose proof (bi_slot _ _ _ _ HI s me E1) as H. rewrite F1 in H. lia.
Qed.

Lemma compact_leaf m p l exclude : heap m !! p = Some (NLeaf l) -> is_leaf_node m l -> allocator_fresh m -> l_ksuf l <> 0%N ->
  exists n m' b b', let l' := with_ksuf (nxt m) l in run (compact_ksuf p exclude) m = Ok (n, m') /\
    heap m' = <[p := NLeaf l']> (heap m) /\ is_leaf_node m' l' /\
    (forall s, s < 24 -> stored m' l' s =
       if bool_decide (s ∈ active P24 (l_perm l) /\ exclude <> Some s) then stored m l s else None) /\
    bags m !! l_ksuf l = Some b /\ bags m' !! l_ksuf l' = Some b' /\ bag_used b = n + bag_used b' /\
    bag_used b' = sum_list (map (fun s => match stored m l s with Some x => length x | None => 0 end)
                     (filter (fun s => exclude <> Some s) (active P24 (l_perm l)))) /\
    (forall a, a <> nxt m -> bags m' !! a = bags m !! a) /\
    vals m' = vals m /\ retired m' = GBag (l_ksuf l) :: retired m.
Proof.
  intros Hp Hl Hf Hz. pose proof Hl as (L1 & L2 & L3 & L4 & [?|(b & cap & ops & mm & B1 & B2 & B3 & B4)]); [done|].
  pose proof (proj1 (perm_word_wf _ _) L4) as Hw.
  pose proof (ids_active _ Hw) as Hia.
  assert (Hnd : NoDup (active P24 (l_perm l))) by (rewrite <- Hia; by apply ids_nodup).
  assert (Hlt : forall s, s ∈ active P24 (l_perm l) -> s < 24) by (intros s Hs; rewrite <- Hia in Hs; by eapply ids_lt).
  set (act := filter (fun s => Some s <> exclude) (active P24 (l_perm l))).
  assert (Hact : filter (fun s => exclude <> Some s) (active P24 (l_perm l)) = act).
  { unfold act. apply list_filter_iff. intros x. split; congruence. }
  pose proof (bag_run_app _ _ _ _ _ [BClone] B4) as B5. cbn [bag_run bag_run1 smap_run1] in B5.
  assert (O5 : Forall (op_in_range 24) (ops ++ [BClone])) by (apply Forall_app; split; [done|by repeat constructor]).
  assert (N5 : (bytes_written (ops ++ [BClone]) < 2 ^ 32 - 1)%N) by (rewrite bytes_app; change (bytes_written [BClone]) with 0%N; lia).
  assert (Hnda : NoDup act) by (by apply NoDup_filter).
  destruct (compact_faithful 24 cap _ act O5 N5 Hnda _ _ B5) as (b' & C1 & C2 & C3).
  assert (Hst : forall s, s < 24 -> stored m l s = mm s) by (intros s Hs; exact (stored_run m l s b cap ops mm B1 B2 B3 B4 Hs)).
  exists (bag_used (bag_clone b) - bag_used b').
  set (m' := mwith_retired (GBag (l_ksuf l) :: retired m)
     (mwith_heap (<[p := NLeaf (with_ksuf (nxt m) l)]> (heap m)) (mwith_nxt (nxt m + 2) (mwith_bags (<[nxt m := b']> (bags m)) m)))).
  exists m', b, b'. cbv zeta.
  assert (HW : wp (compact_ksuf p exclude) m (fun r m2 => m2 = m' /\ r = bag_used (bag_clone b) - bag_used b')).
  { unfold compact_ksuf. apply wp_bind. eapply mw_ld; [exact Hp|done|]. destruct (N.eqb_spec (l_ksuf l) 0); [done|].
    apply wp_bind. eapply mw_ld; [exact Hp|done|]. apply wp_bind.
    eapply mw_bag_ld; [exact B1|unfold bag_compact_with; rewrite Hia; exact C1|].
    apply wp_bind. eapply wp_atomic; [done|]. cbn [snd fst].
    apply wp_bind. eapply wp_atomic; [cbn; rewrite Hp; done|].
    apply wp_bind. eapply wp_atomic; [done|]. by apply wp_ret. }
  assert (Hu : bag_used b' <= bag_used b).
  { destruct (run_inv 24 ops 0 _ _ (bag_new_inv 24 cap 0) B2) as (b1 & m1 & E1 & E2); [done|]. rewrite B4 in E1. injection E1 as <- <-.
    pose proof (live_fits _ _ _ _ act E2 Hnda) as HL. rewrite C3. etrans; [|exact HL]. apply Nat.eq_le_incl. f_equal.
    apply map_ext. intros s. symmetry. by eapply live_len_get. }
  apply wp_run in HW as (r & m2 & -> & -> & ->). split; [done|]. split; [done|].
  assert (Hb' : bags m' !! nxt m = Some b') by apply lookup_insert.
  pose proof (bag_run_app _ _ _ _ _ [BClone; BCompact act] B4) as B6. cbn [bag_run bag_run1 smap_run1] in B6.
  rewrite C1 in B6. cbn [res_bind snd] in B6.
  assert (O6 : Forall (op_in_range 24) (ops ++ [BClone; BCompact act])) by (apply Forall_app; split; [done|]; repeat constructor; done).
  assert (N6 : (bytes_written (ops ++ [BClone; BCompact act]) < 2 ^ 32 - 1)%N) by (rewrite bytes_app; change (bytes_written [BClone; BCompact act]) with 0%N; lia).
  split; [|split; [|split; [done|split; [exact Hb'|split; [unfold bag_used in *; cbn [bag_clone b_data]; lia|split; [|split; [|done]]]]]]].
  - split; [done|]. split; [done|]. split; [done|]. split; [done|]. right.
    exists b', cap, (ops ++ [BClone; BCompact act]). eexists. split; [exact Hb'|]. split; [exact O6|]. split; [exact N6|]. exact B6.
  - intros s Hs. rewrite (Hst s Hs). unfold stored, suffix_of. cbn [N.eqb Pos.eqb]. change (l_ksuf (with_ksuf (nxt m) l)) with (nxt m).
    rewrite Hb', (C2 s Hs). apply if_bd. unfold act. rewrite elem_of_list_filter. split; intros [? ?]; (split; [done|congruence]).
  - rewrite C3, Hact. f_equal. apply map_ext_in. intros s Hs. rewrite Hst; [done|]. apply Hlt.
    apply elem_of_list_In in Hs. unfold act in Hs. by apply elem_of_list_filter in Hs as [_ ?].
  - intros a Ha. change (bags m') with (<[nxt m := b']> (bags m)). by rewrite lookup_insert_ne.
Qed.

(** ** the insert position of an internode *)
Lemma insert_pos m p i x : heap m !! p = Some (NInode i) -> is_internode i -> forall fuel l r,
  l <= r <= i_nkeys i -> r - l <= fuel ->
  (forall t a, t < l -> separators i !! t = Some a -> (a < x)%N) ->
  (forall t a, r <= t -> separators i !! t = Some a -> (x <= a)%N) ->
  wp (insert_position_loop fuel p x l r) m (fun c m' => m' = m /\ c = n_below (separators i) x).
Proof.
  intros Hm Hi. pose proof (sep_len i Hi) as Hl. pose proof Hi as (L1 & L2 & L3 & Hasc).
  induction fuel as [|fuel IH]; intros l r Hlr Hf Hlo Hhi; cbn [insert_position_loop]; destruct (Nat.ltb_spec l r) as [Hlt|Hge]; try lia.
  1,3: apply wp_ret; split; [done|]; assert (l = r) as <- by lia; symmetry; apply n_below_cut; [done|lia|done|done].
  pose proof (Nat.div_lt_upper_bound (l + r) 2 r ltac:(lia) ltac:(lia)) as D1.
  pose proof (Nat.div_le_lower_bound (l + r) 2 l ltac:(lia) ltac:(lia)) as D2.
  set (md := (l + r) / 2) in *. cbv zeta.
  destruct (lookup_lt_is_Some_2 (i_keys i) md) as [a Ha]; [lia|].
  assert (Hs : separators i !! md = Some a) by (unfold separators; rewrite lookup_take by lia; done).
  apply wp_bind. eapply wp_atomic; [cbn beta; rewrite Hm, Ha; done|].
  destruct (N.ltb_spec a x) as [Hc|Hc].
  - apply IH; [lia|lia| |done]. intros t b Ht Hb. destruct (decide (t = md)) as [->|]; [assert (a = b) by congruence; lia|].
    pose proof (Hasc t md b a ltac:(lia) Hb Hs). lia.
  - apply IH; [lia|lia|done|]. intros t b Ht Hb. destruct (decide (t = md)) as [->|]; [assert (a = b) by congruence; lia|].
    pose proof (Hasc md t a b ltac:(lia) Hs Hb). lia.
Qed.
Lemma insert_position m p i x : heap m !! p = Some (NInode i) -> is_internode i ->
  run (find_insert_position p x) m = Ok (n_below (separators i) x, m) /\
  forall j a, separators i !! j = Some a -> run (compare_key p x j) m = Ok ((x ?= a)%N, m).
Proof.
  intros Hm Hi. split.
  - assert (HW : wp (find_insert_position p x) m (fun c m' => m' = m /\ c = n_below (separators i) x)).
    { unfold find_insert_position. apply wp_bind. eapply wp_atomic; [cbn beta; rewrite Hm; done|].
      eapply insert_pos; [done|done|lia|lia|lia|]. intros t a Ht Ha. apply lookup_lt_Some in Ha. rewrite (sep_len i Hi) in Ha. lia. }
    apply wp_run in HW as (c & m' & -> & -> & ->). done.
  - intros j a Ha. unfold separators in Ha. apply lookup_take_Some in Ha as [Ha _].
    unfold compare_key, inode_ikey, inode_ld. cbn. by rewrite Hm, Ha.
Qed.
Lemma compact_entries m p l exclude : heap m !! p = Some (NLeaf l) -> is_leaf_node m l -> allocator_fresh m ->
  (forall s, exclude = Some s -> s ∉ active P24 (l_perm l)) ->
  exists n m', run (compact_ksuf p exclude) m = Ok (n, m') /\ entries m' p = entries m p.
Proof.
  intros Hp Hl Hf Hex. destruct (decide (l_ksuf l = 0%N)) as [Hz|Hz].
  - exists 0, m. split; [|done]. unfold compact_ksuf, ksuf_ptr, leaf_ld. cbn. by rewrite Hp, Hz.
  - destruct (compact_leaf m p l exclude Hp Hl Hf Hz) as (n & m' & b & b' & E & H1 & _ & H3 & _). cbv zeta in *.
    exists n, m'. split; [done|]. unfold entries. rewrite H1, lookup_insert, Hp. change (l_perm (with_ksuf (nxt m) l)) with (l_perm l).
    pose proof Hl as (L1 & L2 & L3 & L4 & _). pose proof (proj1 (perm_word_wf _ _) L4) as Hw.
    assert (Hlt : forall s, s ∈ active P24 (l_perm l) -> s < 24) by (intros s Hs; rewrite <- (ids_active _ Hw) in Hs; by eapply ids_lt).
    assert (HE : forall s, s ∈ active P24 (l_perm l) -> entry_of m' (with_ksuf (nxt m) l) s = entry_of m l s).
    { intros s Hs. unfold entry_of. cbn [with_ksuf l_ikey l_klx l_val]. destruct (l_ikey l !! s), (l_klx l !! s) as [kx|], (l_val l !! s); try done.
      do 3 f_equal. unfold suffix_of. destruct (N.eqb_spec kx 64) as [->|]; [|done]. pose proof (H3 s (Hlt s Hs)) as H.
      unfold stored, suffix_of in H. cbn [N.eqb Pos.eqb] in H. rewrite H. rewrite bool_decide_true; [done|]. split; [done|].
      intros Hx. by apply (Hex s). }
    revert HE. generalize (active P24 (l_perm l)). clear. intros act HE. induction act as [|s act IH]; [done|].
    cbn [omap list_omap]. rewrite HE by left. rewrite IH; [done|]. intros t Ht. apply HE. by right.
Qed.

Lemma perm_empty_wf : p_wf P24 perm_empty.
Proof. assert (perm_empty = perm_make_sorted 0) as -> by (by vm_compute). apply sorted_ids. lia. Qed.
(** ** moving everything to the new leaf (leaf24.rs:1355-1414), after [LeafOps.split_entries] *)
Lemma split_all_entries F m p q l : 0 < F -> p <> q ->
  heap m !! p = Some (NLeaf l) -> heap m !! q = Some (NLeaf leaf_new) ->
  is_leaf_node m l -> allocator_fresh m -> v_is_locked (l_ver l) = true -> v_is_splitting (l_ver l) = true ->
  entries m p <> [] ->
  exists sk m', run (split_all_to_right F p q) m = Ok (sk, m') /\
    entries m' p = [] /\ entries m' q = entries m p /\
    (exists e, entries m p !! 0 = Some e /\ e.1.1.1 = sk) /\ run (ikey_bound q) m' = Ok (sk, m') /\
    (forall a, a <> p -> a <> q -> heap m' !! a = heap m !! a) /\ vals m' = vals m.
Proof.
  intros HF Hne Hp Hq Hl Hfr Hlk Hsp Hpos0. destruct (leaf_slots m l Hl) as (L & HR & Hw & Hsf).
  assert (Hent : entries m p = map eform (es L)) by exact (entries_es m p l L Hp HR (proj1 (proj2 Hfr)) Hw).
  assert (Hes : length (es L) = perm_size (lb_perm L)) by apply es_size.
  assert (Hids : length (ids L) = perm_size (lb_perm L)) by apply ids_len.
  pose proof (ids_size _ Hw) as H24. change (active_slots (lb_perm L)) with (ids L) in H24.
  assert (Hpos : 0 < perm_size (lb_perm L)).
  { rewrite Hent in Hpos0. rewrite <- Hes. destruct (es L); [done|cbn; lia]. }
  pose proof (lr_len _ _ _ HR) as Hsl24.
  assert (HQ0 : leaf_rel (bags m) leaf_new (mk_lbody perm_empty (rslots L 0 0) 0 0 0 0)).
  { split; try done. unfold bag_rel. rewrite decide_True by done. intros i x Hx. unfold rslots in Hx. cbn [take app lb_sl] in Hx.
    apply lookup_replicate in Hx as [-> _]. done. }
  assert (HV0 : LV m m p q (l_ver l) (l_ver leaf_new) L (mk_lbody perm_empty (rslots L 0 0) 0 0 0 0)).
  { split; try done; eauto. }
  assert (wp (split_all_to_right F p q) m (fun sk m' =>
    entries m' p = [] /\ entries m' q = entries m p /\
    (exists e, entries m p !! 0 = Some e /\ e.1.1.1 = sk) /\ run (ikey_bound q) m' = Ok (sk, m') /\
    (forall a, a <> p -> a <> q -> heap m' !! a = heap m !! a) /\ vals m' = vals m)) as HW.
  { unfold split_all_to_right.
    apply wp_bind. eapply lw_version; [exact HV0|]. rewrite Hlk.
    apply wp_bind. eapply lw_ver; [|apply LV_sym, HV0|]; [done|]. intros m1 H1. apply LV_sym in H1.
    apply wp_bind. unfold freeze_permutation.
    apply wp_bind. eapply lw_flag; [exact H1|]. apply wp_bind. eapply lw_flag; [exact H1|]. rewrite Hlk, Hsp. cbn [andb].
    destruct F as [|F]; [lia|]. cbn [freeze_loop]. apply wp_bind. eapply lw_perm; [exact H1|].
    rewrite (ids_not_frozen _ Hw). apply wp_bind. eapply lw_cas_perm; [exact Hne|exact H1|]. intros m2 H2. apply wp_ret.
    cbv zeta. destruct (Nat.ltb_spec 0 (perm_size (lb_perm L))); [|lia].
    apply wp_bind. eapply (wp_for_seq (lmoving m p q (l_ver l) (v_new_for_split (l_ver l)) L (freeze_raw (lb_perm L)) 0) _ _ 0).
    - exists (lb_sl L), (lb_bg L), 0%N, 0%N. split; [exact H2|]. split; [|lia]. done.
    - intros i m' Hi HJ. eapply lw_move_entry; [done|done|done|done|lia|lia|exact HJ].
    - intros m3 (slp & bgp & bgq & bud & H3 & [Hlen Hleft] & Hbud). cbn [Nat.add] in *. set (k := perm_size (lb_perm L)) in *.
      apply wp_bind. eapply lw_set_perm; [|apply LV_sym, H3|]; [done|]. intros m4 H4. unfold updp in H4. cbn in H4.
      apply wp_bind. eapply lw_set_perm; [|apply LV_sym, H4|]; [done|]. intros m5 H5. unfold updp in H5. cbn in H5.
      destruct (sorted_ids k ltac:(lia)) as [Hws Hss].
      assert (Er : rslots L 0 k = map norm_sf (es L) ++ replicate (24 - k) slot0).
      { unfold rslots. f_equal. rewrite drop_0. apply take_ge. rewrite map_length. lia. }
      destruct (lookup_lt_is_Some_2 (es L) 0) as [e He]; [lia|].
      assert (Hq0 : rslots L 0 k !! 0 = Some (norm_sf e)).
      { rewrite Er. rewrite lookup_app_l by (rewrite map_length; lia).
        change (map norm_sf (es L)) with (norm_sf <$> es L). by rewrite list_lookup_fmap, He. }
      assert (E0 : perm_get (perm_make_sorted k) 0 = 0).
      { assert (Hx : active_slots (perm_make_sorted k) !! 0 = Some 0) by (rewrite Hss; apply lookup_seq; lia).
        unfold active_slots in Hx. rewrite list_lookup_fmap in Hx. destruct (seq 0 (perm_size (perm_make_sorted k)) !! 0) eqn:E; [|done].
        apply lookup_seq in E as [-> _]. by injection Hx. }
      rewrite E0. eapply lw_ikey; [apply LV_sym, H5|exact Hq0|]. cbn [s_ik norm_sf].
      pose proof H5 as [(lp & P1 & P2 & P3) (lq & Q1 & Q2 & Q3) _ (F1 & F2 & F3) Ho Hva].
      ands.
      + rewrite (entries_es m5 p lp _ P1 P3 F2 perm_empty_wf). unfold es, ids. cbn [lb_perm]. done.
      + rewrite (entries_es m5 q lq _ Q1 Q3 F2 Hws), Hent.
        assert (map eform (es L) = map eform (map norm_sf (es L))) as ->.
        { rewrite map_map. apply map_ext. intros z. by rewrite eform_norm. }
        f_equal. unfold es at 1, ids. cbn [lb_perm]. rewrite Hss. apply list_eq. intros i.
        change (map ?f ?q) with (f <$> q). rewrite list_lookup_fmap. destruct (decide (i < k)) as [Hik|Hik].
        * rewrite lookup_seq_lt by done. cbn. unfold ent. cbn [lb_sl].
          destruct (lookup_lt_is_Some_2 (norm_sf <$> es L) i) as [z Hz]; [rewrite fmap_length; lia|].
          rewrite Hz. f_equal. apply nth_lookup_Some. rewrite Er. change (map norm_sf (es L)) with (norm_sf <$> es L). by apply lookup_app_l_Some.
        * rewrite (lookup_ge_None_2 (seq 0 k)) by (rewrite seq_length; lia). cbn. symmetry. apply lookup_ge_None. rewrite fmap_length. lia.
      + exists (eform e). rewrite Hent. change (map eform (es L)) with (eform <$> es L). rewrite list_lookup_fmap, He. done.
      + assert (wp (ikey_bound q) m5 (fun r m' => r = s_ik e /\ m' = m5)) as Hb by (eapply lw_ikey; [apply LV_sym, H5|exact Hq0|]; done).
        apply wp_run in Hb as (r & m6 & E & -> & ->). exact E.
      + exact Ho.
      + exact Hva. }
  apply wp_run in HW as (sk & m' & E & HH). eauto 10.
Qed.

