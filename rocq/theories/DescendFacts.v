(** The descents without validation end at the leaf of the validated one. *)
From Verif Require Import Base Perm Search SearchFacts Prog Version VersionLaws Mem Tree TreeState TreePrim TreeInv TreeRead SpecTree SpecHist SpecShape TreeShape Descend.

Section Descend.
Context (K : bytes -> N -> Prop) (B : N) (m : mem) (s : ast).
Context (HS : St m s) (HI : Inv K B s 0 0) (HF : free_but [] (sA s)).
Local Notation A := (sA s).
Local Notation SA := (skels (sA s)).
Local Notation I := (iv_s _ _ _ _ _ HI).

Lemma run_wp {X} (p : P X) r : wp p m (fun r' m' => r' = r /\ m' = m) -> run p m = Ok (r, m).
Proof. intros H. apply wp_run in H as (r' & m' & E & -> & ->). exact E. Qed.
(** one step down *)
Lemma step_down p g md rt pa J ik : A !! p = Some (ND g md rt pa J) -> (g_lo g <= ik <= g_hi g)%N ->
  exists ci c cn, run (upper_bound_internode p ik) m = Ok (ci, m) /\ run (child p ci) m = Ok (c, m) /\ A !! c = Some cn /\
    c <> 0%N /\ lvl (skel cn) = ib_ht J /\ g_lid (a_gh cn) = g_lid g /\ (g_lo (a_gh cn) <= ik <= g_hi (a_gh cn))%N.
Proof.
  intros Hp Hik. pose proof (si_inode _ _ _ _ I p _ J (skels_lookup _ _ _ Hp) eq_refl) as HJ.
  assert (W : wp (upper_bound_internode p ik) m (fun ci m' => m' = m /\ ci <= ib_nk J /\
    (forall x, bnds g J !! ci = Some x -> x <= ik)%N /\ (forall x, bnds g J !! (ci + 1)%nat = Some x -> ik <= x)%N)).
  { unfold upper_bound_internode. apply wp_bind. eapply wp_nkeys; [done|done|].
    eapply (wp_ub_loop K B m s HS HI); [done|lia|lia|lia|..].
    { intros x Hx. rewrite bnds_0 in Hx. injection Hx as <-. lia. }
    { intros x Hx. rewrite bnds_last in Hx by (destruct HJ; lia). injection Hx as <-. lia. }
    intros ci Hci Hl Hu. done. }
  apply wp_run in W as (ci & m' & E & -> & Hci & Hl & Hu).
  destruct (kid_at _ _ _ _ I p _ J ci (skels_lookup _ _ _ Hp) eq_refl Hci) as (c & cn & _ & Hc & _ & Hcn & C1 & C2 & C3 & C4 & C5).
  pose proof (hi_xh K B m s HS HI _ _ Hcn) as Hxh. apply skels_some in Hcn as (a & Ha & ->).
  exists ci, c, a. split; [done|]. split; [apply run_wp; eapply wp_child; [done|done|exact Hc|done]|]. split; [done|].
  split; [by eapply (TreeRead.nz m s HS)|]. split; [exact C3|]. split; [exact C2|]. specialize (Hl _ C4). specialize (Hu _ C5). rewrite Hxh in Hu. split; [exact Hl|exact Hu].
Qed.
Lemma flag_leaf p pn : A !! p = Some pn -> run (flag p v_is_leaf) m = Ok (is_leafb (a_bd pn), m).
Proof. intros Hp. destruct pn as [g md rt pa b]. apply run_wp. eapply wp_flag_leaf; [done|done|done]. Qed.
Lemma children_leaves p g md rt pa J : A !! p = Some (ND g md rt pa J) -> run (children_are_leaves p) m = Ok (Nat.eqb (ib_ht J) 0, m).
Proof. intros Hp. apply run_wp. unfold children_are_leaves. apply wp_bind. eapply wp_height; [done|done|]. by apply wp_ret. Qed.

Lemma descents_below F st ik : 0 < F -> forall n p g md rt pa J, A !! p = Some (ND g md rt pa J) -> S (ib_ht J) <= n ->
  (g_lo g <= ik <= g_hi g)%N ->
  exists q, lands s (g_lid g) ik q /\ (forall n', S n <= n' -> run (reach_leaf F n' st p ik) m = Ok (q, m)) /\
    (forall n', n <= n' -> run (reach_via_internode n' p ik) m = Ok (q, m)) /\
    (forall n', n <= n' -> run (reach_mut_iterative n' p ik) m = Ok (q, m)).
Proof.
  intros HF0. induction n as [|n IH]; intros p g md rt pa J Hp Hn Hik; [lia|].
  destruct (step_down p g md rt pa J ik Hp Hik) as (ci & c & cn & E1 & E2 & Hc & Hz & Hlv & Hlid & Hcik).
  pose proof (free s HF _ _ Hp) as Hfr. cbn in Hfr. subst md.
  assert (Hst : forall n' q, run (reach_leaf F n' st c ik) m = Ok (q, m) -> run (reach_leaf F (S n') st p ik) m = Ok (q, m)).
  { intros n' q Hq. cbn [reach_leaf]. apply run_wp. apply wp_bind. eapply wp_stable; [done|done|done|done|]. intros v Hv _. apply wp_bind.
    eapply wp_flag_leaf; [done|done|]. cbn [is_leafb a_bd]. apply wp_bind. unfold wp. rewrite E1, run_bind, E2.
    destruct (N.eqb_spec c 0); [done|]. rewrite run_bind.
    assert (Hch : run (has_changed p v) m = Ok (false, m)) by (apply run_wp; eapply wp_has_changed; [exact Hv|done]).
    rewrite Hch, Hq. done. }
  assert (HX : exists q, lands s (g_lid g) ik q /\ (forall n', S n <= n' -> run (reach_leaf F n' st c ik) m = Ok (q, m)) /\
    (is_leafb (a_bd cn) = true -> q = c) /\ (is_leafb (a_bd cn) = false -> (forall n', n <= n' -> run (reach_via_internode n' c ik) m = Ok (q, m)) /\
    (forall n', n <= n' -> run (reach_mut_iterative n' c ik) m = Ok (q, m)))).
  { destruct cn as [cg cmd crt cpa [L|J']]; cbn [is_leafb a_bd a_gh] in *.
    - exists c. split; [exists cg, cmd, crt, cpa, L; done|]. split; [|done]. intros n' Hn'. destruct n' as [|n']; [lia|]. cbn [reach_leaf].
      pose proof (free s HF _ _ Hc) as Hfr. cbn in Hfr. subst cmd.
      apply run_wp. apply wp_bind. eapply wp_stable; [done|done|done|done|]. intros v Hv _. apply wp_bind. eapply wp_flag_leaf; [done|done|]. by apply wp_ret.
    - unfold lvl in Hlv. cbn in Hlv. destruct (IH c cg cmd crt cpa J' Hc ltac:(lia) Hcik) as (q & Q1 & Q2 & Q3 & Q4).
      exists q. rewrite <- Hlid. split; [done|]. split; [done|]. split; [done|]. split; [exact Q3|exact Q4]. }
  destruct HX as (q & Q1 & Q2 & Q3 & Q4). exists q. split; [done|].
  assert (Hht : Nat.eqb (ib_ht J) 0 = is_leafb (a_bd cn)).
  { rewrite <- Hlv. unfold lvl, skel. cbn. by destruct (a_bd cn). }
  split; [|split]; intros n' Hn'; (destruct n' as [|n']; [lia|]).
  - apply Hst. apply Q2. lia.
  - cbn [reach_via_internode]. rewrite run_bind, E1, run_bind, E2, run_bind, (flag_leaf _ _ Hc).
    destruct (is_leafb (a_bd cn)); [by rewrite (Q3 eq_refl)|]. apply Q4; [done|lia].
  - cbn [reach_mut_iterative]. rewrite run_bind, E1, run_bind, E2, run_bind, (children_leaves _ _ _ _ _ _ Hp), Hht.
    destruct (is_leafb (a_bd cn)); [by rewrite (Q3 eq_refl)|]. apply Q4; [done|lia].
Qed.

Lemma descents F ik : 30 <= F -> (ik < 2 ^ 64)%N -> exists q, lands s MAIN ik q /\
  run (reach_leaf F F (root m) (root m) ik) m = Ok (q, m) /\ run (reach_leaf_shared F ik) m = Ok (q, m) /\ run (reach_leaf_mut F ik) m = Ok (q, m).
Proof.
  intros HFl Hik. destruct (si_root _ _ _ _ I) as (n & N1 & N2 & N3 & _). pose proof (level_bound _ _ _ _ I _ _ N1) as Hb.
  destruct (si_top _ _ _ _ I _ n N1) as (T1 & T2 & _); [|done|].
  { apply skels_some in N1 as (a & Ha & _). by eapply (TreeRead.nz m s HS). }
  rewrite (hi_xh K B m s HS HI _ _ N1) in T2. apply skels_some in N1 as (a & Ha & ->). destruct a as [g md rt pa b]. cbn in N2, N3, T1, T2.
  assert (Hg : (g_lo g <= ik <= g_hi g)%N) by (unfold TOP in T2; rewrite T1, T2; lia).
  assert (HR : run load_root m = Ok (sR s, m)) by (apply run_wp; eapply wp_load_root; [exact HS|done]).
  rewrite (st_root _ _ HS). unfold reach_leaf_shared, reach_leaf_mut.
  destruct b as [L|J].
  - exists (sR s). split; [exists g, md, rt, pa, L; done|]. pose proof (free s HF _ _ Ha) as Hfr. cbn in Hfr. subst md. split; [|split].
    + destruct F as [|F']; [lia|]. cbn [reach_leaf].
      apply run_wp. apply wp_bind. eapply wp_stable; [first [done|lia]..|]. intros v Hv _. apply wp_bind. eapply wp_flag_leaf; [done|done|]. by apply wp_ret.
    + rewrite run_bind, HR, run_bind, (flag_leaf _ _ Ha). done.
    + rewrite run_bind, HR, run_bind, (flag_leaf _ _ Ha). done.
  - unfold lvl in Hb. cbn in Hb.
    destruct (descents_below F (sR s) ik ltac:(lia) (S (ib_ht J)) _ _ _ _ _ _ Ha ltac:(lia) Hg) as (q & Q1 & Q2 & Q3 & Q4).
    exists q. rewrite <- N2. split; [done|]. split; [apply Q2; lia|]. split.
    + rewrite run_bind, HR, run_bind, (flag_leaf _ _ Ha). apply Q3. lia.
    + rewrite run_bind, HR, run_bind, (flag_leaf _ _ Ha). specialize (Q4 (S F) ltac:(lia)). cbn [reach_mut_iterative] in Q4. exact Q4.
Qed.
End Descend.

Lemma descents_agree F ops m : 300 <= F -> history_ok ops -> after F ops m -> forall ik, (ik < 2 ^ 64)%N ->
  exists q h ls i, run (reach_leaf_shared F ik) m = Ok (q, m) /\ run (reach_leaf_mut F ik) m = Ok (q, m) /\
    run (reach_leaf F F (root m) (root m) ik) m = Ok (q, m) /\
    leaves_at m h (root m) = Some ls /\ ls !! i = Some q /\
    (forall j p x, j < i -> ls !! j = Some p -> x ∈ leaf_slices m p -> (x <= ik)%N) /\
    (forall j p x, i < j -> ls !! j = Some p -> x ∈ leaf_slices m p -> (ik <= x)%N).
Proof.
  intros HF Hok Ha ik Hik. destruct (after_inv F ops m HF Hok Ha) as (B & s & HS & HI & Hfr & _).
  destruct (descents _ _ m s HS HI Hfr F ik ltac:(lia) Hik) as (q & (g & md & rt & pa & L & Hq & Hl & Hg) & E1 & E2 & E3).
  pose proof (iv_s _ _ _ _ _ HI) as I. destruct (si_root _ _ _ _ I) as (n & N1 & N2 & N3 & _).
  destruct (layer _ _ m s HS HI _ n N1 N3) as (ls & (n' & G1 & G2 & _) & Hc & Hall). pose proof (skels_lookup _ _ _ Hq) as Hq'.
  assert (Hin : q ∈ ls) by (apply (Hall q _ Hq' eq_refl); change (g_lid g = lid n); congruence). apply elem_of_list_lookup in Hin as [i Hi].
  exists q, (lvl n), ls, i. split; [done|]. split; [done|]. split; [done|]. rewrite (st_root _ _ HS). split; [done|]. split; [done|].
  split; intros j p x Hj Hp Hx.
  - destruct (contig_in _ _ _ _ _ p Hc) as (pn & P1 & P2 & _); [by eapply elem_of_list_lookup_2|].
    pose proof (contig_mono _ _ I _ _ _ _ _ _ _ _ _ _ Hc Hj Hp Hi P1 Hq') as Hm. cbn in Hm.
    apply (leaf_sorted _ _ m s HS HI p pn P1 P2) in Hx. lia.
  - destruct (contig_in _ _ _ _ _ p Hc) as (pn & P1 & P2 & _); [by eapply elem_of_list_lookup_2|].
    pose proof (contig_mono _ _ I _ _ _ _ _ _ _ _ _ _ Hc Hj Hi Hp Hq' P1) as Hm. cbn in Hm.
    apply (leaf_sorted _ _ m s HS HI p pn P1 P2) in Hx. lia.
Qed.

(** ** comparing all slices at once *)
Lemma run_load_from p l m n : heap m !! p = Some (NLeaf l) -> forall i, i + n = length (l_ikey l) ->
  run (load_ikeys_from n i p) m = Ok (drop i (l_ikey l), m).
Proof.
  intros Hp. induction n as [|n IH]; intros i Hi; cbn [load_ikeys_from].
  - rewrite drop_ge by lia. done.
  - destruct (lookup_lt_is_Some_2 (l_ikey l) i) as [x Hx]; [lia|]. rewrite run_bind. unfold ikey, leaf_ld. cbn [run atomic]. rewrite Hp, Hx.
    cbn [run]. rewrite run_bind, IH by lia. cbn [run]. rewrite (drop_S _ _ _ Hx). replace (i + 1) with (S i) by lia. done.
Qed.
Lemma matches_exact u p t m l : heap m !! p = Some (NLeaf l) -> length (l_ikey l) = 24 ->
  exists w, run (find_ikey_matches u p t) m = Ok (w, m) /\ forall i, i < 32 -> N.testbit w (N.of_nat i) = bool_decide (l_ikey l !! i = Some t).
Proof.
  intros Hp Hl. unfold find_ikey_matches. exists (find_all_matches u (l_ikey l) WIDTH t). split.
  - rewrite run_bind. unfold load_all_ikeys. rewrite (run_load_from p l m WIDTH Hp 0 ltac:(by rewrite Hl)). done.
  - intros i Hi. assert (H : Nat.min WIDTH (length (l_ikey l)) <= 32) by (rewrite Hl; cbn; lia).
    destruct (matches_all_equal (l_ikey l) WIDTH t H) as [E1 E2].
    assert (E : find_all_matches u (l_ikey l) WIDTH t = find_all_scalar (l_ikey l) WIDTH t) by (by destruct u).
    rewrite E, matches_spec by done. apply bool_decide_ext. split; [by intros [_ ?]|]. intros H1. split; [|done].
    apply lookup_lt_Some in H1. rewrite Hl in H1. exact H1.
Qed.
Lemma leaf_slots F ops m : 300 <= F -> history_ok ops -> after F ops m ->
  forall p l, heap m !! p = Some (NLeaf l) -> length (l_ikey l) = 24.
Proof.
  intros HF Hok Ha p l Hp. destruct (after_inv F ops m HF Hok Ha) as (B & s & HS & HI & _ & _).
  destruct (node_at m s HS p _ Hp) as (n & Hn & _).
  assert (H0 : lvl n = 0). { unfold lvl. destruct (n_sb n) as [|J] eqn:EJ; [done|]. destruct (at_inode m s HS p n J Hn EJ) as (i & Hx & _). congruence. }
  destruct (at_leaf _ _ m s HS HI p n Hn H0) as (l' & g & md & rt & pa & L & Hx & _ & HR & HL & _). rewrite Hp in Hx. injection Hx as <-.
  rewrite (lr_ik _ _ _ HR), map_length. apply HL.
Qed.

(** ** samples *)
From Verif Require Import Counterexamples Samples.
Definition two_ends (F : nat) (a b : N) (m : mem) : bool :=
  match run (reach_leaf_shared F a) m, run (reach_leaf_shared F b) m with Ok (q, _), Ok (q', _) => negb (q =? q')%N | _, _ => false end.
Lemma two_ends_ne F a b m q q' : run (reach_leaf_shared F a) m = Ok (q, m) -> run (reach_leaf_shared F b) m = Ok (q', m) -> two_ends F a b m = true -> q <> q'.
Proof. unfold two_ends. intros -> ->. destruct (N.eqb_spec q q'); done. Qed.
Lemma descents_sample : history_ok sample /\ exists m q q', after 300 sample m /\ q <> q' /\
  run (reach_leaf_shared 300 0) m = Ok (q, m) /\ run (reach_leaf_shared 300 (2 ^ 64 - 1)) m = Ok (q', m).
Proof.
  split; [exact sample_ok|].
  destruct (holds_elim (run_calls insert 300 sample tree_new)
    (fun x => two_ends 300 0 (2 ^ 64 - 1) x.2)) as ([l m] & E & H).
  { vm_compute. reflexivity. }
  cbn [snd] in H. assert (Ha : after 300 sample m) by (exists l; exact E).
  destruct (descents_agree 300 sample m (le_n 300) sample_ok Ha 0) as (q & _ & _ & _ & E1 & _); [lia|].
  destruct (descents_agree 300 sample m (le_n 300) sample_ok Ha (2 ^ 64 - 1)) as (q' & _ & _ & _ & E2 & _); [lia|].
  exists m, q, q'. split; [exact Ha|]. split; [exact (two_ends_ne _ _ _ _ _ _ E1 E2 H)|]. split; [exact E1|exact E2].
Qed.
Lemma matches_sample : exists m l w, after 300 sample m /\ heap m !! 2%N = Some (NLeaf l) /\
  run (find_ikey_matches Avx2 2 (nth 3 (l_ikey l) 0%N)) m = Ok (w, m) /\ N.testbit w 3 = true /\ N.testbit w 2 = false.
Proof.
  destruct (holds_elim (run_calls insert 300 sample tree_new)
    (fun x => match heap x.2 !! 2%N with Some (NLeaf l) => negb (nth 2 (l_ikey l) 0 =? nth 3 (l_ikey l) 0)%N | _ => false end)) as ([r m] & E & H).
  { vm_compute. reflexivity. }
  cbn [snd] in H. assert (Ha : after 300 sample m) by (exists r; exact E). clear E. destruct (heap m !! 2%N) as [[l|]|] eqn:Hl; [|discriminate H..].
  pose proof (leaf_slots 300 sample m (le_n 300) sample_ok Ha 2 l Hl) as H24.
  destruct (matches_exact Avx2 2 (nth 3 (l_ikey l) 0%N) m l Hl H24) as (w & W1 & W2). exists m, l, w. split; [exact Ha|]. split; [exact Hl|]. split; [exact W1|].
  destruct (N.eqb_spec (nth 2 (l_ikey l) 0%N) (nth 3 (l_ikey l) 0%N)) as [|Hne]; [discriminate H|]. clear H Ha W1.
  pose proof (W2 3 ltac:(lia)) as W3. pose proof (W2 2 ltac:(lia)) as W4. change (N.of_nat 3) with 3%N in W3. change (N.of_nat 2) with 2%N in W4.
  split; [rewrite W3; apply bool_decide_eq_true|rewrite W4; apply bool_decide_eq_false].
  - destruct (nth_lookup_or_length (l_ikey l) 3 0%N); [done|lia].
  - destruct (nth_lookup_or_length (l_ikey l) 2 0%N) as [E2|]; [|lia]. congruence.
Qed.
