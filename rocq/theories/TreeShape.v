(** The shape of the tree: balance, and the chain of the leaves of a layer. *)
From Verif Require Import Base Perm PermFacts PermList SpecPerm PermLaws Key SpecKey KeyFacts Suffix Prog Version Mem Tree SpecTree SpecHist SpecShape TreeState TreePrim TreeInv TreeRead TreeLeaf TreeContent TreeLoop TreeTop TreeLaws.

Section Shape.
Context (S : gmap N snode) (R : N) (I : SInv S R 0 0).

(** ** climbing to the parent *)
Fixpoint climb (k : nat) (q : N) : option N :=
  match k with
  | 0 => Some q
  | Datatypes.S k => match climb k q with
                     | Some p => match S !! p with
                                 | Some n => if (n_pa n =? 0)%N then None else Some (n_pa n)
                                 | None => None end
                     | None => None end
  end.
Lemma nz p n : S !! p = Some n -> p <> 0%N.
Proof. intros H ->. by rewrite (si_zero _ _ _ _ I) in H. Qed.
Lemma climb_ok k : forall q n p, S !! q = Some n -> climb k q = Some p ->
  exists pn, S !! p = Some pn /\ lvl pn = lvl n + k /\ lid pn = lid n.
Proof.
  induction k as [|k IH]; intros q n p Hq Hc; cbn in Hc.
  - injection Hc as <-. exists n. split; [done|]. split; [lia|done].
  - destruct (climb k q) as [c|] eqn:Ec; [|done]. destruct (IH q n c Hq Ec) as (cn & H1 & H2 & H3). rewrite H1 in Hc.
    destruct (N.eqb_spec (n_pa cn) 0); [done|]. injection Hc as <-.
    destruct (parent_of S R 0 0 I c cn H1 (nz _ _ H1) n0) as (pn & J & i & P1 & P2 & P3 & P4 & P5 & P6 & _).
    exists pn. split; [done|]. unfold lvl at 1. rewrite P2, P6. split; [lia|congruence].
Qed.
Lemma climb_top q n : S !! q = Some n -> exists k p pn, climb k q = Some p /\ S !! p = Some pn /\ n_pa pn = 0%N.
Proof.
  intros Hq. 
  assert (G : forall j, (exists k p pn, climb k q = Some p /\ S !! p = Some pn /\ n_pa pn = 0%N) \/ exists p, climb j q = Some p).
  { induction j as [|j [IH|[p IH]]]; [right; by exists q|by left|]. destruct (climb_ok j q n p Hq IH) as (pn & H1 & _).
    destruct (N.eqb_spec (n_pa pn) 0) as [E|E]; [left; by exists j, p, pn|]. right. exists (n_pa pn). cbn. rewrite IH, H1. by destruct (N.eqb_spec (n_pa pn) 0). }
  destruct (G 23) as [|[p Hp]]; [done|]. destruct (climb_ok 23 q n p Hq Hp) as (pn & H1 & H2 & _).
  pose proof (level_bound S R 0 0 I p pn H1). lia.
Qed.
Lemma climb_top_eq q k1 k2 p1 p2 n1 n2 : climb k1 q = Some p1 -> S !! p1 = Some n1 -> n_pa n1 = 0%N ->
  climb k2 q = Some p2 -> S !! p2 = Some n2 -> n_pa n2 = 0%N -> k1 = k2 /\ p1 = p2.
Proof.
  assert (G : forall k j p n, climb k q = Some p -> S !! p = Some n -> n_pa n = 0%N -> climb (Datatypes.S j + k) q = None).
  { intros k j p n H1 H2 H3. induction j as [|j IH]; cbn in *; [by rewrite H1, H2, H3|]. by rewrite IH. }
  intros A1 A2 A3 B1 B2 B3. assert (E : k1 = k2).
  { destruct (lt_eq_lt_dec k1 k2) as [[Hl| ->]|Hl]; [|done|].
    - pose proof (G k1 (k2 - k1 - 1) p1 n1 A1 A2 A3) as H. replace (Datatypes.S (k2 - k1 - 1) + k1) with k2 in H by lia. congruence.
    - pose proof (G k2 (k1 - k2 - 1) p2 n2 B1 B2 B3) as H. replace (Datatypes.S (k1 - k2 - 1) + k2) with k1 in H by lia. congruence. }
  subst. split; [done|congruence].
Qed.

(** ** contiguous leaves *)
Inductive contig (l : N) : N -> N -> list N -> Prop :=
| cg_one q n : S !! q = Some n -> lvl n = 0 -> lid n = l -> contig l (lo n) (hi n) [q]
| cg_cons q n b ls : S !! q = Some n -> lvl n = 0 -> lid n = l -> contig l (hi n) b ls -> contig l (lo n) b (q :: ls).
Lemma contig_app l a b c l1 l2 : contig l a b l1 -> contig l b c l2 -> contig l a c (l1 ++ l2).
Proof. induction 1; intros H'; cbn; [by constructor|constructor; auto]. Qed.
Lemma contig_in l a b ls q : contig l a b ls -> q ∈ ls -> exists n, S !! q = Some n /\ lvl n = 0 /\ lid n = l.
Proof.
  induction 1; intros Hq; apply elem_of_cons in Hq as [->|Hq]; eauto. by apply elem_of_nil in Hq.
Qed.
Lemma span q n : S !! q = Some n -> (lo n <= hi n)%N.
Proof. intros H. apply (si_gh _ _ _ _ I q n H). Qed.
Lemma contig_le l a b ls : contig l a b ls -> (a <= b)%N.
Proof. induction 1 as [q n H|q n b ls H]; [by eapply span|]. pose proof (span q n H). lia. Qed.
Lemma contig_first l a b ls : contig l a b ls -> exists q n, ls !! 0 = Some q /\ S !! q = Some n /\ lo n = a.
Proof. destruct 1; eexists _, _; (split; [done|]); done. Qed.
Lemma contig_next l a b ls i x y : contig l a b ls -> ls !! i = Some x -> ls !! (i + 1) = Some y ->
  exists nx ny, S !! x = Some nx /\ S !! y = Some ny /\ hi nx = lo ny.
Proof.
  intros H. revert i. induction H as [q n H|q n b ls H H0 H1 H2 IH]; intros i Hx Hy.
  - destruct i; cbn in Hy; done.
  - destruct i as [|i]; [|exact (IH i Hx Hy)]. injection Hx as <-. change (ls !! 0 = Some y) in Hy.
    destruct (contig_first _ _ _ _ H2) as (q' & n' & E1 & E2 & E3). rewrite E1 in Hy. injection Hy as <-. exists n, n'. done.
Qed.
Lemma contig_mono l a b ls i j x y nx ny : contig l a b ls -> i < j -> ls !! i = Some x -> ls !! j = Some y ->
  S !! x = Some nx -> S !! y = Some ny -> (hi nx <= lo ny)%N.
Proof.
  intros H. revert i j x nx. induction H as [q n H|q n b ls H H0 H1 H2 IH]; intros i j x nx Hij Hx Hy Sx Sy.
  - destruct j; [lia|]. cbn in Hy. done.
  - destruct j as [|j]; [lia|]. change (ls !! j = Some y) in Hy. destruct i as [|i]; [|eapply (IH i j); [lia|done..]].
    injection Hx as <-. rewrite H in Sx. injection Sx as <-.
    destruct (contig_first _ _ _ _ H2) as (q' & n' & E1 & E2 & E3). destruct j as [|j].
    + rewrite E1 in Hy. injection Hy as <-. rewrite E2 in Sy. injection Sy as <-. lia.
    + specialize (IH 0 (Datatypes.S j) q' n' ltac:(lia) E1 Hy E2 Sy). pose proof (span q' n' E2). lia.
Qed.
Lemma contig_last l a b ls x nx : contig l a b ls -> ls !! (length ls - 1) = Some x -> S !! x = Some nx -> hi nx = b.
Proof.
  induction 1 as [q n H|q n b ls H H0 H1 H2 IH]; intros Hx Sx.
  - cbn in Hx. congruence.
  - destruct ls as [|y ls]; [inversion H2|]. replace (length (q :: y :: ls) - 1) with (Datatypes.S (length (y :: ls) - 1)) in Hx by (cbn; lia).
    cbn [lookup list_lookup] in Hx. by apply IH.
Qed.
Lemma contig_cover l a b ls x : contig l a b ls -> (a <= x < b)%N -> exists q n, q ∈ ls /\ S !! q = Some n /\ (lo n <= x < hi n)%N.
Proof.
  induction 1 as [q n H|q n b ls H H0 H1 H2 IH]; intros Hx.
  - exists q, n. split; [by left|]. done.
  - destruct (decide (x < hi n)%N) as [Hl|Hl]; [exists q, n; split; [by left|]; split; [done|lia]|].
    destruct (IH ltac:(lia)) as (q' & n' & H3 & H4). exists q', n'. split; [by right|done].
Qed.
End Shape.

Section Mem.
Context (K : bytes -> N -> Prop) (B : N) (m : mem) (s : ast) (HS : St m s) (HI : Inv K B s 0 0).
Local Notation S := (skels (sA s)).
Let I : SInv S (sR s) 0 0 := iv_s _ _ _ _ _ HI.

Lemma at_node p n : S !! p = Some n -> exists x, heap m !! p = Some x /\ parent_link x = n_pa n.
Proof.
  intros H. apply skels_some in H as (an & Ha & ->). destruct (St_lookup _ _ _ _ HS Ha) as (x & Hx & Hr). exists x. split; [done|].
  unfold node_rel in Hr. unfold skel, parent_link. cbn [n_pa]. destruct x, (a_bd an); try done; by destruct Hr as (_ & -> & _).
Qed.
Lemma node_at p x : heap m !! p = Some x -> exists n, S !! p = Some n /\ parent_link x = n_pa n.
Proof.
  intros H. pose proof (st_heap _ _ HS p) as Hh. rewrite H in Hh. destruct (sA s !! p) as [an|] eqn:Ea; [|done].
  destruct (at_node p (skel an)) as (x' & Hx & Hp); [by apply skels_lookup|]. exists (skel an). split; [by apply skels_lookup|]. congruence.
Qed.
Lemma at_leaf p n : S !! p = Some n -> lvl n = 0 -> exists l g md rt pa L, heap m !! p = Some (NLeaf l) /\ sA s !! p = Some (LF g md rt pa L) /\
  leaf_rel (bags m) l L /\ leaf_ok K B S (sV s) g L /\ g = n_gh n /\ n_sb n = SL (l_next l) (l_prev l).
Proof.
  intros H Hl. apply skels_some in H as (an & Ha & ->). destruct (St_lookup _ _ _ _ HS Ha) as (x & Hx & Hr). unfold lvl, skel in Hl. cbn in Hl.
  destruct an as [g md rt pa bd]. unfold node_rel in Hr. cbn [a_bd a_gh a_md a_rt a_pa] in *. destruct bd as [L|J]; [|done]. destruct x as [l|]; [|done].
  destruct Hr as (_ & _ & Hr). exists l, g, md, rt, pa, L. split; [done|]. split; [done|]. split; [done|]. split; [by eapply (iv_l _ _ _ _ _ HI)|].
  split; [done|]. unfold skel. cbn. destruct Hr. by rewrite lr_nx, lr_pv.
Qed.
Lemma at_inode p n J : S !! p = Some n -> n_sb n = SI J -> exists i, heap m !! p = Some (NInode i) /\ children i = kids J /\ i_nkeys i = ib_nk J /\ i_parent i = n_pa n /\ length (i_keys i) = 15.
Proof.
  intros H Hl. apply skels_some in H as (an & Ha & ->). destruct (St_lookup _ _ _ _ HS Ha) as (x & Hx & Hr).
  destruct an as [g md rt pa bd]. unfold node_rel in Hr. cbn [a_bd a_gh a_md a_rt a_pa] in *. unfold skel in Hl. cbn in Hl. destruct bd as [L|J']; [done|]. injection Hl as ->.
  destruct x as [|i]; [done|]. destruct Hr as (_ & Hp & Hr). exists i. split; [done|]. destruct Hr. unfold children, kids. rewrite ir_nk, ir_cs, Nat.add_1_r. split; [done|]. split; [done|]. split; [done|]. by rewrite ir_ks.
Qed.

Definition good (h : nat) (p : N) (ls : list N) : Prop := exists n, S !! p = Some n /\
  leaves_at m h p = Some ls /\ contig S (lid n) (lo n) (hi n) ls /\ NoDup ls /\ (forall q, q ∈ ls -> climb S h q = Some p) /\
  (forall q qn, S !! q = Some qn -> lvl qn = 0 -> climb S h q = Some p -> q ∈ ls) /\
  (n_pa n <> 0%N -> 8 ^ h <= length ls) /\ (forall h', h = Datatypes.S h' -> 2 * 8 ^ h' <= length ls).
Lemma exist2 {X Y} (P : X -> Y -> Prop) l : (forall x, x ∈ l -> exists y, P x y) -> exists ys, Forall2 P l ys.
Proof.
  induction l as [|x l IH]; intros H; [by exists []|]. destruct (H x) as [y Hy]; [by left|]. destruct IH as [ys Hys]; [intros z Hz; apply H; by right|].
  exists (y :: ys). by constructor.
Qed.
Lemma concat_nodup h cs lss : Forall2 (good h) cs lss -> NoDup cs -> NoDup (concat lss) /\ forall q, q ∈ concat lss <-> exists c ls, c ∈ cs /\ good h c ls /\ q ∈ ls /\ ls ∈ lss.
Proof.
  induction 1 as [|c ls cs lss Hg H IH]; intros Hn; cbn.
  - split; [constructor|]. intros q. split; [intros Hq; by apply elem_of_nil in Hq|]. intros (c & ls & Hc & _). by apply elem_of_nil in Hc.
  - apply NoDup_cons in Hn as [Hn1 Hn2]. destruct (IH Hn2) as [IH1 IH2]. split.
    + apply NoDup_app. destruct Hg as (n & Hg1 & Hg2 & Hg3 & Hg4 & Hg5 & Hg6). split; [done|]. split; [|done].
      intros q Hq Hq2. apply IH2 in Hq2 as (c' & ls' & Hc & (n' & G1 & G2 & G3 & G4 & G5 & G6) & Hq' & _). apply Hg5 in Hq. apply G5 in Hq'. rewrite Hq in Hq'. injection Hq' as <-. done.
    + intros q. rewrite elem_of_app, IH2. split.
      * intros [Hq|(c' & ls' & H1 & H2 & H3 & H4)]; [exists c, ls; split; [by left|]; split; [done|]; split; [done|by left]|].
        exists c', ls'. split; [by right|]. split; [done|]. split; [done|by right].
      * intros (c' & ls' & Hc & Hg' & Hq & Hl). apply elem_of_cons in Hl as [->|Hl]; [by left|right].
        destruct (elem_of_list_lookup_1 _ _ Hl) as [j Hj]. destruct (Forall2_lookup_r _ _ _ _ _ H Hj) as (c2 & Hc2 & Hg2).
        exists c2, ls'. split; [by eapply elem_of_list_lookup_2|done].
Qed.
Lemma leaves_ok h : forall p n, S !! p = Some n -> lvl n = h -> exists ls, good h p ls.
Proof.
  induction h as [|h IH]; intros p n Hp Hl.
  - destruct (at_leaf p n Hp Hl) as (l & g & md & rt & pa & L & Hx & _). exists [p], n. split; [done|]. split; [cbn; by rewrite Hx|].
    split; [by constructor|]. split; [apply NoDup_singleton|]. split; [intros q Hq; apply elem_of_list_singleton in Hq as ->; done|].
    split; [intros q qn _ _ [= ->]; by left|]. split; [cbn; lia|done].
  - unfold lvl in Hl. destruct (n_sb n) as [|J] eqn:EJ; [done|]. injection Hl as Hl.
    destruct (at_inode p n J Hp EJ) as (i & Hx & Hc & Hnk & _ & _). pose proof (si_inode _ _ _ _ I p n J Hp EJ) as HO.
    pose proof (nz S (sR s) I p n Hp) as Hpz. pose proof (si_gh _ _ _ _ I p n Hp) as HG.
    assert (HK : forall j c, kids J !! j = Some c -> exists cn, S !! c = Some cn /\ n_pa cn = p /\ lid cn = lid n /\ lvl cn = h /\ bnds (n_gh n) J !! j = Some (lo cn) /\ bnds (n_gh n) J !! (j + 1) = Some (hi cn)).
    { intros j c Hj. destruct (io_kid _ _ _ _ _ _ _ HO j c Hj) as [_ (cn & E1 & E2 & E3 & E4 & E5 & E6)].
      exists cn. split; [done|]. split; [done|]. split; [done|]. split; [lia|]. split; [done|].
      rewrite <- (go_eq _ _ _ (si_gh _ _ _ _ I c cn E1)); [done|]. by eapply nz. }
    assert (HX : exists lss, Forall2 (good h) (kids J) lss).
    { apply exist2. intros c Hcin. apply elem_of_list_lookup in Hcin as [j Hj]. destruct (HK j c Hj) as (cn & E1 & _ & _ & E4 & _). by eapply IH. }
    destruct HX as [lss HL]. pose proof (Forall2_length _ _ _ HL) as Hlen. rewrite kids_len in Hlen by apply (io_lc _ _ _ _ _ _ _ HO).
    destruct (concat_nodup h _ _ HL (io_nd _ _ _ _ _ _ _ HO)) as [Hnd Hin].
    assert (Hlow : (ib_nk J + 1) * 8 ^ h <= length (concat lss)).
    { rewrite Hlen. assert (Hpar : forall c, c ∈ kids J -> exists cn, S !! c = Some cn /\ n_pa cn <> 0%N).
      { intros c Hcin. apply elem_of_list_lookup in Hcin as [j Hj]. destruct (HK j c Hj) as (cn & E1 & E2 & _). exists cn. split; [done|]. by rewrite E2. }
      clear - HL Hpar. induction HL as [|c ls cs lss Hg H IHl]; [cbn; lia|]. cbn [length concat]. rewrite app_length.
      assert (8 ^ h <= length ls). { destruct (Hpar c) as (cn & C1 & C2); [by left|]. destruct Hg as (n & Hg1 & _ & _ & _ & _ & _ & Hg7 & _). rewrite C1 in Hg1. injection Hg1 as <-. auto. }
      specialize (IHl (fun c' Hc' => Hpar c' (elem_of_list_further c' c cs Hc'))). lia. }
    exists (concat lss), n. split; [done|]. split.
    { cbn [leaves_at]. rewrite Hx. rewrite Hc. assert (E : mapM (leaves_at m h) (kids J) = Some lss); [|by rewrite E].
      apply mapM_Some. eapply Forall2_impl; [exact HL|]. by intros c ls (cn & _ & Hg & _). }
    split.
    { assert (G : forall d j x, j + d = ib_nk J -> bnds (n_gh n) J !! j = Some x -> contig S (lid n) x (hi n) (concat (drop j lss))).
      { induction d as [|d IHd]; intros j x Hj Hb.
        - assert (Hl' : j < length lss) by lia. destruct (lookup_lt_is_Some_2 _ _ Hl') as [ls Hls].
          destruct (Forall2_lookup_r _ _ _ _ _ HL Hls) as (c & Hcj & (cn & G1 & G2 & G3 & _)). destruct (HK j c Hcj) as (cn' & E1 & E2 & E3 & E4 & E5 & E6).
          rewrite G1 in E1. injection E1 as <-. rewrite (drop_S _ _ _ Hls), drop_ge by lia. cbn. rewrite app_nil_r.
          replace (j + 1) with (ib_nk J + 1) in E6 by lia. rewrite bnds_last in E6 by apply (io_lk _ _ _ _ _ _ _ HO). injection E6 as E6. rewrite E6, <- E3.
          rewrite Hb in E5. injection E5 as ->. done.
        - assert (Hl' : j < length lss) by lia. destruct (lookup_lt_is_Some_2 _ _ Hl') as [ls Hls].
          destruct (Forall2_lookup_r _ _ _ _ _ HL Hls) as (c & Hcj & (cn & G1 & G2 & G3 & _)). destruct (HK j c Hcj) as (cn' & E1 & E2 & E3 & E4 & E5 & E6).
          rewrite G1 in E1. injection E1 as <-. rewrite (drop_S _ _ _ Hls). cbn [concat]. rewrite Hb in E5. injection E5 as ->. rewrite E3 in G3.
          eapply contig_app; [exact G3|]. replace (Datatypes.S j) with (j + 1) by lia. apply IHd; [lia|done]. }
      specialize (G (ib_nk J) 0 (lo n) ltac:(lia) (bnds_0 _ _)). by rewrite drop_0 in G. }
    split; [done|]. split.
    { intros q Hq. apply Hin in Hq as (c & ls & Hcin & (cn & G1 & G2 & G3 & G4 & G5 & _) & Hq & _). cbn [climb]. rewrite (G5 q Hq), G1.
      apply elem_of_list_lookup in Hcin as [j Hj]. destruct (HK j c Hj) as (cn' & E1 & E2 & _). rewrite G1 in E1. injection E1 as <-. rewrite E2. by destruct (N.eqb_spec p 0). }
    split.
    { intros q qn Hq Hq0 Hcl. cbn [climb] in Hcl. destruct (climb S h q) as [c|] eqn:Ec; [|done]. destruct (S !! c) as [cn|] eqn:Ecn; [|done].
      destruct (N.eqb_spec (n_pa cn) 0) as [|Hz]; [done|]. injection Hcl as <-.
      destruct (si_pa _ _ _ _ I c cn Ecn (nz S (sR s) I c cn Ecn) Hz) as (pn & J' & P1 & P2 & P3). rewrite Hp in P1. injection P1 as <-. rewrite EJ in P2. injection P2 as <-.
      apply Hin. apply elem_of_list_lookup in P3 as [j Hj]. destruct (Forall2_lookup_l _ _ _ _ _ HL Hj) as (ls & Hls & Hg). exists c, ls.
      split; [by eapply elem_of_list_lookup_2|]. split; [done|]. split; [|by eapply elem_of_list_lookup_2]. destruct Hg as (cn' & G1 & G2 & G3 & G4 & G5 & G6 & _). by eapply G6. }
    split.
    + intros Hpa. pose proof (io_min _ _ _ _ _ _ _ HO (or_introl Hpa)). rewrite Nat.pow_succ_r'. nia.
    + intros h' [= <-]. pose proof (io_nk _ _ _ _ _ _ _ HO). nia.
Qed.

(** ** all leaves of a layer hang below one top node *)
Lemma layer p n : S !! p = Some n -> n_pa n = 0%N -> exists ls, good (lvl n) p ls /\ contig S (lid n) 0 TOP ls /\
  forall q qn, S !! q = Some qn -> lvl qn = 0 -> lid qn = lid n -> q ∈ ls.
Proof.
  intros Hp Hpa.
  assert (G : forall p n, S !! p = Some n -> n_pa n = 0%N -> exists ls, good (lvl n) p ls /\ contig S (lid n) 0 TOP ls).
  { clear p n Hp Hpa. intros p n Hp Hpa. destruct (leaves_ok (lvl n) p n Hp eq_refl) as [ls Hg]. exists ls. split; [done|].
    destruct (si_top _ _ _ _ I p n Hp (nz S (sR s) I p n Hp) Hpa) as (T1 & T2 & _).
    rewrite (go_eq _ _ _ (si_gh _ _ _ _ I p n Hp)) in T2 by (by eapply nz). destruct Hg as (n' & G1 & _ & G3 & _). rewrite Hp in G1. injection G1 as <-. by rewrite T1, T2 in G3. }
  destruct (G p n Hp Hpa) as (ls & Hg & Hc). exists ls. split; [done|]. split; [done|]. intros q qn Hq Hq0 Hql.
  destruct (climb_top S (sR s) I q qn Hq) as (k & p' & pn' & C1 & C2 & C3). destruct (climb_ok S (sR s) I k q qn p' Hq C1) as (pn2 & D1 & D2 & D3).
  rewrite C2 in D1. injection D1 as <-. destruct (G p' pn' C2 C3) as (ls' & Hg' & Hc').
  destruct (contig_cover S _ _ _ _ 0%N Hc) as (x & nx & X1 & X2 & X3); [unfold TOP; lia|].
  destruct (contig_cover S _ _ _ _ 0%N Hc') as (y & ny & Y1 & Y2 & Y3); [unfold TOP; lia|].
  destruct (contig_in S _ _ _ _ _ Hc X1) as (nx2 & X4 & X5 & X6). rewrite X2 in X4. injection X4 as <-.
  destruct (contig_in S _ _ _ _ _ Hc' Y1) as (ny2 & Y4 & Y5 & Y6). rewrite Y2 in Y4. injection Y4 as <-.
  assert (x = y).
  { destruct (decide (x = y)) as [|Hne]; [done|]. exfalso. destruct (si_disj _ _ _ _ I x y nx ny X2 Y2 Hne) as [Hd|Hd]; [congruence|done|done|lia|lia]. }
  subst y. destruct Hg as (n0 & G1 & G2 & G3 & G4 & G5 & G6 & _). destruct Hg' as (n0' & G1' & G2' & G3' & G4' & G5' & G6' & _).
  destruct (climb_top_eq S x (lvl n) (lvl pn') p p' n pn' (G5 x X1) Hp Hpa (G5' x Y1) C2 C3) as [E1 E2]. subst p'.
  apply (G6 q qn Hq Hq0). rewrite E1. rewrite D2, Hq0. done.
Qed.

(** ** the chain *)
Lemma no_self p n pv : S !! p = Some n -> n_sb n = SL p pv -> False.
Proof.
  intros Hp Hsb. assert (Hl0 : lvl n = 0) by (unfold lvl; by rewrite Hsb).
  destruct (at_leaf p n Hp Hl0) as (l & g & md & rt & pa & L & Hx & HA & HR & HL & -> & E). rewrite Hsb in E. injection E as E1 E2.
  destruct (si_leaf _ _ _ _ I p n _ _ Hp Hsb) as [_ Hnx _ _ _]. destruct (Hnx (nz S (sR s) I p n Hp)) as (qn & nx' & Q1 & Q2 & Q3 & Q4).
  rewrite Hp in Q1. injection Q1 as <-. rewrite Hsb in Q2. injection Q2 as <- ->. destruct HR.
  assert (Hz : p <> 0%N) by (by eapply nz). assert (N1 : lb_nx L = p) by congruence. assert (N2 : lb_pv L = p) by congruence.
  destruct (lk_first _ _ _ _ _ _ HL) as [F1 F2]; [by rewrite N2|].
  pose proof (lk_deg _ _ _ _ _ _ HL n) as Hd. rewrite N1 in Hd. specialize (Hd Hz Hp Q4 (ent L 0)).
  assert ((s_ik (ent L 0) < hi n)%N); [|lia]. apply Hd. unfold es. apply elem_of_list_fmap. exists 0. split; [done|]. by eapply elem_of_list_lookup_2.
Qed.
Section Chain.
Context (l : N) (ls : list N) (Hc : contig S l 0 TOP ls) (Hnd : NoDup ls).
Context (Hall : forall q qn, S !! q = Some qn -> lvl qn = 0 -> lid qn = l -> q ∈ ls).
Lemma lv_sl n nx pv : n_sb n = SL nx pv -> lvl n = 0.
Proof. intros H. unfold lvl. by rewrite H. Qed.
Lemma same_deg x y nx ny b : S !! x = Some nx -> S !! y = Some ny -> lvl nx = 0 -> lvl ny = 0 -> lid nx = lid ny ->
  lo nx = b -> hi nx = b -> lo ny = b -> hi ny = b -> x = y.
Proof. intros. eapply (si_deg _ _ _ _ I); eauto; congruence. Qed.
Lemma chain_next i x y : ls !! i = Some x -> ls !! (i + 1) = Some y ->
  exists nx ny pv nxt, S !! x = Some nx /\ n_sb nx = SL y pv /\ S !! y = Some ny /\ n_sb ny = SL nxt x.
Proof.
  intros Hx Hy. destruct (contig_next S _ _ _ _ _ _ _ Hc Hx Hy) as (nx & ny & X1 & Y1 & Hxy).
  assert (Hxi : x ∈ ls) by (by eapply elem_of_list_lookup_2). assert (Hyi : y ∈ ls) by (by eapply elem_of_list_lookup_2).
  destruct (contig_in S _ _ _ _ _ Hc Hxi) as (nx2 & X2 & X3 & X4). rewrite X1 in X2. injection X2 as <-.
  destruct (contig_in S _ _ _ _ _ Hc Hyi) as (ny2 & Y2 & Y3 & Y4). rewrite Y1 in Y2. injection Y2 as <-.
  destruct (n_sb nx) as [z pv|] eqn:Ex; [|unfold lvl in X3; by rewrite Ex in X3].
  destruct (n_sb ny) as [nxt w|] eqn:Ey; [|unfold lvl in Y3; by rewrite Ey in Y3].
  pose proof (si_leaf _ _ _ _ I x nx z pv X1 Ex) as Lx. pose proof (si_leaf _ _ _ _ I y ny nxt w Y1 Ey) as Ly.
  pose proof (go_lo _ _ _ (si_gh _ _ _ _ I y ny Y1)) as Hyt.
  assert (Hz : z <> 0%N). { intros ->. pose proof (lo_end _ _ _ _ _ Lx eq_refl) as Hend. rewrite Hxy in Hend. lia. }
  destruct (lo_nx _ _ _ _ _ Lx Hz) as (zn & nz' & Z1 & Z2 & Z3 & Z4).
  pose proof (span S (sR s) I x nx X1) as Sx. pose proof (span S (sR s) I y ny Y1) as Sy. pose proof (span S (sR s) I z zn Z1) as Sz.
  assert (Hz0 : lvl zn = 0) by (by eapply lv_sl).
  assert (Hzi : z ∈ ls) by (eapply Hall; [done|done|congruence]). apply elem_of_list_lookup in Hzi as [j Hj].
  assert (Hzy : z = y); [|subst z; rewrite Y1 in Z1; injection Z1 as <-; rewrite Ey in Z2; injection Z2 as -> ->; exists nx, ny, pv, nz'; done].
  destruct (lt_eq_lt_dec j i) as [[Hji| ->]|Hji].
  - exfalso. pose proof (contig_mono S (sR s) I _ _ _ _ _ _ _ _ _ _ Hc Hji Hj Hx Z1 X1) as Hm.
    assert (z = x) by (eapply (same_deg z x zn nx (hi nx)); [done|done|done|done|congruence|lia|lia|lia|lia]). subst z. pose proof (NoDup_lookup _ _ _ _ Hnd Hj Hx). lia.
  - exfalso. rewrite Hx in Hj. injection Hj as <-. exact (no_self x nx pv X1 Ex).
  - destruct (decide (j = i + 1)) as [->|Hj1]; [congruence|]. exfalso.
    pose proof (contig_mono S (sR s) I _ _ _ _ (i + 1) j _ _ _ _ Hc ltac:(lia) Hy Hj Y1 Z1) as Hm.
    assert (Hyd : lo ny = hi ny) by lia. pose proof (lo_deg _ _ _ _ _ Ly Hyd) as Hw.
    destruct (lo_pv _ _ _ _ _ Ly Hw) as (wn & wv & W1 & W2). pose proof (si_leaf _ _ _ _ I w wn y wv W1 W2) as Lw.
    destruct (lo_nx _ _ _ _ _ Lw (nz S (sR s) I y ny Y1)) as (yn2 & yy & U1 & U2 & U3 & U4). rewrite Y1 in U1. injection U1 as <-.
    assert (Hw0 : lvl wn = 0) by (by eapply lv_sl). pose proof (span S (sR s) I w wn W1) as Sw.
    assert (Hwi : w ∈ ls) by (eapply Hall; [done|done|congruence]). apply elem_of_list_lookup in Hwi as [k Hk].
    destruct (lt_eq_lt_dec k i) as [[Hki| ->]|Hki].
    + pose proof (contig_mono S (sR s) I _ _ _ _ _ _ _ _ _ _ Hc Hki Hk Hx W1 X1) as Hm2.
      assert (x = y) by (eapply (same_deg x y nx ny (hi nx)); [done|done|done|done|congruence|lia|lia|lia|lia]). subst y. pose proof (NoDup_lookup _ _ _ _ Hnd Hx Hy). lia.
    + rewrite Hx in Hk. injection Hk as <-. rewrite X1 in W1. injection W1 as <-. rewrite Ex in W2. injection W2 as -> ->.
      pose proof (NoDup_lookup _ _ _ _ Hnd Hj Hy). lia.
    + destruct (decide (k = i + 1)) as [->|Hk1].
      * rewrite Hy in Hk. injection Hk as <-. exact (no_self y wn wv W1 W2).
      * pose proof (contig_mono S (sR s) I _ _ _ _ (i + 1) k _ _ _ _ Hc ltac:(lia) Hy Hk Y1 W1) as Hm2.
        assert (w = y) by (eapply (same_deg w y wn ny (hi nx)); [done|done|done|done|congruence|lia|lia|lia|lia]). subst w.
        exact (no_self y wn wv W1 W2).
Qed.
Lemma chain_first x : ls !! 0 = Some x -> exists nx nxt, S !! x = Some nx /\ n_sb nx = SL nxt 0.
Proof.
  intros Hx. destruct (contig_first S _ _ _ _ Hc) as (q & nx & Q1 & Q2 & Q3). rewrite Hx in Q1. injection Q1 as <-.
  assert (Hxi : x ∈ ls) by (by eapply elem_of_list_lookup_2).
  destruct (contig_in S _ _ _ _ _ Hc Hxi) as (nx2 & X2 & X3 & X4). rewrite Q2 in X2. injection X2 as <-.
  destruct (n_sb nx) as [z w|] eqn:Ex; [|unfold lvl in X3; by rewrite Ex in X3]. exists nx, z. split; [done|].
  destruct (decide (w = 0%N)) as [->|Hw]; [done|]. exfalso. pose proof (si_leaf _ _ _ _ I x nx z w Q2 Ex) as Lx.
  destruct (lo_pv _ _ _ _ _ Lx Hw) as (wn & wv & W1 & W2). pose proof (si_leaf _ _ _ _ I w wn x wv W1 W2) as Lw.
  destruct (lo_nx _ _ _ _ _ Lw (nz S (sR s) I x nx Q2)) as (yn2 & yy & U1 & U2 & U3 & U4). rewrite Q2 in U1. injection U1 as <-.
  assert (Hw0 : lvl wn = 0) by (by eapply lv_sl). pose proof (span S (sR s) I w wn W1) as Sw. pose proof (span S (sR s) I x nx Q2) as Sx.
  assert (Hwi : w ∈ ls) by (eapply Hall; [done|done|congruence]). apply elem_of_list_lookup in Hwi as [k Hk].
  destruct k as [|k]; [rewrite Hx in Hk; injection Hk as <-; by eapply no_self|].
  pose proof (contig_mono S (sR s) I _ _ _ _ 0 (Datatypes.S k) _ _ _ _ Hc ltac:(lia) Hx Hk Q2 W1) as Hm.
  assert (w = x) by (eapply (same_deg w x wn nx 0%N); [done|done|done|done|congruence|lia|lia|lia|lia]). subst w. exact (no_self x wn wv W1 W2).
Qed.
Lemma chain_last x : ls !! (length ls - 1) = Some x -> exists nx pv, S !! x = Some nx /\ n_sb nx = SL 0 pv.
Proof.
  intros Hx. assert (Hxi : x ∈ ls) by (by eapply elem_of_list_lookup_2). destruct (contig_in S _ _ _ _ _ Hc Hxi) as (nx & X2 & X3 & X4).
  pose proof (contig_last S _ _ _ _ _ _ Hc Hx X2) as Ht.
  destruct (n_sb nx) as [z w|] eqn:Ex; [|unfold lvl in X3; by rewrite Ex in X3]. exists nx, w. split; [done|].
  destruct (decide (z = 0%N)) as [->|Hz]; [done|]. exfalso. pose proof (si_leaf _ _ _ _ I x nx z w X2 Ex) as Lx.
  destruct (lo_nx _ _ _ _ _ Lx Hz) as (zn & nz' & Z1 & Z2 & Z3 & Z4). pose proof (go_lo _ _ _ (si_gh _ _ _ _ I z zn Z1)). lia.
Qed.
Lemma sb_links p n nx pv : S !! p = Some n -> n_sb n = SL nx pv -> next_of m p = Some nx /\ prev_of m p = Some pv.
Proof.
  intros Hp Hsb. destruct (at_leaf p n Hp ltac:(by eapply lv_sl)) as (lf & g & md & rt & pa & L & Hx & HA & HR & HL & -> & E).
  unfold next_of, prev_of. rewrite Hx. rewrite Hsb in E. injection E as -> ->. done.
Qed.
Lemma chain_linked : linked m 0 ls.
Proof.
  assert (G : forall l2 l1, ls = l1 ++ l2 -> linked m (default 0%N (last l1)) l2).
  { induction l2 as [|x l2 IH]; intros l1 E; cbn [linked]; [done|].
    assert (Hx : ls !! length l1 = Some x) by (rewrite E, lookup_app_r, Nat.sub_diag by lia; done).
    split; [|split].
    - destruct l1 as [|y l1 _] using rev_ind.
      + cbn. destruct (chain_first x Hx) as (nx & nxt & H1 & H2). by apply (sb_links _ _ _ _ H1 H2).
      + rewrite last_snoc. cbn. rewrite app_length in Hx. cbn in Hx. rewrite <- app_assoc in E. cbn in E.
        assert (Hy : ls !! length l1 = Some y) by (rewrite E, lookup_app_r, Nat.sub_diag by lia; done).
        destruct (chain_next _ _ _ Hy Hx) as (nx & ny & pv & nxt & _ & _ & H1 & H2). by apply (sb_links _ _ _ _ H1 H2).
    - destruct l2 as [|y l2]; cbn.
      + destruct (chain_last x) as (nx & pv & H1 & H2); [rewrite E, app_length; cbn; rewrite Nat.add_sub, <- E; done|]. by apply (sb_links _ _ _ _ H1 H2).
      + assert (Hy : ls !! (length l1 + 1) = Some y) by (rewrite E, lookup_app_r by lia; replace (length l1 + 1 - length l1) with 1 by lia; done).
        destruct (chain_next _ _ _ Hx Hy) as (nx & ny & pv & nxt & H1 & H2 & _). by apply (sb_links _ _ _ _ H1 H2).
    - specialize (IH (l1 ++ [x])). rewrite last_snoc in IH. apply IH. by rewrite <- app_assoc. }
  apply (G ls []). done.
Qed.
End Chain.

(** ** slices *)
Lemma slices_leaf p n : S !! p = Some n -> lvl n = 0 -> exists g md rt pa L, sA s !! p = Some (LF g md rt pa L) /\ leaf_ok K B S (sV s) g L /\ g = n_gh n /\
  leaf_slices m p = map s_ik (es L).
Proof.
  intros Hp Hl. destruct (at_leaf p n Hp Hl) as (l & g & md & rt & pa & L & Hx & HA & HR & HL & -> & E). exists (n_gh n), md, rt, pa, L.
  split; [done|]. split; [done|]. split; [done|]. unfold leaf_slices. rewrite Hx. destruct HR. rewrite lr_ik, lr_perm. unfold es, ids. rewrite map_map.
  apply map_ext. intros i. unfold ent. exact (map_nth s_ik (lb_sl L) slot0 i).
Qed.
Lemma ssorted_app {X} (Rr : X -> X -> Prop) l1 l2 : StronglySorted Rr l1 -> StronglySorted Rr l2 -> (forall x y, x ∈ l1 -> y ∈ l2 -> Rr x y) -> StronglySorted Rr (l1 ++ l2).
Proof.
  induction 1 as [|x l1 H IH Hx]; intros H2 H3; cbn; [done|]. constructor.
  - apply IH; [done|]. intros a b Ha Hb. apply H3; [by right|done].
  - apply Forall_app. split; [done|]. apply Forall_forall. intros y Hy. apply H3; [by left|done].
Qed.
Lemma ssorted_idx {X} (Rr : X -> X -> Prop) l : (forall i j x y, i < j -> l !! i = Some x -> l !! j = Some y -> Rr x y) -> StronglySorted Rr l.
Proof.
  induction l as [|x l IH]; intros H; constructor.
  - apply IH. intros i j a b Hij Ha Hb. apply (H (Datatypes.S i) (Datatypes.S j) a b); [lia|done|done].
  - apply Forall_forall. intros y Hy. apply elem_of_list_lookup in Hy as [j Hj]. apply (H 0 (Datatypes.S j) x y); [lia|done|done].
Qed.
Lemma leaf_sorted p n : S !! p = Some n -> lvl n = 0 -> StronglySorted N.le (leaf_slices m p) /\ forall x, x ∈ leaf_slices m p -> (lo n <= x <= hi n)%N.
Proof.
  intros Hp Hl. destruct (slices_leaf p n Hp Hl) as (g & md & rt & pa & L & HA & HL & -> & E). rewrite E. split.
  - apply ssorted_idx. intros i j x y Hij Hx Hy. rewrite list_lookup_fmap in Hx, Hy.
    destruct (es L !! i) as [e|] eqn:E1; [|done]. destruct (es L !! j) as [e'|] eqn:E2; [|done]. cbn in Hx, Hy. injection Hx as <-. injection Hy as <-.
    by eapply (lk_sort _ _ _ _ _ _ HL i j).
  - intros x Hx. apply elem_of_list_fmap in Hx as (e & -> & He). apply (lk_span _ _ _ _ _ _ HL e He).
Qed.
Lemma contig_sorted l a b ls : contig S l a b ls -> StronglySorted N.le (slices m ls) /\ forall x, x ∈ slices m ls -> (a <= x)%N.
Proof.
  unfold slices. induction 1 as [q n Hq Hl Hd|q n b ls Hq Hl Hd Hc [IH1 IH2]]; cbn [map concat].
  - rewrite app_nil_r. destruct (leaf_sorted q n Hq Hl) as [H1 H2]. split; [done|]. intros x Hx. apply H2 in Hx. lia.
  - destruct (leaf_sorted q n Hq Hl) as [H1 H2]. split.
    + apply ssorted_app; [done|done|]. intros x y Hx%H2 Hy%IH2. lia.
    + intros x Hx. apply elem_of_app in Hx as [Hx%H2|Hx%IH2]; [lia|]. pose proof (span S (sR s) I q n Hq). lia.
Qed.
(** only the first leaf of a layer may be empty *)
Lemma leaf_nonempty p n nx pv : S !! p = Some n -> n_sb n = SL nx pv -> pv <> 0%N -> 1 <= length (leaf_slices m p).
Proof.
  intros Hp Hsb Hpv. destruct (at_leaf p n Hp ltac:(by eapply lv_sl)) as (l & g & md & rt & pa & L & Hx & HA & HR & HL & -> & E).
  unfold leaf_slices. rewrite Hx, map_length. destruct HR. rewrite lr_perm. fold (ids L). rewrite Hsb in E. injection E as _ E.
  destruct (lk_first _ _ _ _ _ _ HL) as [F1 _]; [congruence|]. destruct (ids L); [done|cbn; lia].
Qed.
Lemma linked_len ls : linked m 0 ls -> (forall q, q ∈ ls -> exists n, S !! q = Some n /\ lvl n = 0) -> length ls <= 1 + length (slices m ls).
Proof.
  intros H Hq. destruct ls as [|x ls]; [cbn; lia|]. cbn [linked] in H. destruct H as (_ & _ & H).
  destruct (Hq x) as (n & Hx & _); [by left|]. assert (Hxz : x <> 0%N) by (by eapply nz).
  assert (G : forall ls x, x <> 0%N -> linked m x ls -> (forall q, q ∈ ls -> exists n, S !! q = Some n /\ lvl n = 0) -> length ls <= length (slices m ls)).
  { clear ls x H Hq n Hx Hxz. induction ls as [|y ls IH]; intros x Hx H Hq; [cbn; lia|]. cbn [linked] in H. destruct H as (H1 & _ & H2).
    destruct (Hq y) as (n & Hy & Hl); [by left|]. unfold slices. cbn [map concat length]. rewrite app_length. fold (slices m ls).
    destruct (n_sb n) as [nx pv|] eqn:En; [|unfold lvl in Hl; by rewrite En in Hl]. destruct (sb_links y n nx pv Hy En) as [_ Hp]. rewrite H1 in Hp. injection Hp as <-.
    pose proof (leaf_nonempty y n nx x Hy En Hx). specialize (IH y (nz S (sR s) I y n Hy) H2 (fun q Hq' => Hq q (elem_of_list_further q y ls Hq'))). lia. }
  unfold slices. cbn [map concat length]. rewrite app_length. fold (slices m ls).
  pose proof (G ls x Hxz H (fun q Hq' => Hq q (elem_of_list_further q x ls Hq'))). lia.
Qed.
(** without entries at the upper end of a leaf, no slice occurs in two leaves *)
Lemma slices_disjoint l a b ls : NoDead (sA s) -> contig S l a b ls -> NoDup ls -> forall p q x, p ∈ ls -> q ∈ ls -> x ∈ leaf_slices m p -> x ∈ leaf_slices m q -> p = q.
Proof.
  intros Hd Hc Hn p q x Hp Hq Hxp Hxq. destruct (contig_in S _ _ _ _ _ Hc Hp) as (np & P1 & P2 & P3). destruct (contig_in S _ _ _ _ _ Hc Hq) as (nq & Q1 & Q2 & Q3).
  assert (G : forall p n, S !! p = Some n -> lvl n = 0 -> x ∈ leaf_slices m p -> (lo n <= x < hi n)%N).
  { intros r n Hr Hl Hx. destruct (slices_leaf r n Hr Hl) as (g & md & rt & pa & L & HA & HL & -> & E). rewrite E in Hx. apply elem_of_list_fmap in Hx as (e & -> & He).
    split; [apply (lk_span _ _ _ _ _ _ HL e He)|]. by eapply Hd. }
  destruct (decide (p = q)) as [|Hne]; [done|]. exfalso. pose proof (G p np P1 P2 Hxp). pose proof (G q nq Q1 Q2 Hxq).
  destruct (si_disj _ _ _ _ I p q np nq P1 Q1 Hne) as [H1|H1]; [congruence|done|done|lia|lia].
Qed.
End Mem.

(** ** after a history *)
Lemma after_inv F ops m : 300 <= F -> history_ok ops -> after F ops m -> exists B s, St m s /\ Inv (Kof ops) B s 0 0 /\ free_but [] (sA s) /\ (unambiguous ops -> NoDead (sA s)).
Proof.
  intros HF Hok [l E]. destruct (history_run false F ops HF Hok) as (l' & m' & E' & HR & _). change insert with (insert_gen false) in E. rewrite E in E'. injection E' as <- <-.
  destruct HR as (_ & s & _ & H1 & H2 & H3 & _ & _ & _ & Hx). eexists _, s. split; [done|]. split; [done|]. split; [done|]. intros Hu. apply Hx. right.
  intros k1 k2 v1 v2 K1 K2 Hc. apply clash_amb in Hc. exact (Hu k1 k2 v1 v2 K1 K2 Hc).
Qed.
Lemma top_node m s p : St m s -> top m p -> exists n, skels (sA s) !! p = Some n /\ n_pa n = 0%N.
Proof. intros HS (x & Hx & Hp). destruct (node_at m s HS p x Hx) as (n & Hn & E). exists n. split; [done|congruence]. Qed.
Lemma leaf_chain F ops m : 300 <= F -> history_ok ops -> after F ops m ->
  top m (root m) /\
  (forall p, top m p -> exists h ls, leaves_at m h p = Some ls /\ NoDup ls /\ linked m 0 ls /\ StronglySorted N.le (slices m ls)) /\
  (forall q, is_Some (next_of m q) -> exists p h ls, top m p /\ leaves_at m h p = Some ls /\ q ∈ ls /\
     forall p' h' ls', top m p' -> leaves_at m h' p' = Some ls' -> q ∈ ls' -> p' = p).
Proof.
  intros HF Hok Ha. destruct (after_inv F ops m HF Hok Ha) as (B & s & HS & HI & _ & _). pose proof (iv_s _ _ _ _ _ HI) as I.
  assert (GL : forall p h ls n, skels (sA s) !! p = Some n -> leaves_at m h p = Some ls -> lvl n = h).
  { intros p h. revert p. induction h as [|h IH]; intros p ls n Hp Hl; cbn in Hl.
    - destruct (heap m !! p) as [[l|i]|] eqn:Hh; try done. unfold lvl. destruct (n_sb n) as [|J] eqn:EJ; [done|].
      destruct (at_inode m s HS p n J Hp EJ) as (i & Hx & _). congruence.
    - destruct (heap m !! p) as [[l|i]|] eqn:Hh; try done. unfold lvl. destruct (n_sb n) as [nx pv|J] eqn:EJ.
      { destruct (at_leaf (Kof ops) B m s HS HI p n Hp) as (l & g & md & rt & pa & L & Hx & _); [unfold lvl; by rewrite EJ|]. congruence. }
      destruct (at_inode m s HS p n J Hp EJ) as (i' & Hx & Hc & _). rewrite Hh in Hx. injection Hx as <-.
      destruct (kid_at _ _ _ _ I p n J 0 Hp EJ) as (c & cn & K1 & _ & _ & K3 & _ & _ & K6 & _); [lia|].
      f_equal. rewrite <- K6. destruct (mapM (leaves_at m h) (children i)) as [lss|] eqn:EM; [|done]. apply mapM_Some in EM. rewrite Hc in EM.
      destruct (Forall2_lookup_l _ _ _ _ _ EM K1) as (ls0 & _ & Hls0). by eapply IH. }
  split; [|split].
  - destruct (si_root _ _ _ _ I) as (n & N1 & _ & N2 & _). destruct (at_node m s HS (sR s) n N1) as (x & Hx & Hp). rewrite (st_root _ _ HS). exists x. split; [done|congruence].
  - intros p Ht. destruct (top_node m s p HS Ht) as (n & Hp & Hpa). destruct (layer _ _ m s HS HI p n Hp Hpa) as (ls & Hg & Hc & Hall).
    destruct Hg as (n' & G1 & G2 & _ & G4 & _). exists (lvl n), ls. split; [done|]. split; [done|]. split.
    + eapply (chain_linked _ _ m s HS HI (lid n)); done.
    + eapply (contig_sorted _ _ m s HS HI); done.
  - intros q [nx Hq]. unfold next_of in Hq. destruct (heap m !! q) as [[l|]|] eqn:Hh; try done. destruct (node_at m s HS q _ Hh) as (qn & Q1 & _).
    assert (Q0 : lvl qn = 0). { unfold lvl. destruct (n_sb qn) as [|J] eqn:EJ; [done|]. destruct (at_inode m s HS q qn J Q1 EJ) as (i & Hx & _). congruence. }
    destruct (climb_top _ _ I q qn Q1) as (k & p & pn & C1 & C2 & C3). destruct (climb_ok _ _ I k q qn p Q1 C1) as (pn2 & D1 & D2 & D3). rewrite C2 in D1. injection D1 as <-.
    destruct (layer _ _ m s HS HI p pn C2 C3) as (ls & Hg & Hc & Hall). destruct Hg as (n' & G1 & G2 & G3 & G4 & G5 & _).
    exists p, (lvl pn), ls. split; [destruct (at_node m s HS p pn C2) as (x & Hx & Hp); exists x; split; [done|congruence]|]. split; [done|]. split; [by eapply Hall|].
    intros p' h' ls' Ht' Hl' Hq'. destruct (top_node m s p' HS Ht') as (n2 & Hp' & Hpa'). rewrite <- (GL p' h' ls' n2 Hp' Hl') in Hl'.
    destruct (leaves_ok _ _ m s HS HI (lvl n2) p' n2 Hp' eq_refl) as (ls2 & (n3 & T1 & T2 & T3 & T4 & T5 & _)). rewrite Hl' in T2. injection T2 as <-.
    destruct (climb_top_eq _ q (lvl n2) k p' p n2 pn (T5 q Hq') Hp' Hpa' C1 C2 C3). done.
Qed.
Lemma balanced F ops m : 300 <= F -> history_ok ops -> after F ops m ->
  (forall p, top m p -> exists h ls, leaves_at m h p = Some ls /\ h <= 22 /\ (forall h', h = S h' -> 2 * 8 ^ h' <= length ls) /\ length ls <= 1 + length (slices m ls)) /\
  (forall p i, heap m !! p = Some (NInode i) -> 1 <= i_nkeys i <= 15 /\ (i_parent i <> 0%N -> 7 <= i_nkeys i)) /\
  (forall p x, heap m !! p = Some x -> parent_link x <> 0%N -> exists i, heap m !! parent_link x = Some (NInode i) /\ p ∈ children i).
Proof.
  intros HF Hok Ha. destruct (after_inv F ops m HF Hok Ha) as (B & s & HS & HI & _ & _). pose proof (iv_s _ _ _ _ _ HI) as I.
  split; [|split].
  - intros p Ht. destruct (top_node m s p HS Ht) as (n & Hp & Hpa). destruct (layer _ _ m s HS HI p n Hp Hpa) as (ls & Hg & Hc & Hall).
    destruct Hg as (n' & G1 & G2 & _ & G4 & _ & _ & _ & G8). exists (lvl n), ls. split; [done|]. split; [by eapply (level_bound _ _ _ _ I)|]. split; [done|].
    eapply (linked_len _ _ m s HS HI).
    + eapply (chain_linked _ _ m s HS HI (lid n)); done.
    + intros q Hq. destruct (contig_in _ _ _ _ _ _ Hc Hq) as (qn & Q1 & Q2 & _). eauto.
  - intros p i Hi. destruct (node_at m s HS p _ Hi) as (n & Hp & Hpa). cbn in Hpa. destruct (n_sb n) as [nx pv|J] eqn:EJ.
    { destruct (at_leaf _ _ m s HS HI p n Hp) as (l & g & md & rt & pa & L & Hx & _); [unfold lvl; by rewrite EJ|]. congruence. }
    destruct (at_inode m s HS p n J Hp EJ) as (i' & Hx & Hc & Hn & Hpp & Hl). rewrite Hi in Hx. injection Hx as <-. pose proof (si_inode _ _ _ _ I p n J Hp EJ) as HO.
    rewrite Hn. split; [split; [apply HO|]|intros Hz; apply HO; left; congruence].
    apply skels_some in Hp as (an & HA & ->). destruct (St_lookup _ _ _ _ HS HA) as (x & Hx & Hr). rewrite Hi in Hx. injection Hx as <-. unfold node_rel in Hr. destruct (a_bd an) as [|J'] eqn:Eb; [done|].
    destruct Hr as (_ & _ & Hr). unfold skel in EJ. cbn in EJ. rewrite Eb in EJ. injection EJ as ->. pose proof (io_lk _ _ _ _ _ _ _ HO). destruct Hr. lia.
  - intros p x Hx Hz. destruct (node_at m s HS p _ Hx) as (n & Hp & Hpa). rewrite Hpa in *.
    destruct (si_pa _ _ _ _ I p n Hp (nz _ _ I p n Hp) Hz) as (pn & J & P1 & P2 & P3). destruct (at_inode m s HS _ pn J P1 P2) as (i & Hi & Hc & _).
    exists i. split; [done|]. by rewrite Hc.
Qed.
Lemma slices_not_separated F ops m : 300 <= F -> history_ok ops -> unambiguous ops -> after F ops m ->
  forall p h ls q q' x, top m p -> leaves_at m h p = Some ls -> q ∈ ls -> q' ∈ ls -> x ∈ leaf_slices m q -> x ∈ leaf_slices m q' -> q = q'.
Proof.
  intros HF Hok Hu Ha p h ls q q' x Ht Hls Hq Hq' Hx Hx'. destruct (after_inv F ops m HF Hok Ha) as (B & s & HS & HI & _ & Hd). specialize (Hd Hu).
  destruct (leaf_chain F ops m HF Hok Ha) as (_ & HL & _).
  destruct (top_node m s p HS Ht) as (n & Hp & Hpa). destruct (layer _ _ m s HS HI p n Hp Hpa) as (ls' & Hg & Hc & Hall).
  destruct Hg as (n' & G1 & G2 & _ & G4 & _).
  assert (E : ls = ls').
  { assert (GE : forall h h' p a b, leaves_at m h p = Some a -> leaves_at m h' p = Some b -> a = b).
    { clear. induction h as [|h IH]; intros [|h'] p a b Ha Hb; cbn in *.
      - destruct (heap m !! p) as [[l|i]|]; congruence.
      - destruct (heap m !! p) as [[l|i]|]; done.
      - destruct (heap m !! p) as [[l|i]|]; done.
      - destruct (heap m !! p) as [[l|i]|]; [done| |done]. destruct (mapM (leaves_at m h) (children i)) as [la|] eqn:EA; [|done]. destruct (mapM (leaves_at m h') (children i)) as [lb|] eqn:EB; [|done].
        cbn in Ha, Hb. injection Ha as <-. injection Hb as <-. f_equal. apply mapM_Some in EA, EB. revert lb EB.
        induction EA as [|c la0 cs la HA1 HA2 IHA]; intros lb EB; inversion EB; subst; [done|]. f_equal; [by eapply IH|by apply IHA]. }
    by eapply GE. }
  subst ls'. eapply (slices_disjoint _ _ m s HS HI); done.
Qed.
