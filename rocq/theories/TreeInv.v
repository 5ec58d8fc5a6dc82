(** The invariant of the tree between calls (and, with [pl], [pr] non-zero, in the middle
    of propagating a split: [pl] was split, its new right sibling [pr] is not yet known to
    the parent). *)
From Verif Require Import Base Perm PermFacts PermList Key SpecKey KeyFacts Suffix Prog Version Mem Tree TreeState TreePrim.

(** ** skeletons: what other nodes rely on *)
Inductive sbody := SL (nx pv : N) | SI (J : ibody).
Record snode := mk_sn { n_gh : ghost; n_rt : bool; n_pa : N; n_sb : sbody }.
Definition skel (n : anode) : snode :=
  mk_sn (a_gh n) (a_rt n) (a_pa n) (match a_bd n with BLeaf L => SL (lb_nx L) (lb_pv L) | BInode J => SI J end).
Definition skels (A : gmap N anode) : gmap N snode := skel <$> A.
Notation lid n := (g_lid (n_gh n)).
Notation pre n := (g_pre (n_gh n)).
Notation lo n := (g_lo (n_gh n)).
Notation hi n := (g_hi (n_gh n)).
Notation xh n := (g_xh (n_gh n)).
Definition lvl (n : snode) : nat := match n_sb n with SL _ _ => 0 | SI J => S (ib_ht J) end.
Definition TOP : N := 2 ^ 64.
(** identity of the main layer: the address of the first leaf of a new tree *)
Definition MAIN : N := 2.

Definition kids (J : ibody) : list N := take (ib_nk J + 1) (ib_cs J).
Definition bnds (g : ghost) (J : ibody) : list N := g_lo g :: take (ib_nk J) (ib_ks J) ++ [g_hi g].

Record kid_ok (S : gmap N snode) (pr p : N) (g : ghost) (J : ibody) (i : nat) (c : N) : Prop := {
  kd_pr : c <> pr;
  kd_kid : exists cn, S !! c = Some cn /\ n_pa cn = p /\ lid cn = g_lid g /\ lvl cn = ib_ht J /\
           bnds g J !! i = Some (lo cn) /\ bnds g J !! (i + 1) = Some (xh cn) }.
Record iok (S : gmap N snode) (pl pr p : N) (g : ghost) (pa : N) (J : ibody) : Prop := {
  io_nk : 1 <= ib_nk J;
  io_min : pa <> 0%N \/ p = pl \/ p = pr -> 7 <= ib_nk J;
  io_lk : ib_nk J <= length (ib_ks J);
  io_lc : ib_nk J + 1 <= length (ib_cs J);
  io_nd : NoDup (kids J);
  io_kid : forall i c, kids J !! i = Some c -> kid_ok S pr p g J i c }.
Record gok (p pl : N) (g : ghost) : Prop := {
  go_lohi : (g_lo g <= g_hi g)%N;
  go_xh : (g_hi g <= g_xh g)%N;
  go_top : (g_xh g <= TOP)%N;
  go_lo : (g_lo g < TOP)%N;
  go_eq : p <> pl -> g_xh g = g_hi g;
  go_pre : exists d, length (g_pre g) = d * 8 }.
Record lok (S : gmap N snode) (p : N) (g : ghost) (nx pv : N) : Prop := {
  lo_end : nx = 0%N -> g_hi g = TOP;
  lo_nx : nx <> 0%N -> exists qn nx', S !! nx = Some qn /\ n_sb qn = SL nx' p /\ lid qn = g_lid g /\ lo qn = g_hi g;
  lo_first : pv = 0%N -> g_lo g = 0%N;
  lo_pv : pv <> 0%N -> exists qn pv', S !! pv = Some qn /\ n_sb qn = SL p pv';
  lo_deg : g_lo g = g_hi g -> pv <> 0%N }.
Record SInv (S : gmap N snode) (R pl pr : N) : Prop := {
  si_zero : S !! 0%N = None;
  si_root : exists n, S !! R = Some n /\ lid n = MAIN /\ n_pa n = 0%N /\ pre n = [] /\ R <> pr;
  si_gh : forall p n, S !! p = Some n -> gok p pl (n_gh n);
  si_lid : forall p n, S !! p = Some n -> exists n', S !! lid n = Some n' /\ lid n' = lid n /\ pre n' = pre n;
  si_pa : forall p n, S !! p = Some n -> p <> pr -> n_pa n <> 0%N ->
          exists pn J, S !! n_pa n = Some pn /\ n_sb pn = SI J /\ p ∈ kids J;
  si_top : forall p n, S !! p = Some n -> p <> pr -> n_pa n = 0%N ->
           lo n = 0%N /\ xh n = TOP /\ (lid n = MAIN -> p = R);
  si_rt : forall p n, S !! p = Some n -> n_rt n = if decide (p = pr) then false else (n_pa n =? 0)%N;
  si_inode : forall p n J, S !! p = Some n -> n_sb n = SI J -> iok S pl pr p (n_gh n) (n_pa n) J;
  si_leaf : forall p n nx pv, S !! p = Some n -> n_sb n = SL nx pv -> lok S p (n_gh n) nx pv;
  si_disj : forall p q n n', S !! p = Some n -> S !! q = Some n' -> p <> q -> lid n = lid n' ->
            lvl n = 0 -> lvl n' = 0 -> (hi n <= lo n')%N \/ (hi n' <= lo n)%N;
  si_deg : forall p q n n', S !! p = Some n -> S !! q = Some n' -> lid n = lid n' ->
           lvl n = 0 -> lvl n' = 0 -> lo n = hi n -> lo n' = hi n' -> lo n = lo n' -> p = q;
  si_pend : (pl <> 0%N \/ pr <> 0%N) -> pl <> pr /\ exists nl nr, S !! pl = Some nl /\ S !! pr = Some nr /\
            lid nr = lid nl /\ lvl nr = lvl nl /\ lo nr = hi nl /\ hi nr = xh nl }.

(** ** leaves *)
Definition slot0 : slot := mk_slot 0 0 0 None.
Definition ids (L : lbody) : list nat := active_slots (lb_perm L).
Definition ent (L : lbody) (i : nat) : slot := nth i (lb_sl L) slot0.
(** the entries in logical order *)
Definition es (L : lbody) : list slot := map (ent L) (ids L).
Definition ecls (e : slot) : N * N := (s_ik e, N.min (s_kx e) 9).

(** [r]: the bytes of the key from this layer on *)
Definition rest_of (e : slot) (r : bytes) : Prop :=
  is_bytes r /\ s_ik e = be_word (pad8 r) /\
  if Nat.leb (length r) 8 then s_kx e = N.of_nat (length r)
  else s_kx e = KSUF_KEYLENX /\ s_sf e = Some (drop 8 r).

(** [K k v]: [v] was inserted under [k] *)
Definition ent_ok (K : bytes -> N -> Prop) (S : gmap N snode) (V : gmap N N) (g : ghost) (e : slot) : Prop :=
  s_ptr e <> 0%N /\
  ((exists r v, rest_of e r /\ length (g_pre g ++ r) <= 256 /\ V !! s_ptr e = Some v /\ K (g_pre g ++ r) v) \/
   (s_kx e = LAYER_KEYLENX /\ exists n w t v, S !! s_ptr e = Some n /\ is_bytes w /\ length w = 8 /\
      s_ik e = be_word w /\ pre n = g_pre g ++ w /\ length (pre n) < 256 /\
      t <> [] /\ K (g_pre g ++ w ++ t) v)).
Record leaf_ok (K : bytes -> N -> Prop) (B : N) (S : gmap N snode) (V : gmap N N) (g : ghost) (L : lbody) : Prop := {
  lk_len : length (lb_sl L) = 24;
  lk_perm : p_wf P24 (lb_perm L);
  lk_free : forall i x, lb_sl L !! i = Some x -> i ∉ ids L -> s_ptr x = 0%N /\ s_sf x = None;
  lk_sf : forall i x, lb_sl L !! i = Some x -> s_kx x <> KSUF_KEYLENX -> s_sf x = None;
  lk_sort : forall i j e e', i < j -> es L !! i = Some e -> es L !! j = Some e' -> (s_ik e <= s_ik e')%N;
  lk_span : forall e, e ∈ es L -> (g_lo g <= s_ik e <= g_hi g)%N /\ (s_ik e < TOP)%N;
  lk_ent : forall e, e ∈ es L -> ent_ok K S V g e;
  lk_nd : NoDup (map ecls (es L));
  lk_first : lb_pv L <> 0%N -> ids L !! 0 = Some 0 /\ s_ik (ent L 0) = g_lo g;
  lk_deg : forall qn, lb_nx L <> 0%N -> S !! lb_nx L = Some qn -> lo qn = hi qn ->
           forall e, e ∈ es L -> (s_ik e < g_hi g)%N;
  lk_bud : (lb_bud L <= B)%N }.

Record Inv (K : bytes -> N -> Prop) (B : N) (s : ast) (pl pr : N) : Prop := {
  iv_s : SInv (skels (sA s)) (sR s) pl pr;
  iv_l : forall p g md rt pa L, sA s !! p = Some (LF g md rt pa L) -> leaf_ok K B (skels (sA s)) (sV s) g L }.

(** no node outside [X] is locked *)
Definition free_but (X : list N) (A : gmap N anode) : Prop :=
  forall p n, A !! p = Some n -> p ∉ X -> a_md n = MFree.

(** ** content *)
(** [e] is an entry of layer [l] *)
Definition entry (A : gmap N anode) (l : N) (e : slot) : Prop :=
  exists p g md rt pa L, A !! p = Some (LF g md rt pa L) /\ g_lid g = l /\ e ∈ es L.
(** following the layers from layer [l], with [d] layers above, leads key [kb] to the
    value slot holding pointer [h] *)
Inductive reaches (A : gmap N anode) (kb : bytes) : N -> nat -> N -> Prop :=
| r_here l d e : entry A l e -> (s_kx e < LAYER_KEYLENX)%N -> rest_of e (drop (d * 8) kb) -> reaches A kb l d (s_ptr e)
| r_down l d e n h : entry A l e -> s_kx e = LAYER_KEYLENX -> s_ik e = be_word (pad8 (drop (d * 8) kb)) ->
    8 < length (drop (d * 8) kb) -> A !! s_ptr e = Some n -> reaches A kb (g_lid (a_gh n)) (d + 1) h ->
    reaches A kb l d h.
(** no entry lies at the upper end of its leaf, where lookups do not go *)
Definition NoDead (A : gmap N anode) : Prop :=
  forall p g md rt pa L e, A !! p = Some (LF g md rt pa L) -> e ∈ es L -> (s_ik e < g_hi g)%N.

(** ** consequences *)
Lemma skels_some A p sn : skels A !! p = Some sn <-> exists n, A !! p = Some n /\ sn = skel n.
Proof. unfold skels. rewrite lookup_fmap_Some. naive_solver. Qed.
Lemma skels_lookup A p n : A !! p = Some n -> skels A !! p = Some (skel n).
Proof. intros H. unfold skels. by rewrite lookup_fmap, H. Qed.
Lemma skels_set A p n : skels (<[p := n]> A) = <[p := skel n]> (skels A).
Proof. apply fmap_insert. Qed.
Lemma skels_same A p n n' : A !! p = Some n -> skel n' = skel n -> skels (<[p := n']> A) = skels A.
Proof. intros H E. rewrite skels_set, E. apply insert_id. by apply skels_lookup. Qed.

Section SFacts.
Context (S : gmap N snode) (R pl pr : N) (I : SInv S R pl pr).

Lemma bnds_len g J : ib_nk J <= length (ib_ks J) -> length (bnds g J) = ib_nk J + 2.
Proof. intros H. unfold bnds. cbn. rewrite app_length, take_length. cbn. lia. Qed.
Lemma bnds_0 g J : bnds g J !! 0 = Some (g_lo g). Proof. done. Qed.
Lemma bnds_last g J : ib_nk J <= length (ib_ks J) -> bnds g J !! (ib_nk J + 1) = Some (g_hi g).
Proof.
  intros H. replace (ib_nk J + 1) with (Datatypes.S (ib_nk J)) by lia. change (bnds g J !! Datatypes.S (ib_nk J)) with ((take (ib_nk J) (ib_ks J) ++ [g_hi g]) !! ib_nk J).
  rewrite lookup_app_r by (rewrite take_length; lia). rewrite take_length.
  replace (ib_nk J - ib_nk J `min` length (ib_ks J)) with 0 by lia. done.
Qed.
Lemma bnds_mid g J i : i < ib_nk J -> ib_nk J <= length (ib_ks J) -> bnds g J !! (i + 1) = ib_ks J !! i.
Proof.
  intros Hi H. replace (i + 1) with (Datatypes.S i) by lia. change (bnds g J !! Datatypes.S i) with ((take (ib_nk J) (ib_ks J) ++ [g_hi g]) !! i).
  rewrite lookup_app_l by (rewrite take_length; lia). by rewrite lookup_take.
Qed.
Lemma kids_len J : ib_nk J + 1 <= length (ib_cs J) -> length (kids J) = ib_nk J + 1.
Proof. intros H. unfold kids. rewrite take_length. lia. Qed.

(** child [i] of an internode *)
Lemma kid_at p n J i : S !! p = Some n -> n_sb n = SI J -> i <= ib_nk J ->
  exists c cn, kids J !! i = Some c /\ ib_cs J !! i = Some c /\ c <> pr /\ S !! c = Some cn /\ n_pa cn = p /\ lid cn = lid n /\
    lvl cn = ib_ht J /\ bnds (n_gh n) J !! i = Some (lo cn) /\ bnds (n_gh n) J !! (i + 1) = Some (xh cn).
Proof.
  intros Hp Hs Hi. pose proof (si_inode _ _ _ _ I p n J Hp Hs) as H.
  destruct (lookup_lt_is_Some_2 (kids J) i) as [c Hc].
  { rewrite kids_len; [lia|]. destruct H; lia. }
  destruct (io_kid _ _ _ _ _ _ _ H i c Hc) as [Hpr (cn & E)].
  exists c, cn. split; [done|]. split; [|by destruct_and?].
  unfold kids in Hc. rewrite lookup_take in Hc by lia. done.
Qed.
Lemma bnds_step p n J i x y : S !! p = Some n -> n_sb n = SI J ->
  bnds (n_gh n) J !! i = Some x -> bnds (n_gh n) J !! (i + 1) = Some y -> (x <= y)%N.
Proof.
  intros Hp Hs Hx Hy. pose proof (si_inode _ _ _ _ I p n J Hp Hs) as H.
  assert (Hi : i <= ib_nk J).
  { apply lookup_lt_Some in Hy. rewrite bnds_len in Hy; [lia|]. destruct H; lia. }
  destruct (kid_at p n J i Hp Hs Hi) as (c & cn & _ & _ & _ & Hc & _ & _ & _ & E1 & E2).
  pose proof (si_gh _ _ _ _ I c cn Hc) as []. assert (x = lo cn) by congruence. assert (y = xh cn) by congruence.
  subst. lia.
Qed.
Lemma bnds_mono p n J i k x y : S !! p = Some n -> n_sb n = SI J ->
  bnds (n_gh n) J !! i = Some x -> bnds (n_gh n) J !! (i + k) = Some y -> (x <= y)%N.
Proof.
  intros Hp Hs Hx. revert y. induction k as [|k IH]; intros y Hy.
  - rewrite Nat.add_0_r in Hy. assert (x = y) by congruence. lia.
  - destruct (lookup_lt_is_Some_2 (bnds (n_gh n) J) (i + k)) as [z Hz].
    { apply lookup_lt_Some in Hy. lia. }
    specialize (IH z Hz). replace (i + Datatypes.S k) with (i + k + 1) in Hy by lia.
    pose proof (bnds_step p n J (i + k) z y Hp Hs Hz Hy). lia.
Qed.

(** the parent of a node *)
Lemma parent_of p n : S !! p = Some n -> p <> pr -> n_pa n <> 0%N ->
  exists pn J i, S !! n_pa n = Some pn /\ n_sb pn = SI J /\ kids J !! i = Some p /\ i <= ib_nk J /\
    lid pn = lid n /\ ib_ht J = lvl n /\ (lo pn <= lo n)%N /\ (xh n <= hi pn)%N /\
    bnds (n_gh pn) J !! i = Some (lo n) /\ bnds (n_gh pn) J !! (i + 1) = Some (xh n).
Proof.
  intros Hp Hr Hpa. destruct (si_pa _ _ _ _ I p n Hp Hr Hpa) as (pn & J & H1 & H2 & H3).
  apply elem_of_list_lookup in H3 as [i Hi]. pose proof (si_inode _ _ _ _ I _ _ _ H1 H2) as HI.
  assert (Hl : i <= ib_nk J).
  { apply lookup_lt_Some in Hi. rewrite kids_len in Hi; [lia|]. destruct HI; lia. }
  destruct (io_kid _ _ _ _ _ _ _ HI i p Hi) as [_ (cn & E1 & E2 & E3 & E4 & E5 & E6)].
  rewrite Hp in E1. injection E1 as <-. exists pn, J, i. repeat (split; [done|]).
  assert (HL : ib_nk J <= length (ib_ks J)) by (destruct HI; lia).
  split; [|split; [|done]].
  - eapply (bnds_mono _ pn J 0 i); [done|done|apply bnds_0|done].
  - eapply (bnds_mono _ pn J (i + 1) (ib_nk J - i)); [done|done|done|].
    replace (i + 1 + (ib_nk J - i)) with (ib_nk J + 1) by lia. by apply bnds_last.
Qed.

(** width of spans, hence the height bound *)
Lemma width_gen p n J k (w : N) : S !! p = Some n -> n_sb n = SI J ->
  (forall i x y, bnds (n_gh n) J !! i = Some x -> bnds (n_gh n) J !! (i + k) = Some y -> (x + w <= y)%N) ->
  forall m x y, bnds (n_gh n) J !! 0 = Some x -> bnds (n_gh n) J !! (m * k) = Some y -> (x + N.of_nat m * w <= y)%N.
Proof.
  intros Hp Hs Hk m. induction m as [|m IH]; intros x y Hx Hy.
  - rewrite Nat.mul_0_l in Hy. assert (x = y) by congruence. lia.
  - destruct (lookup_lt_is_Some_2 (bnds (n_gh n) J) (m * k)) as [z Hz].
    { apply lookup_lt_Some in Hy. lia. }
    specialize (IH x z Hx Hz). specialize (Hk (m * k) z y Hz).
    replace (m * k + k) with (Datatypes.S m * k) in Hk by lia. specialize (Hk Hy). lia.
Qed.
Lemma width_leafs p n J i x y : S !! p = Some n -> n_sb n = SI J -> ib_ht J = 0 ->
  bnds (n_gh n) J !! i = Some x -> bnds (n_gh n) J !! (i + 2) = Some y -> (x + 1 <= y)%N.
Proof.
  intros Hp Hs Hh Hx Hy. pose proof (si_inode _ _ _ _ I p n J Hp Hs) as H.
  assert (Hi : i + 1 <= ib_nk J).
  { apply lookup_lt_Some in Hy. rewrite bnds_len in Hy; [lia|]. destruct H; lia. }
  destruct (kid_at p n J i Hp Hs) as (c & cn & K1 & _ & C1 & Hc & _ & C2 & C3 & E1 & E2); [lia|].
  destruct (kid_at p n J (i + 1) Hp Hs) as (d & dn & K2 & _ & D1 & Hd & _ & D2 & D3 & F1 & F2); [lia|].
  replace (i + 1 + 1) with (i + 2) in F2 by lia.
  rewrite Hx in E1. rewrite E2 in F1. rewrite Hy in F2. injection E1 as ->. injection F1 as F1. injection F2 as ->.
  pose proof (si_gh _ _ _ _ I c cn Hc) as Gc. pose proof (si_gh _ _ _ _ I d dn Hd) as Gd.
  assert (Hn : lo cn = xh cn -> lo dn = xh dn -> False).
  { intros Q1 Q2. destruct Gc, Gd.
    assert (c = d).
    { eapply (si_deg _ _ _ _ I); [exact Hc|exact Hd|congruence|congruence|congruence|lia|lia|lia]. }
    subst d. pose proof (NoDup_lookup _ _ _ _ (io_nd _ _ _ _ _ _ _ H) K1 K2). lia. }
  destruct Gc, Gd. lia.
Qed.
Lemma width_inode h : forall p n J, S !! p = Some n -> n_sb n = SI J -> ib_ht J = h -> 7 <= ib_nk J ->
  (lo n + 4 * 8 ^ N.of_nat h <= hi n)%N.
Proof.
  induction h as [|h IH]; intros p n J Hp Hs Hh Hk; pose proof (si_inode _ _ _ _ I p n J Hp Hs) as H.
  - destruct (lookup_lt_is_Some_2 (bnds (n_gh n) J) 8) as [y Hy].
    { rewrite bnds_len by (destruct H; lia). lia. }
    pose proof (width_gen p n J 2 1 Hp Hs (fun i x y => width_leafs p n J i x y Hp Hs Hh) 4 _ _ (bnds_0 _ _) Hy) as HW.
    assert (HH : (y <= hi n)%N).
    { eapply (bnds_mono p n J 8 (ib_nk J - 7)); [done|done|done|].
      replace (8 + (ib_nk J - 7)) with (ib_nk J + 1) by lia. apply bnds_last. destruct H; lia. }
    change (N.of_nat 0) with 0%N. rewrite N.pow_0_r. lia.
  - assert (Hw : forall i x y, bnds (n_gh n) J !! i = Some x -> bnds (n_gh n) J !! (i + 1) = Some y ->
                 (x + 4 * 8 ^ N.of_nat h <= y)%N).
    { intros i x y Hx Hy.
      assert (Hi : i <= ib_nk J).
      { apply lookup_lt_Some in Hy. rewrite bnds_len in Hy; [lia|]. destruct H; lia. }
      destruct (kid_at p n J i Hp Hs) as (c & cn & K1 & _ & C1 & Hc & C0 & C2 & C3 & E1 & E2); [lia|].
      assert (x = lo cn) by congruence. assert (y = xh cn) by congruence. subst.
      pose proof (si_gh _ _ _ _ I c cn Hc) as []. unfold lvl in C3. destruct (n_sb cn) as [|Jc] eqn:Ec; [lia|].
      pose proof (si_inode _ _ _ _ I c cn Jc Hc Ec) as Hic.
      assert (7 <= ib_nk Jc).
      { apply (io_min _ _ _ _ _ _ _ Hic). left.
        intros E0. rewrite E0, (si_zero _ _ _ _ I) in Hp. done. }
      pose proof (IH c cn Jc Hc Ec ltac:(lia) ltac:(lia)). lia. }
    destruct (lookup_lt_is_Some_2 (bnds (n_gh n) J) 8) as [y Hy].
    { rewrite bnds_len by (destruct H; lia). lia. }
    pose proof (width_gen p n J 1 _ Hp Hs Hw 8 _ _ (bnds_0 _ _) Hy) as HW.
    assert (HH : (y <= hi n)%N).
    { eapply (bnds_mono p n J 8 (ib_nk J - 7)); [done|done|done|].
      replace (8 + (ib_nk J - 7)) with (ib_nk J + 1) by lia. apply bnds_last. destruct H; lia. }
    rewrite Nat2N.inj_succ, N.pow_succ_r'. lia.
Qed.

(** every node has at most 22 levels below it *)
Lemma level_bound p n : S !! p = Some n -> lvl n <= 22.
Proof.
  intros Hp. unfold lvl. destruct (n_sb n) as [|J] eqn:Hs; [lia|].
  assert (Hw : forall q m K, S !! q = Some m -> n_sb m = SI K -> 7 <= ib_nk K -> ib_ht K <= 20).
  { intros q m K Hq Hm HK. pose proof (width_inode _ q m K Hq Hm eq_refl HK) as HW.
    pose proof (si_gh _ _ _ _ I q m Hq) as []. unfold TOP in *.
    destruct (decide (ib_ht K <= 20)); [done|].
    assert (HP : (8 ^ 21 <= 8 ^ N.of_nat (ib_ht K))%N) by (apply N.pow_le_mono_r; lia).
    change (8 ^ 21)%N with (2 ^ 63)%N in HP. change (2 ^ 64)%N with (2 * 2 ^ 63)%N in *.
    assert (H0 : (0 < 2 ^ 63)%N) by done.
    generalize dependent (2 ^ 63)%N. generalize dependent (8 ^ N.of_nat (ib_ht K))%N. intros. lia. }
  destruct (kid_at p n J 0 Hp Hs) as (c & cn & _ & _ & _ & Hc & C0 & _ & C3 & _); [lia|].
  unfold lvl in C3. destruct (n_sb cn) as [|Jc] eqn:Ec; [lia|].
  assert (ib_ht Jc <= 20); [|lia]. apply (Hw c cn Jc Hc Ec).
  apply (io_min _ _ _ _ _ _ _ (si_inode _ _ _ _ I c cn Jc Hc Ec)). left.
  intros E0. rewrite <- C0, E0, (si_zero _ _ _ _ I) in Hp. done.
Qed.
End SFacts.
