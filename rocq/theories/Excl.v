(** Exclusive insertions: every execution is one of an atomic map. *)
From Verif Require Import Base Perm Key Suffix Prog Version Mem Tree SpecTree SpecHist SpecLin SpecConc SpecSolo SpecExcl TreeState TreePrim TreeInv TreeRead TreeLeaf TreeContent TreeLoop TreeTop TreeLaws TreeDrop Solo ExclGc.

(** ** the collector frees one object, between calls *)
Lemma st_collect1 m s l1 g l2 : St m s -> retired m = l1 ++ g :: l2 -> exists V B, let m' := set_vb V B (mwith_retired (l1 ++ l2) m) in
  gc (length l2) m m' /\ St m' (setV V s) /\ forall x, x ∈ vrefs (sA s) -> V !! x = sV s !! x.
Proof.
  intros H E. set (m1 := mwith_retired (l1 ++ l2) m).
  destruct (reclaim_list_spec [g] m1 (vrefs (sA s) ++ retv (l1 ++ l2) ++ sfv s) (brefs (sA s) ++ retb (l1 ++ l2)))
    as (V & B & E1 & O1 & O2 & L1 & L2).
  - change (vals m1) with (vals m). eapply own_perm; [|exact (st_ov _ _ H)]. rewrite E. change (g :: l2) with ([g] ++ l2). rewrite !retv_app.
    generalize (vrefs (sA s)) (retv l1) (retv [g]) (retv l2) (sfv s). intros. perm_tac.
  - change (bags m1) with (bags m). eapply own_perm; [|exact (st_ob _ _ H)]. rewrite E. change (g :: l2) with ([g] ++ l2). rewrite !retb_app.
    generalize (brefs (sA s)) (retb l1) (retb [g]) (retb l2). intros. perm_tac.
  - exists V, B. cbn zeta. cbn [reclaim_list res_bind] in E1. destruct (reclaim1 g m1) as [m2|] eqn:E2; [|done]. cbn in E1. injection E1 as ->.
    apply reclaim1_del in E2 as [Hg E2]. split; [|destruct H; split; [|intros x Hx; rewrite L1; [cbn; by rewrite st_vals|apply elem_of_app; by left]]].
    + exists l1, g, l2. split; [done|]. split; [done|]. split; [by destruct g|]. split; [|exact E2].
      destruct g; cbn in *; [apply (st_av _ _ H)|apply (st_ab _ _ H)]; done.
    + split; cbn [heap bags vals root cnt nxt retired tracked set_vb mwith_bags mwith_vals mwith_retired sA sR sC sV sfv sfn setV m1]; try done.
      * intros p. pose proof (st_heap p) as Hp. destruct (heap m !! p), (sA s !! p) as [an|] eqn:En; try done.
        eapply node_rel_bags; [|exact Hp]. intros b Hb. apply L2. apply elem_of_app. left. apply big_elem. exists p, an. done.
      * intros p Hp. apply st_ab. apply O2 in Hp. apply st_ob. rewrite E, retb_app. change (g :: l2) with ([g] ++ l2). rewrite retb_app.
        rewrite retb_app in Hp. rewrite !elem_of_app in *. naive_solver.
      * intros p Hp. apply st_av. apply O1 in Hp. apply st_ov. rewrite E, retv_app. change (g :: l2) with ([g] ++ l2). rewrite retv_app.
        rewrite retv_app in Hp. rewrite !elem_of_app in *. naive_solver.
Qed.
Lemma rel_collect1 fx K B m mu c l1 g l2 : Rel fx K B m mu c -> retired m = l1 ++ g :: l2 ->
  exists m', gc (length l2) m m' /\ Rel fx K B m' mu c.
Proof.
  intros (HB & s & Hc & HS & HI & Hf & H1 & H2 & H3 & H4) Er. destruct (st_collect1 m s l1 g l2 HS Er) as (V & Bg & E & HS' & HV).
  eexists. split; [exact E|]. split; [done|]. exists (setV V s). split; [done|]. split; [exact HS'|]. split; [by apply inv_setV|].
  split; [done|]. split; [done|]. split; [done|]. split; [done|]. intros Hs. destruct (H4 Hs) as (X1 & X2 & X3). split; [done|]. split; [|done].
  intros k w Hk. rewrite <- X2 by done. unfold maps. cbn [setV sA sV]. split; intros (h & Hh & Hv); exists h; (split; [done|]).
  - rewrite <- HV; [done|]. by eapply reaches_ref.
  - rewrite HV; [done|]. by eapply reaches_ref.
Qed.

(** ** one call, access by access *)
Lemma ro_steps {M A} n : forall (p : prog M A) m m1 q, ro p -> steps n (m, p) = (m1, q) -> m1 = m /\ ro q.
Proof.
  induction n as [|n IH]; intros p m m1 q Hp Hs; [injection Hs as <- <-; done|]. cbn [steps] in Hs. destruct Hp as [a|e|R f k Hf Hk]; unfold step1 in Hs; cbn [fst snd] in Hs.
  - eapply IH; [|exact Hs]. constructor.
  - eapply IH; [|exact Hs]. constructor.
  - destruct (f m) as [[r m2]|e] eqn:E.
    + apply Hf in E as ->. eapply IH; [|exact Hs]. apply Hk.
    + eapply IH; [|exact Hs]. constructor.
Qed.
Lemma cm_steps {A} n : forall (p : prog mem A) m m1 q, cm p -> steps n (m, p) = (m1, q) -> cm q.
Proof.
  induction n as [|n IH]; intros p m m1 q Hp Hs; [injection Hs as <- <-; done|]. cbn [steps] in Hs. destruct Hp as [a|e|R f k Hf Hk]; unfold step1 in Hs; cbn [fst snd] in Hs.
  - eapply IH; [|exact Hs]. constructor.
  - eapply IH; [|exact Hs]. constructor.
  - destruct (f m) as [[r m2]|e] eqn:E.
    + eapply IH; [|exact Hs]. apply Hk.
    + eapply IH; [|exact Hs]. constructor.
Qed.
Lemma steps_next {M A R} n (p : prog M A) m m1 (f : M -> res (R * M)) k : steps n (m, p) = (m1, Step f k) ->
  steps (S n) (m, p) = match f m1 with Ok (r, m2) => (m2, k r) | Er e => (m1, Fail e) end.
Proof. intros H. rewrite steps_snoc, H. done. Qed.
Lemma last_of_snoc i h e : last_of i (h ++ [e]) = if decide (event_of e = i) then Some e else last_of i h.
Proof.
  unfold last_of. rewrite filter_app, filter_cons, filter_nil. destruct (decide (event_of e = i)).
  - apply last_snoc.
  - by rewrite app_nil_r.
Qed.
Lemma visible_snoc acts e : visible (acts ++ [Ev e]) = visible acts ++ [e].
Proof. unfold visible. by rewrite omap_app. Qed.
Lemma visible_effect acts i : visible (acts ++ [TakeEffect i]) = visible acts.
Proof. unfold visible. rewrite omap_app. cbn. by rewrite app_nil_r. Qed.
Lemma elem_holders thr j : j ∈ holders thr <-> exists p ops, thr !! j = Some (TRun p, ops).
Proof.
  unfold holders. rewrite elem_of_list_In, filter_In, in_seq. split.
  - intros [_ H]. destruct (thr !! j) as [[[|p] ops]|]; try done. by exists p, ops.
  - intros (p & ops & H). rewrite H. split; [|done]. apply lookup_lt_Some in H. lia.
Qed.
Lemma exclusive_app h h' : exclusive (h ++ h') -> exclusive h.
Proof. intros H h1 i o h2 j o' -> Hp. apply (H h1 i o (h2 ++ h') j o'); [|done]. by rewrite <- app_assoc. Qed.
Lemma costs_app a b : costs (a ++ b) = (costs a + costs b)%N.
Proof. induction a as [|o a IH]; cbn; [done|]. fold (costs (a ++ b)) (costs a). rewrite IH. lia. Qed.
(** the calls not made yet *)
Definition rest (thr : list (tstate * list op)) : list op := concat (map snd thr).
Lemma rest_same thr i t t' ops : thr !! i = Some (t, ops) -> rest (<[i := (t', ops)]> thr) = rest thr.
Proof.
  intros H. unfold rest. change (map snd) with (fmap (M := list) (@snd tstate (list op))). rewrite list_fmap_insert. cbn. rewrite list_insert_id; [done|]. by rewrite list_lookup_fmap, H.
Qed.
Lemma rest_call thr i t t' o ops : thr !! i = Some (t, o :: ops) -> rest thr ≡ₚ o :: rest (<[i := (t', ops)]> thr).
Proof.
  intros H. unfold rest. revert i H. induction thr as [|[t0 ops0] thr IH]; intros i H; [done|]. destruct i as [|i]; cbn in *.
  - injection H as -> ->. done.
  - rewrite (IH i H). by rewrite Permutation_middle.
Qed.
Lemma costs_perm a b : a ≡ₚ b -> costs a = costs b.
Proof. induction 1; cbn; try fold (costs l) (costs l'); try fold (costs l); try lia. Qed.

Section Excl.
Context (F : nat) (K : bytes -> N -> Prop) (n : nat).
Context (HF : 300 <= F).

(** a call on a state between insertions *)
Lemma call_run B o m mu c : op_ok o -> K_ok K o -> (B + cost o < U32_MAX)%N -> Rel false K B m mu c ->
  exists a m', run (call insert F o) m = Ok (a, m') /\ Rel false K (B + cost o) m' (map_step mu o).2 (bump c a) /\ (split_fine false K -> a = (map_step mu o).1).
Proof.
  intros Ho HK HB HR. destruct (wp_run _ _ _ (call_ok false K B F o m mu c HF Ho HK HB HR)) as (a & m1 & E1 & R1 & W1 & X1). eauto.
Qed.
Lemma call_steps B o m mu c j m1 q : op_ok o -> K_ok K o -> (B + cost o < U32_MAX)%N -> Rel false K B m mu c -> steps j (m, call insert F o) = (m1, q) ->
  (forall e, q <> Fail e) /\ forall a, q = Ret a -> Rel false K (B + cost o) m1 (map_step mu o).2 (bump c a) /\ (split_fine false K -> a = (map_step mu o).1).
Proof.
  intros Ho HK HB HR Hs. destruct (call_run B o m mu c Ho HK HB HR) as (a & m' & E & R & X). destruct (run_steps _ _ _ _ E) as (x & _ & H). destruct (H j) as [H1 H2].
  unfold P in *. rewrite Hs in H1, H2. cbn [snd] in *. split; [exact H1|]. intros b ->. specialize (H2 b eq_refl). injection H2 as -> ->. done.
Qed.

Definition shared_mode (B : N) (m0 : mem) (c : csys) (h : list event) : Prop :=
  c_mem c = m0 /\ (B + costs (rest (c_thr c)) < U32_MAX)%N /\
  forall i p ops, c_thr c !! i = Some (TRun p, ops) -> exists o k, reads_only o /\ op_ok o /\ in_progress i o h /\ steps k (m0, call insert F o) = (m0, p).
Definition excl_mode (B : N) (m0 : mem) (c : csys) (h : list event) (w : nat) (o : op) : Prop :=
  (B + cost o + costs (rest (c_thr c)) < U32_MAX)%N /\ op_ok o /\ K_ok K o /\ ~ reads_only o /\ in_progress w o h /\
  (exists p ops k, c_thr c !! w = Some (TRun p, ops) /\ steps k (m0, call insert F o) = (c_mem c, p)) /\
  (forall i p ops, c_thr c !! i = Some (TRun p, ops) -> i = w) /\
  (forall j b, c_blk c !! j = Some b -> j < length (retired (c_mem c)) - length (retired m0) -> w ∈ b).
Definition lin_part (mu0 mu : gmap bytes N) (c : csys) (h : list event) : Prop :=
  exists acts st, atomic_map n acts mu st /\ visible acts = h /\
  forall i t ops, c_thr c !! i = Some (t, ops) -> match t with
    | TIdle => st !! i = Some Idle
    | TRun _ => exists o, in_progress i o h /\ st !! i = Some (Done (map_step mu0 o).1)
    end.
Definition XInv (c : csys) (h : list event) : Prop := exists B m0 mu0 cc,
  Rel false K B m0 mu0 cc /\ length (c_thr c) = n /\ c_fault c = false /\ length (c_blk c) = length (retired (c_mem c)) /\
  Forall op_ok (rest (c_thr c)) /\ Forall (K_ok K) (rest (c_thr c)) /\
  ((shared_mode B m0 c h /\ (split_fine false K -> lin_part mu0 mu0 c h)) \/
   (exists w o, excl_mode B m0 c h w o /\ (split_fine false K -> lin_part mu0 (map_step mu0 o).2 c h))).

Lemma reads_step mu o : reads_only o -> (map_step mu o).2 = mu.
Proof. by destruct o. Qed.
Lemma reads_cost o : reads_only o -> cost o = 0%N.
Proof. by destruct o. Qed.
Lemma reads_K o : reads_only o -> K_ok K o.
Proof. by destruct o. Qed.

Lemma lin_start scripts : length scripts = n -> lin_part ∅ ∅ (c_start scripts) [].
Proof.
  intros Hn. exists [], (replicate n Idle). split; [constructor|]. split; [done|]. intros i t ops Hi. cbn in Hi. apply list_lookup_fmap_Some in Hi as (x & Hx & [= -> ->]).
  apply lookup_replicate. apply lookup_lt_Some in Hx. split; [done|lia].
Qed.
Lemma lin_call mu0 mu c c' h i o ops : lin_part mu0 mu c h -> c_thr c !! i = Some (TIdle, o :: ops) ->
  c_thr c' = <[i := (TRun (call insert F o), ops)]> (c_thr c) -> mu0 = mu -> lin_part mu0 (map_step mu0 o).2 c' (h ++ [ECall i o]).
Proof.
  intros (acts & st & Ha & Hv & Hs) Hi Ec ->. pose proof (Hs i _ _ Hi) as Hst. cbn in Hst. destruct (map_step mu o) as [a mu'] eqn:Em.
  exists ((acts ++ [Ev (ECall i o)]) ++ [TakeEffect i]), (<[i := Done a]> (<[i := Pending o]> st)). split; [|split].
  - apply (am_effect n _ mu _ i o a mu'); [by apply am_call| |done]. apply list_lookup_insert. by eapply lookup_lt_Some.
  - by rewrite visible_effect, visible_snoc, Hv.
  - intros j t ops' Hj. rewrite Ec in Hj. rewrite list_insert_insert. apply list_lookup_insert_Some in Hj as [(<- & [= <- <-] & _)|[Hne Hj]].
    + exists o. split; [unfold in_progress; rewrite last_of_snoc; by rewrite decide_True|]. rewrite Em. apply list_lookup_insert. by eapply lookup_lt_Some.
    + specialize (Hs j t ops' Hj). rewrite list_lookup_insert_ne by done. destruct t as [|p]; [done|]. destruct Hs as (o' & H1 & H2). exists o'. split; [|done].
      unfold in_progress. rewrite last_of_snoc. cbn. by rewrite decide_False.
Qed.
Lemma lin_return mu0 mu0' mu c c' h i o a p ops : lin_part mu0 mu c h -> c_thr c !! i = Some (TRun p, ops) -> in_progress i o h -> a = (map_step mu0 o).1 ->
  c_thr c' = <[i := (TIdle, ops)]> (c_thr c) -> (mu0 = mu0' \/ forall j p ops, c_thr c !! j = Some (TRun p, ops) -> j = i) -> lin_part mu0' mu c' (h ++ [ERet i a]).
Proof.
  intros (acts & st & Ha & Hv & Hs) Hi Hp Ea Ec Hm. destruct (Hs i _ _ Hi) as (o' & Hp' & Hst). unfold in_progress in Hp, Hp'. rewrite Hp in Hp'. injection Hp' as <-. subst a.
  exists (acts ++ [Ev (ERet i (map_step mu0 o).1)]), (<[i := Idle]> st). split; [by apply am_return|]. split; [by rewrite visible_snoc, Hv|].
  intros j t ops' Hj. rewrite Ec in Hj. apply list_lookup_insert_Some in Hj as [(<- & [= <- <-] & _)|[Hne Hj]].
  - apply list_lookup_insert. by eapply lookup_lt_Some.
  - pose proof (Hs j t ops' Hj) as Hj'. rewrite list_lookup_insert_ne by done. destruct t as [|q]; [done|]. destruct Hm as [<-|Hm]; [|by destruct Hne; rewrite (Hm _ _ _ Hj)].
    destruct Hj' as (x & H1 & H2). exists x. split; [|done]. unfold in_progress. rewrite last_of_snoc. cbn. by rewrite decide_False.
Qed.
Lemma lin_same mu0 mu c c' h i p p' ops : lin_part mu0 mu c h -> c_thr c !! i = Some (TRun p, ops) -> c_thr c' = <[i := (TRun p', ops)]> (c_thr c) -> lin_part mu0 mu c' h.
Proof.
  intros (acts & st & Ha & Hv & Hs) Hi Ec. exists acts, st. split; [done|]. split; [done|]. intros j t ops' Hj. rewrite Ec in Hj.
  apply list_lookup_insert_Some in Hj as [(<- & [= <- <-] & _)|[Hne Hj]]; [|by eapply Hs]. exact (Hs i _ _ Hi).
Qed.
Lemma lin_thr mu0 mu c c' h : lin_part mu0 mu c h -> c_thr c' = c_thr c -> lin_part mu0 mu c' h.
Proof. intros (acts & st & Ha & Hv & Hs) E. exists acts, st. rewrite E. done. Qed.
Lemma in_progress_other i o h e : in_progress i o h -> event_of e <> i -> in_progress i o (h ++ [e]).
Proof. intros H Hne. unfold in_progress. rewrite last_of_snoc. by rewrite decide_False. Qed.
Lemma in_progress_new i o h : in_progress i o (h ++ [ECall i o]).
Proof. unfold in_progress. rewrite last_of_snoc. by rewrite decide_True. Qed.

Lemma xinv_call c h i o ops : XInv c h -> exclusive (h ++ [ECall i o]) -> c_thr c !! i = Some (TIdle, o :: ops) -> forall t,
  XInv (mk_csys (c_mem c) (<[i := (TRun (call insert F o), ops)]> (c_thr c)) (c_blk c) (c_fault c) t) (h ++ [ECall i o]).
Proof.
  intros (B & m0 & mu0 & cc & HR & Hn & Hf & Hb & Hok & HK & Hm) Hx Hi t. pose proof (rest_call _ _ _ (TRun (call insert F o)) _ _ Hi) as Hp.
  rewrite Hp in Hok, HK. apply Forall_cons in Hok as [Ho Hok]. apply Forall_cons in HK as [HKo HK]. apply costs_perm in Hp. cbn [costs foldr] in Hp. fold (costs (rest (<[i := (TRun (call insert F o), ops)]> (c_thr c)))) in Hp.
  destruct Hm as [[(Em & HB & Hrun) Hl]|(w & o' & (_ & _ & _ & Hr & Hpw & _) & _)].
  2:{ destruct (Hx h i o [] w o' eq_refl Hpw) as [_ H]. done. }
  exists B, m0, mu0, cc. cbn [c_mem c_thr c_blk c_fault]. split; [done|]. split; [by rewrite insert_length|]. split; [done|]. split; [done|]. split; [done|]. split; [done|].
  assert (reads_only o \/ ~ reads_only o) as [Ho2|Ho2] by (destruct o; cbn; tauto).
  - left. split.
    + split; [done|]. cbn [c_thr]. split; [rewrite (reads_cost o Ho2) in Hp; rewrite Hp in HB; lia|]. intros j p ops' Hj.
      apply list_lookup_insert_Some in Hj as [(<- & [= <- <-] & _)|[Hne Hj]].
      * exists o, 0. split; [done|]. split; [done|]. split; [apply in_progress_new|done].
      * destruct (Hrun j p ops' Hj) as (x & k & H1 & H2 & H3 & H4). exists x, k. split; [done|]. split; [done|]. split; [by apply in_progress_other|done].
    + intros Hs. pose proof (lin_call mu0 mu0 c (mk_csys (c_mem c) (<[i := (TRun (call insert F o), ops)]> (c_thr c)) (c_blk c) (c_fault c) t) h i o ops (Hl Hs) Hi eq_refl eq_refl) as X.
      by rewrite (reads_step mu0 o Ho2) in X.
  - assert (forall j p ops', c_thr c !! j = Some (TRun p, ops') -> False) as Hno.
    { intros j p ops' Hj. destruct (Hrun j p ops' Hj) as (x & k & H1 & H2 & H3 & H4). destruct (Hx h i o [] j x eq_refl H3) as [H _]. done. }
    right. exists i, o. split.
    + split; [cbn [c_thr]; lia|]. split; [done|]. split; [done|]. split; [done|]. split; [apply in_progress_new|]. split; [|split].
      * exists (call insert F o), ops, 0. cbn [c_thr c_mem]. split; [apply list_lookup_insert; by eapply lookup_lt_Some|]. by rewrite Em.
      * cbn [c_thr]. intros j p ops' Hj. apply list_lookup_insert_Some in Hj as [(<- & _ & _)|[Hne Hj]]; [done|]. by destruct (Hno _ _ _ Hj).
      * cbn [c_mem c_blk]. intros j b _ Hj. rewrite Em in Hj. lia.
    + intros Hs. eapply (lin_call mu0 mu0 c); [by apply Hl|exact Hi|done|done].
Qed.

Lemma xinv_return c h i a ops : XInv c h -> c_thr c !! i = Some (TRun (Ret a), ops) -> forall blk t, length blk = length (c_blk c) ->
  XInv (mk_csys (c_mem c) (<[i := (TIdle, ops)]> (c_thr c)) blk (c_fault c) t) (h ++ [ERet i a]).
Proof.
  intros (B & m0 & mu0 & cc & HR & Hn & Hf & Hb & Hok & HK & Hm) Hi blk t Hblk. pose proof (rest_same _ _ _ TIdle _ Hi) as Hp.
  destruct Hm as [[(Em & HB & Hrun) Hl]|(w & o' & (HB & Ho & HKo & Hr & Hpw & (p & ops' & k & Hw & Hs) & Hone & Hbl) & Hl)].
  - destruct (Hrun i _ _ Hi) as (o & k & H1 & H2 & H3 & H4).
    destruct (call_steps B o m0 mu0 cc k m0 (Ret a) H2 (reads_K _ H1)) as [_ Ha]; [rewrite (reads_cost o H1); lia|done|done|].
    destruct (Ha a eq_refl) as [_ Ha']. exists B, m0, mu0, cc. cbn [c_mem c_thr c_blk c_fault]. rewrite Hp.
    split; [done|]. split; [by rewrite insert_length|]. split; [done|]. split; [congruence|]. split; [done|]. split; [done|]. left. split.
    + split; [done|]. cbn [c_thr]. rewrite Hp. split; [done|]. intros j q ops2 Hj. apply list_lookup_insert_Some in Hj as [(<- & [=] & _)|[Hne Hj]].
      destruct (Hrun j q ops2 Hj) as (x & y & G1 & G2 & G3 & G4). exists x, y. split; [done|]. split; [done|]. split; [by apply in_progress_other|done].
    + intros Hsf. eapply (lin_return mu0 mu0 mu0 c _ h i o a); [by apply Hl|exact Hi|done|by apply Ha'|done|by left].
  - pose proof (Hone _ _ _ Hi) as <-. rewrite Hi in Hw. injection Hw as <- <-.
    destruct (call_steps B o' m0 mu0 cc k (c_mem c) (Ret a) Ho HKo) as [_ Ha]; [lia|done|done|].
    destruct (Ha a eq_refl) as [HR' Ha']. exists (B + cost o')%N, (c_mem c), (map_step mu0 o').2, (bump cc a). cbn [c_mem c_thr c_blk c_fault]. rewrite Hp.
    split; [done|]. split; [by rewrite insert_length|]. split; [done|]. split; [congruence|]. split; [done|]. split; [done|]. left. split.
    + split; [done|]. cbn [c_thr]. rewrite Hp. split; [done|]. intros j q ops2 Hj. apply list_lookup_insert_Some in Hj as [(<- & [=] & _)|[Hne Hj]].
      by rewrite (Hone _ _ _ Hj) in Hne.
    + intros Hsf. eapply (lin_return mu0 _ _ c _ h i o' a); [by apply Hl|exact Hi|done|by apply Ha'|done|by right].
Qed.

Lemma xinv_step c h i R (f : mem -> res (R * mem)) k ops : XInv c h -> c_thr c !! i = Some (TRun (Step f k), ops) -> exists r m', f (c_mem c) = Ok (r, m') /\
  forall t, XInv (mk_csys m' (<[i := (TRun (k r), ops)]> (c_thr c)) (replicate (length (retired m') - length (c_blk c)) (holders (c_thr c)) ++ c_blk c) (c_fault c) t) h.
Proof.
  intros (B & m0 & mu0 & cc & HR & Hn & Hf & Hb & Hok & HK & Hm) Hi.
  destruct Hm as [[(Em & HB & Hrun) Hl]|(w & o' & (HB & Ho & HKo & Hr & Hpw & (p & ops' & j & Hw & Hs) & Hone & Hbl) & Hl)].
  - destruct (Hrun i _ _ Hi) as (o & j & H1 & H2 & H3 & H4). pose proof (steps_next _ _ _ _ _ _ H4) as H5. rewrite Em. destruct (f m0) as [[r m']|e] eqn:E.
    2:{ exfalso. assert (B + cost o < U32_MAX)%N as HB2 by (rewrite (reads_cost o H1); lia). destruct (call_steps B o m0 mu0 cc _ _ _ H2 (reads_K _ H1) HB2 HR H5) as [Hno _]. by apply (Hno e). }
    destruct (ro_steps _ _ _ _ _ (ro_call F o H1) H5) as [-> _]. exists r, m0. split; [done|]. intros t. pose proof (rest_same _ _ _ (TRun (k r)) _ Hi) as Hp.
    assert (length (retired m0) - length (c_blk c) = 0) as -> by (rewrite Hb, Em; lia). cbn [replicate app].
    exists B, m0, mu0, cc. cbn [c_mem c_thr c_blk c_fault]. rewrite Hp. split; [done|]. split; [by rewrite insert_length|]. split; [done|]. split; [congruence|]. split; [done|]. split; [done|]. left. split.
    + split; [done|]. cbn [c_thr]. rewrite Hp. split; [done|]. intros j' q ops2 Hj. apply list_lookup_insert_Some in Hj as [(<- & [= <- <-] & _)|[Hne Hj]].
      * exists o, (S j). done.
      * by apply (Hrun j' q ops2 Hj).
    + intros Hsf. eapply lin_same; [by apply Hl|exact Hi|done].
  - pose proof (Hone _ _ _ Hi) as <-. rewrite Hi in Hw. injection Hw as <- <-. pose proof (steps_next _ _ _ _ _ _ Hs) as H5. destruct (f (c_mem c)) as [[r m']|e] eqn:E.
    2:{ exfalso. assert (B + cost o' < U32_MAX)%N as HB2 by lia. destruct (call_steps B o' m0 mu0 cc _ _ _ Ho HKo HB2 HR H5) as [Hno _]. by apply (Hno e). }
    exists r, m'. split; [done|]. intros t. pose proof (rest_same _ _ _ (TRun (k r)) _ Hi) as Hp.
    assert (exists x, retired m' = x ++ retired (c_mem c)) as [x Hx].
    { apply (steps_retired 1 (Step f k) (c_mem c) m' (k r)); [exact (cm_steps _ _ _ _ _ (cm_call F o') Hs)|]. cbn [steps]. unfold step1. cbn [fst snd]. by rewrite E. }
    exists B, m0, mu0, cc. cbn [c_mem c_thr c_blk c_fault]. rewrite Hp. split; [done|]. split; [by rewrite insert_length|]. split; [done|].
    split; [rewrite app_length, replicate_length, Hx, app_length; lia|]. split; [done|]. split; [done|]. right. exists i, o'. split.
    + split; [cbn [c_thr]; by rewrite Hp|]. split; [done|]. split; [done|]. split; [done|]. split; [done|]. split; [|split].
      * exists (k r), ops, (S j). cbn [c_thr c_mem]. split; [apply list_lookup_insert; by eapply lookup_lt_Some|done].
      * cbn [c_thr]. intros j' q ops2 Hj. apply list_lookup_insert_Some in Hj as [(<- & _ & _)|[Hne Hj]]; [done|]. by apply (Hone _ _ _ Hj).
      * cbn [c_mem c_blk]. intros j' b Hj Hlt. apply lookup_app_Some in Hj as [Hj|[Hle Hj]].
        -- apply lookup_replicate in Hj as [-> _]. apply elem_holders. eauto.
        -- rewrite replicate_length in Hle, Hj. apply (Hbl _ _ Hj). rewrite Hx, app_length in *. lia.
    + intros Hsf. eapply lin_same; [by apply Hl|exact Hi|done].
Qed.
Lemma gc_reclaim m j g k m' : retired m !! j = Some g -> gc k m m' -> S (j + k) = length (retired m) ->
  reclaim1 g (mwith_retired (delete j (retired m)) m) = Ok m' /\ S (length (retired m')) = length (retired m).
Proof.
  intros Hj (l1 & g' & l2 & E & L & Hg & Ha & ->) Hk. rewrite E, app_length in Hk. cbn in Hk. assert (j = length l1) as -> by lia.
  rewrite E, list_lookup_middle in Hj by done. injection Hj as ->. rewrite E, delete_middle. split.
  - apply reclaim1_del. split; [by destruct g|done].
  - rewrite app_length. cbn. destruct g; cbn; rewrite app_length; lia.
Qed.
Lemma call_nofail B o m mu c : op_ok o -> K_ok K o -> (B + cost o < U32_MAX)%N -> Rel false K B m mu c ->
  forall j e, (steps j (m, call insert F o : prog mem ans)).2 <> Fail e.
Proof. intros H1 H2 H3 H4 j e. destruct (steps j (m, call insert F o : prog mem ans)) as [m1 q] eqn:E. by apply (call_steps B o m mu c j m1 q H1 H2 H3 H4 E). Qed.
Lemma xinv_collect c h j g : XInv c h -> retired (c_mem c) !! j = Some g -> c_blk c !! j = Some [] -> exists m',
  reclaim1 g (mwith_retired (delete j (retired (c_mem c))) (c_mem c)) = Ok m' /\ (exists x, gc x (c_mem c) m') /\
  forall t, XInv (mk_csys m' (c_thr c) (delete j (c_blk c)) (c_fault c) t) h.
Proof.
  intros (B & m0 & mu0 & cc & HR & Hn & Hf & Hb & Hok & HK & Hm) Hj Hbj.
  assert (forall m', S (length (retired m')) = length (retired (c_mem c)) -> length (delete j (c_blk c)) = length (retired m')) as Hlen.
  { intros m' Hm'. rewrite length_delete by (by eexists). rewrite Hb. lia. }
  destruct Hm as [[(Em & HB & Hrun) Hl]|(w & o' & (HB & Ho & HKo & Hr & Hpw & (p & ops' & k & Hw & Hs) & Hone & Hbl) & Hl)].
  - rewrite Em in *. pose proof (lookup_lt_Some _ _ _ Hj) as Hlt.
    destruct (rel_collect1 false K B m0 mu0 cc (take j (retired m0)) g (drop (S j) (retired m0)) HR) as (m' & Hgc & HR'); [by rewrite take_drop_middle|].
    rewrite drop_length in Hgc. destruct (gc_reclaim m0 j g _ m' Hj Hgc) as [Er El]; [lia|]. exists m'. split; [done|]. split; [by eexists|]. intros t.
    exists B, m', mu0, cc. cbn [c_mem c_thr c_blk c_fault]. split; [done|]. split; [done|]. split; [done|]. split; [by apply Hlen|]. split; [done|]. split; [done|]. left. split.
    + split; [done|]. cbn [c_thr]. split; [done|]. intros i p ops Hi. destruct (Hrun i p ops Hi) as (o & k & H1 & H2 & H3 & H4). exists o, k. split; [done|]. split; [done|]. split; [done|].
      assert (B + cost o < U32_MAX)%N as HB2 by (rewrite (reads_cost o H1); lia).
      destruct (gc_steps k _ _ m0 m' m0 p (cm_call F o) Hgc (call_nofail B o m' mu0 cc H2 (reads_K _ H1) HB2 HR') H4) as (m1' & E1 & G1).
      * by apply (call_steps B o m0 mu0 cc k m0 p H2 (reads_K _ H1) HB2 HR H4).
      * pose proof (gc_fun _ _ _ _ Hgc G1) as <-. exact E1.
    + intros Hsf. eapply lin_thr; [by apply Hl|done].
  - destruct (steps_retired _ _ _ _ _ (cm_call F o') Hs) as [x Hx].
    assert (length x <= j) as Hxj.
    { destruct (decide (length x <= j)) as [|Hlt]; [done|]. exfalso. assert (w ∈ @nil nat) as Hw' by (apply (Hbl j [] Hbj); rewrite Hx, app_length; lia). by apply elem_of_nil in Hw'. }
    pose proof Hj as Hj0. rewrite Hx, lookup_app_r in Hj0 by done. set (j0 := j - length x) in *. pose proof (lookup_lt_Some _ _ _ Hj0) as Hlt.
    destruct (rel_collect1 false K B m0 mu0 cc (take j0 (retired m0)) g (drop (S j0) (retired m0)) HR) as (m0' & Hgc & HR'); [by rewrite take_drop_middle|].
    rewrite drop_length in Hgc. assert (B + cost o' < U32_MAX)%N as HB2 by lia.
    destruct (gc_steps k _ _ m0 m0' (c_mem c) p (cm_call F o') Hgc (call_nofail B o' m0' mu0 cc Ho HKo HB2 HR') Hs) as (m' & E1 & G1).
    { by apply (call_steps B o' m0 mu0 cc k (c_mem c) p Ho HKo HB2 HR Hs). }
    destruct (gc_reclaim (c_mem c) j g _ m' Hj G1) as [Er El]; [rewrite Hx, app_length; unfold j0 in *; lia|].
    destruct (gc_reclaim m0 j0 g _ m0' Hj0 Hgc) as [_ El0]; [lia|]. exists m'. split; [done|]. split; [by eexists|]. intros t.
    exists B, m0', mu0, cc. cbn [c_mem c_thr c_blk c_fault]. split; [done|]. split; [done|]. split; [done|]. split; [by apply Hlen|]. split; [done|]. split; [done|]. right. exists w, o'. split.
    + split; [done|]. split; [done|]. split; [done|]. split; [done|]. split; [done|]. split; [|split].
      * exists p, ops', k. done.
      * done.
      * cbn [c_mem c_blk]. intros i b Hi Hlt2. assert (i < length x) as Hix by (rewrite Hx, app_length in El; lia).
        rewrite lookup_delete_lt in Hi by lia. apply (Hbl i b Hi). rewrite Hx, app_length. lia.
    + intros Hsf. eapply lin_thr; [by apply Hl|done].
Qed.
Lemma xinv_time c h t : XInv c h -> XInv (mk_csys (c_mem c) (c_thr c) (c_blk c) (c_fault c) t) h.
Proof. intros H. exact H. Qed.

Lemma xinv_act c h a c' h' : XInv c h -> c_step F a c = (c', h') -> exclusive (h ++ untimed h') -> XInv c' (h ++ untimed h').
Proof.
  intros HX Hs Hx. destruct a as [i|j]; cbn [c_step] in Hs.
  - unfold sys_step in Hs. cbn [fst snd] in Hs. assert (length (retired (c_mem c)) - length (c_blk c) = 0) as E0.
    { destruct HX as (B & m0 & mu0 & cc & _ & _ & _ & Hb & _). lia. }
    destruct (c_thr c !! i) as [[[|[a|e|R f k]] ops]|] eqn:Hi.
    + destruct ops as [|o ops].
      * rewrite E0 in Hs. injection Hs as <- <-. cbn [untimed map]. rewrite app_nil_r in *. by apply xinv_time.
      * rewrite E0 in Hs. injection Hs as <- <-. by apply xinv_call.
    + rewrite E0 in Hs. injection Hs as <- <-. apply xinv_return; [done|done|by rewrite map_length].
    + rewrite E0 in Hs. injection Hs as <- <-. cbn [untimed map]. rewrite app_nil_r in *. by apply xinv_time.
    + destruct (xinv_step c h i R f k ops HX Hi) as (r & m' & E & HX'). rewrite E in Hs. injection Hs as <- <-. cbn [untimed map]. rewrite app_nil_r. apply HX'.
    + rewrite E0 in Hs. injection Hs as <- <-. cbn [untimed map]. rewrite app_nil_r in *. by apply xinv_time.
  - destruct (retired (c_mem c) !! j) as [g|] eqn:Hj; [|injection Hs as <- <-; cbn [untimed map]; rewrite app_nil_r; by apply xinv_time].
    destruct (c_blk c !! j) as [[|x b]|] eqn:Hb; try (injection Hs as <- <-; cbn [untimed map]; rewrite app_nil_r; by apply xinv_time).
    destruct (xinv_collect c h j g HX Hj Hb) as (m' & E & _ & HX'). rewrite E in Hs. injection Hs as <- <-. cbn [untimed map]. rewrite app_nil_r. apply HX'.
Qed.
Lemma xinv_run acts : forall c h c' h', XInv c h -> c_run F acts c = (c', h') -> exclusive (h ++ untimed h') -> XInv c' (h ++ untimed h').
Proof.
  induction acts as [|a acts IH]; intros c h c' h' HX Hr Hx; cbn [c_run] in Hr.
  - injection Hr as <- <-. cbn. by rewrite app_nil_r.
  - destruct (c_step F a c) as [c1 h1] eqn:E1. destruct (c_run F acts c1) as [c2 h2] eqn:E2. injection Hr as <- <-.
    unfold untimed in *. rewrite map_app, app_assoc in *. eapply IH; [|exact E2|done]. eapply xinv_act; [exact HX|exact E1|]. by apply exclusive_app in Hx.
Qed.
Lemma xinv_start scripts : length scripts = n -> Forall op_ok (concat scripts) -> Forall (K_ok K) (concat scripts) -> (6144 + costs (concat scripts) < U32_MAX)%N ->
  XInv (c_start scripts) [].
Proof.
  intros Hn Hok HK HB. assert (rest (c_thr (c_start scripts)) = concat scripts) as Er.
  { unfold rest, c_start. cbn [c_thr]. rewrite map_map. cbn. by rewrite map_id. }
  exists 6144%N, tree_new, ∅, 0%N. rewrite Er. split; [apply rel_new|]. split; [cbn; by rewrite map_length|]. split; [done|]. split; [done|]. split; [done|]. split; [done|]. left. split.
  - split; [done|]. rewrite Er. split; [done|]. intros i p ops Hi. cbn in Hi. apply list_lookup_fmap_Some in Hi as (x & _ & [=]).
  - intros _. by apply lin_start.
Qed.
Lemma xinv_nofail c h i e : XInv c h -> ~ c_failed c i e.
Proof.
  intros (B & m0 & mu0 & cc & HR & Hn & Hf & Hb & Hok & HK & Hm) (ops & Hi).
  destruct Hm as [[(Em & HB & Hrun) Hl]|(w & o' & (HB & Ho & HKo & Hr & Hpw & (p & ops' & k & Hw & Hs) & Hone & Hbl) & Hl)].
  - destruct (Hrun i _ _ Hi) as (o & k & H1 & H2 & H3 & H4). assert (B + cost o < U32_MAX)%N as HB2 by (rewrite (reads_cost o H1); lia).
    by destruct (call_steps B o m0 mu0 cc _ _ _ H2 (reads_K _ H1) HB2 HR H4) as [Hno _]; apply (Hno e).
  - pose proof (Hone _ _ _ Hi) as <-. rewrite Hi in Hw. injection Hw as <- <-. assert (B + cost o' < U32_MAX)%N as HB2 by lia.
    by destruct (call_steps B o' m0 mu0 cc _ _ _ Ho HKo HB2 HR Hs) as [Hno _]; apply (Hno e).
Qed.
(** ** every call completes *)
Definition ends (c : csys) (i : nat) (N : nat) : Prop := exists p ops a m', c_thr c !! i = Some (TRun p, ops) /\ steps N (c_mem c, p) = (m', Ret a).
Lemma xinv_ends c h i : XInv c h -> i ∈ holders (c_thr c) -> exists N, ends c i N.
Proof.
  intros (B & m0 & mu0 & cc & HR & Hn & Hf & Hb & Hok & HK & Hm) (p & ops & Hi)%elem_holders.
  assert (exists o k, op_ok o /\ K_ok K o /\ (B + cost o < U32_MAX)%N /\ steps k (m0, call insert F o) = (c_mem c, p)) as (o & k & H1 & H2 & H3 & H4).
  { destruct Hm as [[(Em & HB & Hrun) Hl]|(w & o' & (HB & Ho & HKo & Hr & Hpw & (p' & ops' & k & Hw & Hs) & Hone & Hbl) & Hl)].
    - destruct (Hrun i _ _ Hi) as (o & k & H1 & H2 & H3 & H4). exists o, k. split; [done|]. split; [by apply reads_K|]. split; [rewrite (reads_cost o H1); lia|by rewrite Em].
    - pose proof (Hone _ _ _ Hi) as <-. rewrite Hi in Hw. injection Hw as <- <-. exists o', k. split; [done|]. split; [done|]. split; [lia|done]. }
  destruct (call_run B o m0 mu0 cc H1 H2 H3 HR) as (a & m' & E & _). destruct (run_steps _ _ _ _ E) as (x & Hx & _).
  exists x, p, ops, a, m'. split; [done|]. specialize (Hx (k + x) ltac:(lia)). rewrite steps_app in Hx. unfold P in *. by rewrite H4 in Hx.
Qed.
Lemma xinv_reached c h i p ops : XInv c h -> c_thr c !! i = Some (TRun p, ops) -> exists B m0 mu0 cc o k, Rel false K B m0 mu0 cc /\ op_ok o /\ K_ok K o /\
  (B + cost o < U32_MAX)%N /\ steps k (m0, call insert F o) = (c_mem c, p).
Proof.
  intros (B & m0 & mu0 & cc & HR & Hn & Hf & Hb & Hok & HK & Hm) Hi. exists B, m0, mu0, cc.
  destruct Hm as [[(Em & HB & Hrun) Hl]|(w & o' & (HB & Ho & HKo & Hr & Hpw & (p' & ops' & k & Hw & Hs) & Hone & Hbl) & Hl)].
  - destruct (Hrun i _ _ Hi) as (o & k & H1 & H2 & H3 & H4). exists o, k. split; [done|]. split; [done|]. split; [by apply reads_K|]. split; [rewrite (reads_cost o H1); lia|by rewrite Em].
  - pose proof (Hone _ _ _ Hi) as <-. rewrite Hi in Hw. injection Hw as <- <-. exists o', k. split; [done|]. split; [done|]. split; [done|]. split; [lia|done].
Qed.
Lemma ends_step c h a c' h' i N : XInv c h -> ends c i N -> c_step F a c = (c', h') -> exclusive (h ++ untimed h') ->
  (exists t x, (t, ERet i x) ∈ h') \/ match a with Thread j => if decide (j = i) then match N with 0 => False | S N => ends c' i N end else ends c' i N | Collect _ => ends c' i N end.
Proof.
  intros HX (p & ops & x & mf & Hi & Hs) Hst Hex. pose proof (xinv_act c h a c' h' HX Hst Hex) as HX'. destruct a as [j|j].
  - destruct (decide (j = i)) as [->|Hne].
    + cbn [c_step] in Hst. unfold sys_step in Hst. cbn [fst snd] in Hst. rewrite Hi in Hst. destruct p as [a|e|R f k].
      * injection Hst as <- <-. left. exists (c_time c), a. by left.
      * exfalso. by eapply (xinv_nofail c h i e); [exact HX|exists ops].
      * right. destruct N as [|N]; [done|]. cbn [steps] in Hs. unfold step1 in Hs. cbn [fst snd] in Hs. destruct (f (c_mem c)) as [[r m']|e].
        -- injection Hst as <- <-. exists (k r), ops, x, mf. cbn [c_thr c_mem]. split; [apply list_lookup_insert; by eapply lookup_lt_Some|done].
        -- exfalso. clear -Hs. induction N as [|N IH]; [done|]. by apply IH.
    + right. assert (c_thr c' !! i = Some (TRun p, ops) /\ (c_mem c' = c_mem c)) as [Ht Em]; [|exists p, ops, x, mf; by rewrite Em].
      cbn [c_step] in Hst. unfold sys_step in Hst. cbn [fst snd] in Hst. destruct (c_thr c !! j) as [[[|[a|e|R f k]] ops']|] eqn:Hj.
      * destruct ops' as [|o ops']; injection Hst as <- <-; cbn [c_thr c_mem]; [done|]. by rewrite list_lookup_insert_ne.
      * injection Hst as <- <-; cbn [c_thr c_mem]. by rewrite list_lookup_insert_ne.
      * injection Hst as <- <-; cbn [c_thr c_mem]. done.
      * destruct HX as (B & m0 & mu0 & cc & HR & Hn & Hf & Hb & Hok & HK & Hm).
        destruct Hm as [[(Em & HB & Hrun) Hl]|(w & o' & (HB & Ho & HKo & Hr & Hpw & (p' & ops2 & k' & Hw & Hs') & Hone & Hbl) & Hl)].
        2:{ exfalso. apply Hne. by rewrite (Hone _ _ _ Hi), (Hone _ _ _ Hj). }
        destruct (Hrun j _ _ Hj) as (o & k2 & H1 & H2 & H3 & H4). pose proof (steps_next _ _ _ _ _ _ H4) as H5. rewrite Em in Hst. destruct (f m0) as [[r m']|e] eqn:E.
        -- destruct (ro_steps _ _ _ _ _ (ro_call F o H1) H5) as [-> _]. injection Hst as <- <-; cbn [c_thr c_mem]. by rewrite list_lookup_insert_ne.
        -- injection Hst as <- <-; cbn [c_thr c_mem]. by rewrite list_lookup_insert_ne.
      * injection Hst as <- <-; cbn [c_thr c_mem]. done.
  - right. cbn [c_step] in Hst. destruct (retired (c_mem c) !! j) as [g|] eqn:Hj; [|injection Hst as <- <-; by exists p, ops, x, mf].
    destruct (c_blk c !! j) as [[|y b]|] eqn:Hb; try (injection Hst as <- <-; by exists p, ops, x, mf).
    destruct (xinv_collect c h j g HX Hj Hb) as (m' & Er & (y & Hgc) & _). rewrite Er in Hst.
    injection Hst as <- <-. cbn [untimed map] in HX'. rewrite app_nil_r in HX'.
    destruct (xinv_reached _ _ i p ops HX' Hi) as (B & m0 & mu0 & cc & o & k & HR & H1 & H2 & H3 & H4). cbn [c_mem] in H4.
    destruct (xinv_reached _ _ i p ops HX Hi) as (_ & m0' & _ & _ & o' & k' & _ & _ & _ & _ & H4').
    destruct (gc_steps N p _ _ m' mf (Ret x) (cm_steps _ _ _ _ _ (cm_call F o') H4') Hgc) as (m1' & E1 & _); [|exact Hs|done|].
    + intros j' e He. apply (call_nofail B o m0 mu0 cc H1 H2 H3 HR (k + j') e). rewrite steps_app. unfold P in *. by rewrite H4.
    + by exists p, ops, x, m1'.
Qed.
Lemma ends_run acts : forall c h c' h' i N, XInv c h -> ends c i N -> c_run F acts c = (c', h') -> exclusive (h ++ untimed h') ->
  N < turns_of i acts -> exists t x, (t, ERet i x) ∈ h'.
Proof.
  induction acts as [|a acts IH]; intros c h c' h' i N HX He Hr Hx HN; [cbn in HN; lia|]. cbn [c_run] in Hr.
  destruct (c_step F a c) as [c1 h1] eqn:E1. destruct (c_run F acts c1) as [c2 h2] eqn:E2. injection Hr as <- <-.
  unfold untimed in Hx. rewrite map_app, app_assoc in Hx. pose proof (exclusive_app _ _ Hx) as Hx1.
  pose proof (xinv_act c h a c1 h1 HX E1 Hx1) as HX1.
  destruct (ends_step c h a c1 h1 i N HX He E1 Hx1) as [(t & x & Hin)|He1]; [exists t, x; apply elem_of_app; by left|].
  assert (exists N', ends c1 i N' /\ N' < turns_of i acts) as (N' & He' & HN').
  { unfold turns_of in *. cbn [List.filter] in HN. destruct a as [j|j].
    - destruct (decide (j = i)) as [->|Hne].
      + rewrite Nat.eqb_refl in HN. cbn [length] in HN. destruct N as [|N]; [done|]. exists N. split; [done|lia].
      + destruct (Nat.eqb_spec j i); [done|]. by exists N.
    - by exists N. }
  destruct (IH c1 _ c2 h2 i N' HX1 He' E2 Hx HN') as (t & x & Hin). exists t, x. apply elem_of_app. by right.
Qed.
End Excl.

Section Top.
Context (F : nat) (scripts : list (list op)) (acts : list act) (c : csys) (h : list (N * event)).
Context (HF : 300 <= F) (Hok : history_ok (concat scripts)) (Hrun : c_run F acts (c_start scripts) = (c, h)) (Hx : exclusive (untimed h)).
Lemma top_inv : XInv F (Kof (concat scripts)) (length scripts) c (untimed h).
Proof.
  apply (xinv_run F (Kof (concat scripts)) (length scripts) HF acts (c_start scripts) [] c h); [|done|done].
  destruct Hok as [H1 H2]. rewrite key_bytes_costs in H2. apply xinv_start; [done|done|done|apply Kof_ok|unfold U32_MAX; lia].
Qed.
Lemma excl_safe : (forall i e, ~ c_failed c i e) /\ c_fault c = false.
Proof. split; [intros i e; eapply xinv_nofail; [exact HF|exact top_inv]|]. destruct top_inv as (B & m0 & mu0 & cc & _ & _ & Hf & _). done. Qed.
Context (Hu : unambiguous (concat scripts)).
Lemma top_fine : split_fine false (Kof (concat scripts)).
Proof. right. intros k1 k2 v1 v2 H1 H2 Hc. apply clash_amb in Hc. exact (Hu k1 k2 v1 v2 H1 H2 Hc). Qed.
Lemma excl_linearizable : exists mu, linearizable_to (length scripts) (untimed h) mu /\
  (c_quiet c -> (forall k, op_ok (Get k) -> run (get F k) (c_mem c) = Ok (mu !! k, c_mem c)) /\ cnt (c_mem c) = N.of_nat (size mu)).
Proof.
  pose proof top_fine as Hs. destruct top_inv as (B & m0 & mu0 & cc & HR & Hn & Hf & Hb & _ & HK & Hm).
  destruct Hm as [[(Em & HB & Hr) Hl]|(w & o' & (HB & Ho & HKo & Hr & Hpw & (p & ops' & k & Hw & Hss) & Hone & Hbl) & Hl)].
  - destruct (Hl Hs) as (a & st & Ha & Hv & _). exists mu0. split; [by exists a, st|]. intros _. rewrite Em. split.
    + intros x Hxx. destruct (call_run F (Kof (concat scripts)) HF B (Get x) m0 mu0 cc Hxx I) as (r & m' & E & _ & Hr2); [cbn [cost]; lia|done|].
      cbn [call] in E. rewrite VersionLaws.run_bind in E. destruct (run (get F x) m0) as [[y m2]|] eqn:G; [|done]. cbn in E. injection E as <- <-. specialize (Hr2 Hs). cbn in Hr2. injection Hr2 as ->.
      f_equal. f_equal. by apply (lookups_read_only F x m0 (mu0 !! x)); left.
    + destruct HR as (_ & s & Hc & HS & _ & _ & _ & _ & _ & Hex). destruct (Hex Hs) as (_ & _ & X3). by rewrite (st_cnt _ _ HS), X3.
  - destruct (Hl Hs) as (a & st & Ha & Hv & _). exists (map_step mu0 o').2. split; [by exists a, st|]. intros Hq. by specialize (Hq _ _ _ Hw).
Qed.
End Top.

Lemma excl_completes F scripts acts c h i : 300 <= F -> history_ok (concat scripts) -> c_run F acts (c_start scripts) = (c, h) -> exclusive (untimed h) ->
  i ∈ holders (c_thr c) -> exists N, forall acts' c' h', c_run F acts' c = (c', h') -> exclusive (untimed (h ++ h')) -> N <= turns_of i acts' -> exists t a, (t, ERet i a) ∈ h'.
Proof.
  intros HF Hok Hr Hx Hi. pose proof (top_inv F scripts acts c h HF Hok Hr Hx) as HX. destruct (xinv_ends _ _ _ HF c _ i HX Hi) as (N & HN). exists (S N).
  intros acts' c' h' Hr' Hx' Hl. unfold untimed in Hx'. rewrite map_app in Hx'. exact (ends_run _ _ _ HF acts' c (untimed h) c' h' i N HX HN Hr' Hx' Hl).
Qed.
