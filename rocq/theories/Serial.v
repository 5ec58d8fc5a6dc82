(** Insertions one after the other among arbitrary lookups. *)
From Verif Require Import Base Perm Key Suffix Prog Version Mem Tree SpecTree SpecHist SpecLin SpecConc SpecSolo SpecExcl SpecSerial TreeState TreePrim TreeInv TreeRead TreeLeaf TreeContent TreeLoop TreeTop TreeLaws TreeDrop Solo ExclGc Excl.

Lemma called_app a b : called (a ++ b) = called a ++ called b.
Proof. apply omap_app. Qed.
Lemma contents_call h i o : contents (h ++ [ECall i o]) = (map_step (contents h) o).2.
Proof.
  unfold contents. rewrite called_app, map_run_app. cbn [called omap list_omap]. destruct (map_run ∅ (called h)) as [l mu]. cbn [snd map_run].
  by destruct (map_step mu o).
Qed.
Lemma contents_ret h i a : contents (h ++ [ERet i a]) = contents h.
Proof. unfold contents. rewrite called_app. cbn [called omap list_omap]. by rewrite app_nil_r. Qed.
Lemma contents_reads h h' : Forall reads_only (called h') -> contents (h ++ h') = contents h.
Proof.
  unfold contents. rewrite called_app, map_run_app. destruct (map_run ∅ (called h)) as [l mu]. cbn [snd]. intros H.
  assert ((map_run mu (called h')).2 = mu) as E; [|destruct (map_run mu (called h')); exact E].
  induction H as [|o ops Ho Hops IH]; cbn; [done|]. destruct (map_step mu o) as [a mu'] eqn:E. pose proof (f_equal snd E) as E2. cbn in E2. rewrite (reads_step mu o Ho) in E2. subst mu'.
  destruct (map_run mu ops) as [l' mu']. exact IH.
Qed.
Lemma open_progress h h1 i o h2 : open_call h h1 i o h2 -> in_progress i o h.
Proof.
  intros [-> Hf]. unfold in_progress, last_of. rewrite filter_app, filter_cons. cbn [event_of]. rewrite decide_True by done.
  assert (filter (fun e => event_of e = i) h2 = []) as ->; [|apply last_snoc].
  induction Hf as [|e h2 He Hf IH]; [done|]. rewrite filter_cons, decide_False; done.
Qed.
Lemma open_other h h1 i o h2 e : open_call h h1 i o h2 -> event_of e <> i -> open_call (h ++ [e]) h1 i o (h2 ++ [e]).
Proof. intros [-> Hf] He. split; [by rewrite <- app_assoc|]. apply Forall_app. split; [done|]. by constructor. Qed.
Lemma open_new h i o : open_call (h ++ [ECall i o]) h i o [].
Proof. split; [done|constructor]. Qed.
Lemma open_unique h h1 i o h2 h1' o' h2' : open_call h h1 i o h2 -> open_call h h1' i o' h2' -> h1 = h1' /\ o = o' /\ h2 = h2'.
Proof.
  intros [E Hf] [E' Hf']. rewrite E in E'. clear E h. revert Hf h2' Hf' E'. induction h2 as [|e h2 IH] using rev_ind; intros Hf h2' Hf' E'; destruct h2' as [|e' h2' _] using rev_ind.
  - apply app_inj_tail in E' as [-> [= ->]]. done.
  - exfalso. rewrite app_comm_cons, app_assoc in E'. apply app_inj_tail in E' as [_ <-]. apply Forall_app in Hf' as [_ Hf']. apply Forall_inv in Hf'. done.
  - exfalso. rewrite app_comm_cons, app_assoc in E'. apply app_inj_tail in E' as [_ ->]. apply Forall_app in Hf as [_ Hf]. apply Forall_inv in Hf. done.
  - rewrite !app_comm_cons, !app_assoc in E'. apply app_inj_tail in E' as [E' ->]. apply Forall_app in Hf' as [Hf' _]. apply Forall_app in Hf as [Hf _].
    destruct (IH Hf h2' Hf' E') as (-> & -> & ->). done.
Qed.
Lemma undisturbed_ret h1 h2 i a : undisturbed h1 (h2 ++ [ERet i a]) <-> undisturbed h1 h2.
Proof. unfold undisturbed. rewrite called_app. cbn [called omap list_omap]. by rewrite app_nil_r. Qed.
Lemma undisturbed_call h1 h2 i o : undisturbed h1 (h2 ++ [ECall i o]) <-> undisturbed h1 h2 /\ reads_only o.
Proof. unfold undisturbed. rewrite called_app. cbn [called omap list_omap]. rewrite Forall_app, Forall_singleton. tauto. Qed.
Lemma serial_app h h' : serial (h ++ h') -> serial h.
Proof. intros H h1 i k v h2 ->. apply (H h1 i k v (h2 ++ h')). by rewrite <- app_assoc. Qed.
Lemma no_insertion_reads h i o : no_insertion h -> reads_only o -> no_insertion (h ++ [ECall i o]).
Proof.
  intros H Ho j k v. unfold in_progress. rewrite last_of_snoc. destruct (decide (event_of (ECall i o) = j)); [intros [= -> ->]; done|apply H].
Qed.
Lemma progress_ret j k v h i a : in_progress j (Insert k v) (h ++ [ERet i a]) -> j <> i /\ in_progress j (Insert k v) h.
Proof. unfold in_progress. rewrite last_of_snoc. cbn. destruct (decide (i = j)); [done|]. intros H. split; [congruence|done]. Qed.
Lemma progress_call j k v h i o : in_progress j (Insert k v) (h ++ [ECall i o]) -> (j = i /\ o = Insert k v) \/ in_progress j (Insert k v) h.
Proof. unfold in_progress. rewrite last_of_snoc. cbn. destruct (decide (i = j)); [intros [= -> ->]; by left|by right]. Qed.

Lemma serial_undisturbed h h1 i k v h2 a : serial h -> answered_call h h1 i (Insert k v) h2 a -> undisturbed h1 h2.
Proof.
  intros Hs (h3 & -> & Hf). split; [by eapply Hs|]. apply Forall_forall. intros o Ho. destruct o as [x u| | | |]; try done. exfalso.
  unfold called in Ho. apply elem_of_list_omap in Ho as (e & He & Ho). destruct e as [j o|]; [|done]. injection Ho as ->. apply elem_of_list_split in He as (g1 & g2 & ->).
  specialize (Hs (h1 ++ ECall i (Insert k v) :: g1) j x u (g2 ++ ERet i a :: h3)). apply Forall_app in Hf as [Hf _].
  apply (Hs ltac:(by list_simplifier) i k v), (open_progress _ h1 i (Insert k v) g1). done.
Qed.
(** every answer so far was right *)
Definition right_answers (h : list event) : Prop := forall h1 i o h2 a,
  answered_call h h1 i o h2 a -> undisturbed h1 h2 -> a = (map_step (contents h1) o).1.
Lemma right_call h i o : right_answers h -> right_answers (h ++ [ECall i o]).
Proof.
  intros H h1 j o' h2 a (h3 & E & Hf) Hu. destruct h3 as [|e h3 _] using rev_ind.
  - assert (h1 ++ ECall j o' :: h2 ++ [ERet j a] = (h1 ++ ECall j o' :: h2) ++ [ERet j a]) as E2 by (by rewrite <- app_assoc). rewrite E2 in E. by apply app_inj_tail in E as [_ ?].
  - assert (h1 ++ ECall j o' :: h2 ++ ERet j a :: h3 ++ [e] = (h1 ++ ECall j o' :: h2 ++ ERet j a :: h3) ++ [e]) as E2 by (by rewrite <- !app_assoc, <- !app_comm_cons, <- app_assoc).
    rewrite E2 in E. apply app_inj_tail in E as [E _]. apply (H h1 j o' h2 a); [by exists h3|done].
Qed.
Lemma right_ret h h1 i o h2 a : right_answers h -> open_call h h1 i o h2 -> (undisturbed h1 h2 -> a = (map_step (contents h1) o).1) -> right_answers (h ++ [ERet i a]).
Proof.
  intros H Ho Ha h1' j o' h2' a' (h3 & E & Hf) Hu. destruct h3 as [|e h3 _] using rev_ind.
  - assert (h1' ++ ECall j o' :: h2' ++ [ERet j a'] = (h1' ++ ECall j o' :: h2') ++ [ERet j a']) as E2 by (by rewrite <- app_assoc). rewrite E2 in E. apply app_inj_tail in E as [E [= -> ->]].
    destruct (open_unique _ _ _ _ _ h1' o' h2' Ho (conj E Hf)) as (-> & -> & ->). by apply Ha.
  - assert (h1' ++ ECall j o' :: h2' ++ ERet j a' :: h3 ++ [e] = (h1' ++ ECall j o' :: h2' ++ ERet j a' :: h3) ++ [e]) as E2 by (by rewrite <- !app_assoc, <- !app_comm_cons, <- app_assoc).
    rewrite E2 in E. apply app_inj_tail in E as [E _]. apply (H h1' j o' h2' a'); [by exists h3|done].
Qed.

Section Serial.
Context (F : nat) (K : bytes -> N -> Prop).
Context (HF : 300 <= F).

(** a thread that looks up *)
Definition reading (B : N) (m0 : mem) (c : csys) (h : list event) (quiet : Prop) (i : nat) (p : P ans) : Prop :=
  exists h1 o h2, open_call h h1 i o h2 /\ reads_only o /\ op_ok o /\ ro p /\
  (undisturbed h1 h2 -> quiet /\ contents h1 = contents h /\ exists k, steps k (m0, call insert F o) = (m0, p)).
(** between insertions *)
Definition still (B : N) (m0 : mem) (mu0 : gmap bytes N) (c : csys) (h : list event) : Prop :=
  c_mem c = m0 /\ mu0 = contents h /\ (B + costs (rest (c_thr c)) < U32_MAX)%N /\ no_insertion h /\
  forall i p ops, c_thr c !! i = Some (TRun p, ops) -> reading B m0 c h True i p.
(** during one *)
Definition busy (B : N) (m0 : mem) (mu0 : gmap bytes N) (c : csys) (h : list event) (w : nat) (x : bytes) (v : N) : Prop :=
  (B + cost (Insert x v) + costs (rest (c_thr c)) < U32_MAX)%N /\ op_ok (Insert x v) /\ K x v /\
  contents h = (map_step mu0 (Insert x v)).2 /\
  (exists h1 h2, open_call h h1 w (Insert x v) h2 /\ mu0 = contents h1) /\
  (forall j k u, in_progress j (Insert k u) h -> j = w) /\
  (exists p ops k, c_thr c !! w = Some (TRun p, ops) /\ steps k (m0, call insert F (Insert x v)) = (c_mem c, p)) /\
  (forall i p ops, c_thr c !! i = Some (TRun p, ops) -> i <> w -> reading B m0 c h False i p) /\
  (forall j b, c_blk c !! j = Some b -> j < length (retired (c_mem c)) - length (retired m0) -> w ∈ b).
Definition SerInv (c : csys) (h : list event) : Prop := exists B m0 mu0 cc,
  Rel false K B m0 mu0 cc /\ c_fault c = false /\ length (c_blk c) = length (retired (c_mem c)) /\
  Forall op_ok (rest (c_thr c)) /\ Forall (K_ok K) (rest (c_thr c)) /\ (split_fine false K -> right_answers h) /\
  (still B m0 mu0 c h \/ exists w x v, busy B m0 mu0 c h w x v).

Lemma reading_other B m0 c c' h i p (Q Q' : Prop) e : reading B m0 c h Q i p -> event_of e <> i ->
  (match e with ECall _ o => reads_only o -> Q -> Q' | ERet _ _ => Q -> Q' end) -> reading B m0 c' (h ++ [e]) Q' i p.
Proof.
  intros (h1 & o & h2 & Ho & Hr & Hok & Hro & Hu) Hne HQ. exists h1, o, (h2 ++ [e]). split; [by apply open_other|]. split; [done|]. split; [done|]. split; [done|].
  destruct e as [j o'|j a].
  - rewrite undisturbed_call. intros [H1 H2]. destruct (Hu H1) as (X1 & X2 & X3). split; [by apply HQ|]. split; [|done]. rewrite contents_reads; [done|]. cbn. by constructor.
  - rewrite undisturbed_ret. intros H1. destruct (Hu H1) as (X1 & X2 & X3). split; [by apply HQ|]. split; [|done]. by rewrite contents_ret.
Qed.
Lemma reading_c B m0 c c' h i p Q : reading B m0 c h Q i p -> reading B m0 c' h Q i p.
Proof. done. Qed.

Lemma ser_call c h i o ops : SerInv c h -> serial (h ++ [ECall i o]) -> c_thr c !! i = Some (TIdle, o :: ops) -> forall t,
  SerInv (mk_csys (c_mem c) (<[i := (TRun (call insert F o), ops)]> (c_thr c)) (c_blk c) (c_fault c) t) (h ++ [ECall i o]).
Proof.
  intros (B & m0 & mu0 & cc & HR & Hf & Hb & Hok & HK & Hra & Hm) Hx Hi t. pose proof (rest_call _ _ _ (TRun (call insert F o)) _ _ Hi) as Hp.
  rewrite Hp in Hok, HK. apply Forall_cons in Hok as [Ho Hok]. apply Forall_cons in HK as [HKo HK]. apply costs_perm in Hp. cbn [costs foldr] in Hp. fold (costs (rest (<[i := (TRun (call insert F o), ops)]> (c_thr c)))) in Hp.
  exists B, m0, mu0, cc. cbn [c_mem c_thr c_blk c_fault]. split; [done|]. split; [done|]. split; [done|]. split; [done|]. split; [done|]. split; [intros Hs; by apply right_call, Hra|].
  assert (reads_only o \/ exists x v, o = Insert x v) as [Ho2|(x & v & ->)] by (destruct o; cbn; eauto).
  - destruct Hm as [(Em & Emu & HB & Hni & Hrun)|(w & x & v & HB & H1 & H2 & H3 & (h1 & h2 & H4 & H4') & H5 & (p & ops' & k & Hw & Hs) & Hrun & Hbl)].
    + left. split; [done|]. split; [by rewrite contents_call, reads_step|]. cbn [c_thr]. split; [rewrite (reads_cost o Ho2) in Hp; rewrite Hp in HB; lia|]. split; [by apply no_insertion_reads|].
      intros j p ops' Hj. apply list_lookup_insert_Some in Hj as [(<- & [= <- <-] & _)|[Hne Hj]].
      * exists h, o, []. split; [apply open_new|]. split; [done|]. split; [done|]. split; [by apply ro_call|]. intros _. split; [done|]. split; [by rewrite contents_call, reads_step|]. by exists 0.
      * eapply reading_other; [by apply (Hrun j p ops')|done|done].
    + right. exists w, x, v. assert (w <> i) as Hne by congruence. split; [cbn [c_thr]; rewrite (reads_cost o Ho2) in Hp; rewrite Hp in HB; lia|]. split; [done|]. split; [done|].
      split; [rewrite contents_call, reads_step; done|]. split; [exists h1, (h2 ++ [ECall i o]); split; [by apply open_other|done]|]. split; [|split; [|split]].
      * intros j k' u Hj. apply progress_call in Hj as [[-> ->]|Hj]; [done|by eapply H5].
      * exists p, ops', k. cbn [c_thr c_mem]. by rewrite list_lookup_insert_ne.
      * cbn [c_thr]. intros j q ops2 Hj Hjw. apply list_lookup_insert_Some in Hj as [(<- & [= <- <-] & _)|[Hne2 Hj]].
        -- exists h, o, []. split; [apply open_new|]. split; [done|]. split; [done|]. split; [by apply ro_call|]. intros [Hn _]. exfalso. by apply (Hn w x v), (open_progress h h1 w (Insert x v) h2).
        -- eapply reading_other; [by apply (Hrun j q ops2)|done|done].
      * done.
  - assert (no_insertion h) as Hn by (by apply (Hx h i x v [])).
    destruct Hm as [(Em & Emu & HB & Hni & Hrun)|(w & x' & v' & _ & _ & _ & _ & (h1 & h2 & H4 & _) & _)].
    2:{ exfalso. by apply (Hn w x' v'), (open_progress h h1 w (Insert x' v') h2). }
    right. exists i, x, v. split; [cbn [c_thr]; lia|]. split; [done|]. split; [done|]. split; [by rewrite contents_call, <- Emu|].
    split; [exists h, []; split; [apply open_new|done]|]. split; [|split; [|split]].
    + intros j k u Hj. apply progress_call in Hj as [[-> _]|Hj]; [done|by apply Hn in Hj].
    + exists (call insert F (Insert x v)), ops, 0. cbn [c_thr c_mem]. split; [apply list_lookup_insert; by eapply lookup_lt_Some|]. by rewrite Em.
    + cbn [c_thr]. intros j q ops2 Hj Hjw. apply list_lookup_insert_Some in Hj as [(<- & _ & _)|[Hne2 Hj]]; [done|].
      eapply reading_other; [by apply (Hrun j q ops2)|done|]. by intros Hr.
    + cbn [c_mem c_blk]. intros j b _ Hj. rewrite Em in Hj. lia.
Qed.

Lemma ser_return c h i a ops : SerInv c h -> c_thr c !! i = Some (TRun (Ret a), ops) -> forall blk t, length blk = length (c_blk c) ->
  (forall w j b, i <> w -> blk !! j = Some b -> exists b', c_blk c !! j = Some b' /\ (w ∈ b' -> w ∈ b)) ->
  SerInv (mk_csys (c_mem c) (<[i := (TIdle, ops)]> (c_thr c)) blk (c_fault c) t) (h ++ [ERet i a]).
Proof.
  intros (B & m0 & mu0 & cc & HR & Hf & Hb & Hok & HK & Hra & Hm) Hi blk t Hblk Hblk2. pose proof (rest_same _ _ _ TIdle _ Hi) as Hp.
  destruct Hm as [(Em & Emu & HB & Hni & Hrun)|(w & x & v & HB & H1 & H2 & H3 & (h1 & h2 & H4 & H4') & H5 & (p & ops' & k & Hw & Hs) & Hrun & Hbl)].
  - exists B, m0, mu0, cc. cbn [c_mem c_thr c_blk c_fault]. rewrite Hp. split; [done|]. split; [done|]. split; [congruence|]. split; [done|]. split; [done|].
    split.
    { intros Hsf. destruct (Hrun i _ _ Hi) as (h1 & o & h2 & Ho & Hr & Hok' & Hro & Hu). eapply right_ret; [by apply Hra|exact Ho|]. intros Hud. destruct (Hu Hud) as (_ & E & k & Hs).
      destruct (call_steps F K HF B o m0 mu0 cc k m0 (Ret a) Hok' (reads_K K _ Hr)) as [_ Ha]; [rewrite (reads_cost o Hr); lia|done|done|]. rewrite E, <- Emu. by apply (Ha a eq_refl). }
    left. split; [done|]. split; [by rewrite contents_ret|]. cbn [c_thr]. rewrite Hp. split; [done|]. split; [intros j k v Hj; apply progress_ret in Hj as [_ Hj]; by apply Hni in Hj|].
    intros j q ops2 Hj. apply list_lookup_insert_Some in Hj as [(<- & [=] & _)|[Hne Hj]]. eapply reading_other; [by apply (Hrun j q ops2)|done|done].
  - destruct (decide (i = w)) as [->|Hne].
    + rewrite Hi in Hw. injection Hw as <- <-. destruct (call_steps F K HF B (Insert x v) m0 mu0 cc k (c_mem c) (Ret a) H1 H2) as [_ Ha]; [lia|done|done|].
      destruct (Ha a eq_refl) as [HR' Ha']. exists (B + cost (Insert x v))%N, (c_mem c), (map_step mu0 (Insert x v)).2, (bump cc a). cbn [c_mem c_thr c_blk c_fault]. rewrite Hp.
      split; [done|]. split; [done|]. split; [congruence|]. split; [done|]. split; [done|].
      split; [intros Hsf; eapply right_ret; [by apply Hra|exact H4|]; intros _; rewrite <- H4'; by apply Ha'|].
      left. split; [done|]. split; [by rewrite contents_ret|]. cbn [c_thr]. rewrite Hp. split; [lia|]. split; [intros j y u Hj; apply progress_ret in Hj as [Hne Hj]; by apply H5 in Hj|].
      intros j q ops2 Hj. apply list_lookup_insert_Some in Hj as [(<- & [=] & _)|[Hne Hj]].
      destruct (Hrun j q ops2 Hj ltac:(done)) as (g1 & o & g2 & Ho & Hr & Hok' & Hro & Hu). exists g1, o, (g2 ++ [ERet w a]). split; [by apply open_other|]. split; [done|]. split; [done|]. split; [done|].
      rewrite undisturbed_ret. intros Hud. by destruct (Hu Hud).
    + exists B, m0, mu0, cc. cbn [c_mem c_thr c_blk c_fault]. rewrite Hp. split; [done|]. split; [done|]. split; [congruence|]. split; [done|]. split; [done|].
      split.
      { intros Hsf. destruct (Hrun i _ _ Hi Hne) as (g1 & o & g2 & Ho & Hr & Hok' & Hro & Hu). eapply right_ret; [by apply Hra|exact Ho|]. intros Hud. by destruct (Hu Hud). }
      right. exists w, x, v. split; [cbn [c_thr]; by rewrite Hp|]. split; [done|]. split; [done|]. split; [by rewrite contents_ret|]. split; [exists h1, (h2 ++ [ERet i a]); split; [by apply open_other|done]|].
      split; [intros j y u Hj; apply progress_ret in Hj as [_ Hj]; by eapply H5|]. split; [|split].
      * exists p, ops', k. cbn [c_thr c_mem]. by rewrite list_lookup_insert_ne.
      * cbn [c_thr]. intros j q ops2 Hj Hjw. apply list_lookup_insert_Some in Hj as [(<- & [=] & _)|[Hne2 Hj]]. eapply reading_other; [by apply (Hrun j q ops2)|done|done].
      * cbn [c_mem c_blk]. intros j b Hj Hlt. destruct (Hblk2 w j b Hne Hj) as (b' & Hb' & Hin). apply Hin. by eapply Hbl.
Qed.

Lemma ro_access {A R} (f : mem -> res (R * mem)) (k : R -> prog mem A) m r m' : ro (Step f k) -> f m = Ok (r, m') -> m' = m /\ ro (k r).
Proof. intros H E. destruct (ro_steps 1 (Step f k) m m' (k r) H) as [-> H2]; [|done]. cbn [steps]. unfold step1. cbn [fst snd]. by rewrite E. Qed.
Lemma reading_next B m0 c c' h Q i R (f : mem -> res (R * mem)) k r : (forall o, op_ok o -> reads_only o -> forall n e, (steps n (m0, call insert F o : prog mem ans)).2 <> Fail e) ->
  reading B m0 c h Q i (Step f k) -> ro (k r) -> (Q -> f m0 = Ok (r, m0)) -> reading B m0 c' h Q i (k r).
Proof.
  intros Hnf (h1 & o & h2 & Ho & Hr & Hok' & Hro & Hu) Hk Hf. exists h1, o, h2. split; [done|]. split; [done|]. split; [done|]. split; [done|]. intros Hud. destruct (Hu Hud) as (X1 & X2 & j & X3).
  split; [done|]. split; [done|]. exists (S j). pose proof (steps_next _ _ _ _ _ _ X3) as X4. rewrite (Hf X1) in X4. exact X4.
Qed.
(** a thread that looks up makes an access *)
Lemma ser_read c h i R (f : mem -> res (R * mem)) k ops : SerInv c h -> c_thr c !! i = Some (TRun (Step f k), ops) -> (forall x v, ~ in_progress i (Insert x v) h) ->
  match f (c_mem c) with
  | Ok (r, m') => m' = c_mem c /\ forall t, SerInv (mk_csys (c_mem c) (<[i := (TRun (k r), ops)]> (c_thr c)) (c_blk c) (c_fault c) t) h
  | Er e => forall t, SerInv (mk_csys (c_mem c) (<[i := (TRun (Fail e), ops)]> (c_thr c)) (c_blk c) (c_fault c) t) h
  end.
Proof.
  intros (B & m0 & mu0 & cc & HR & Hf & Hb & Hok & HK & Hra & Hm) Hi Hni0.
  assert (forall q : P ans, (forall Q, reading B m0 c h Q i (Step f k) -> (Q -> c_mem c = m0) -> reading B m0 c h Q i q) -> forall t, SerInv (mk_csys (c_mem c) (<[i := (TRun q, ops)]> (c_thr c)) (c_blk c) (c_fault c) t) h) as Hgen.
  { intros q Hq t. pose proof (rest_same _ _ _ (TRun q) _ Hi) as Hp. exists B, m0, mu0, cc. cbn [c_mem c_thr c_blk c_fault]. rewrite Hp. do 6 (split; [done|]).
    destruct Hm as [(Em & Emu & HB & Hni & Hrun)|(w & x & v & HB & H1 & H2 & H3 & (h1 & h2 & H4 & H4') & H5 & (p & ops' & k' & Hw & Hs) & Hrun & Hbl)].
    - left. split; [done|]. split; [done|]. cbn [c_thr]. rewrite Hp. split; [done|]. split; [done|]. intros j p ops' Hj. apply list_lookup_insert_Some in Hj as [(<- & [= <- <-] & _)|[Hne Hj]]; [|by apply (Hrun j p ops')].
      apply Hq; [by apply (Hrun i _ _ Hi)|done].
    - assert (i <> w) as Hne by (intros ->; apply (Hni0 x v), (open_progress h h1 w (Insert x v) h2); done).
      right. exists w, x, v. split; [cbn [c_thr]; by rewrite Hp|]. split; [done|]. split; [done|]. split; [done|]. split; [by exists h1, h2|]. split; [done|]. split; [|split; [|done]].
      + exists p, ops', k'. cbn [c_thr c_mem]. by rewrite list_lookup_insert_ne.
      + cbn [c_thr]. intros j q' ops2 Hj Hjw. apply list_lookup_insert_Some in Hj as [(<- & [= <- <-] & _)|[Hne2 Hj]]; [|by apply (Hrun j q' ops2)].
        apply Hq; [by apply (Hrun i _ _ Hi)|done]. }
  assert (exists Q, reading B m0 c h Q i (Step f k)) as [Q0 HQ0].
  { destruct Hm as [(Em & Emu & HB & Hni & Hrun)|(w & x & v & HB & H1 & H2 & H3 & (h1 & h2 & H4 & H4') & H5 & (p & ops' & k' & Hw & Hs) & Hrun & Hbl)]; [eexists; by apply (Hrun i _ _ Hi)|].
    eexists. apply (Hrun i _ _ Hi). intros ->. apply (Hni0 x v), (open_progress h h1 w (Insert x v) h2); done. }
  assert (B < U32_MAX)%N as HB0 by (destruct Hm as [(_ & _ & ? & _)|(w & x & v & ? & _)]; lia).
  destruct HQ0 as (_ & _ & _ & _ & _ & _ & Hro & _). destruct (f (c_mem c)) as [[r m']|e] eqn:E.
  - destruct (ro_access f k _ _ _ Hro E) as [-> Hk]. split; [done|]. apply Hgen. intros Q HQ Em. eapply reading_next; [|exact HQ|done|].
    + intros o Ho Hr n e. apply (call_nofail F K HF B o m0 mu0 cc Ho (reads_K K _ Hr)); [rewrite (reads_cost o Hr); lia|done].
    + intros HQ'. by rewrite <- (Em HQ').
  - apply Hgen. intros Q (h1 & o & h2 & Ho & Hr & Hok' & _ & Hu) Em. exists h1, o, h2. split; [done|]. split; [done|]. split; [done|]. split; [constructor|].
    intros Hud. exfalso. destruct (Hu Hud) as (X1 & X2 & j & X3). pose proof (steps_next _ _ _ _ _ _ X3) as H5. rewrite <- (Em X1), E in H5.
    apply (call_nofail F K HF B o m0 mu0 cc Hok' (reads_K K _ Hr)) with (j := S j) (e := e); [rewrite (reads_cost o Hr); lia|done|]. unfold P in *. rewrite <- (Em X1), H5. done.
Qed.
(** the inserting thread makes an access *)
Lemma ser_write c h i R (f : mem -> res (R * mem)) k ops x v : SerInv c h -> c_thr c !! i = Some (TRun (Step f k), ops) -> in_progress i (Insert x v) h ->
  exists r m', f (c_mem c) = Ok (r, m') /\
  forall t, SerInv (mk_csys m' (<[i := (TRun (k r), ops)]> (c_thr c)) (replicate (length (retired m') - length (c_blk c)) (holders (c_thr c)) ++ c_blk c) (c_fault c) t) h.
Proof.
  intros (B & m0 & mu0 & cc & HR & Hf & Hb & Hok & HK & Hra & Hm) Hi Hin.
  destruct Hm as [(_ & _ & _ & Hni & _)|(w & x' & v' & HB & H1 & H2 & H3 & (h1 & h2 & H4 & H4') & H5 & (p & ops' & j & Hw & Hs) & Hrun & Hbl)]; [by apply Hni in Hin|].
  pose proof (H5 _ _ _ Hin) as <-. rewrite Hi in Hw. injection Hw as <- <-. pose proof (steps_next _ _ _ _ _ _ Hs) as H6. destruct (f (c_mem c)) as [[r m']|e] eqn:E.
  2:{ exfalso. assert (B + cost (Insert x' v') < U32_MAX)%N as HB2 by lia. destruct (call_steps F K HF B (Insert x' v') m0 mu0 cc _ _ _ H1 H2 HB2 HR H6) as [Hno _]. by apply (Hno e). }
  exists r, m'. split; [done|]. intros t. pose proof (rest_same _ _ _ (TRun (k r)) _ Hi) as Hp.
  assert (exists y, retired m' = y ++ retired (c_mem c)) as [y Hy].
  { apply (steps_retired 1 (Step f k) (c_mem c) m' (k r)); [exact (cm_steps _ _ _ _ _ (cm_call F (Insert x' v')) Hs)|]. cbn [steps]. unfold step1. cbn [fst snd]. by rewrite E. }
  exists B, m0, mu0, cc. cbn [c_mem c_thr c_blk c_fault]. rewrite Hp. split; [done|]. split; [done|].
  split; [rewrite app_length, replicate_length, Hy, app_length; lia|]. split; [done|]. split; [done|]. split; [done|]. right. exists i, x', v'.
  split; [cbn [c_thr]; by rewrite Hp|]. split; [done|]. split; [done|]. split; [done|]. split; [by exists h1, h2|]. split; [done|]. split; [|split].
  - exists (k r), ops, (S j). cbn [c_thr c_mem]. split; [apply list_lookup_insert; by eapply lookup_lt_Some|done].
  - cbn [c_thr]. intros j' q ops2 Hj Hne. apply list_lookup_insert_Some in Hj as [(<- & _ & _)|[_ Hj]]; [done|]. by apply (Hrun j' q ops2).
  - cbn [c_mem c_blk]. intros j' b Hj Hlt. apply lookup_app_Some in Hj as [Hj|[Hle Hj]].
    + apply lookup_replicate in Hj as [-> _]. apply elem_holders. eauto.
    + rewrite replicate_length in Hle, Hj. apply (Hbl _ _ Hj). rewrite Hy, app_length in *. lia.
Qed.

Lemma ser_collect c h j g : SerInv c h -> retired (c_mem c) !! j = Some g -> c_blk c !! j = Some [] -> exists m',
  reclaim1 g (mwith_retired (delete j (retired (c_mem c))) (c_mem c)) = Ok m' /\ (exists x, gc x (c_mem c) m') /\
  forall t, SerInv (mk_csys m' (c_thr c) (delete j (c_blk c)) (c_fault c) t) h.
Proof.
  intros (B & m0 & mu0 & cc & HR & Hf & Hb & Hok & HK & Hra & Hm) Hj Hbj.
  assert (forall m', S (length (retired m')) = length (retired (c_mem c)) -> length (delete j (c_blk c)) = length (retired m')) as Hlen.
  { intros m' Hm'. rewrite length_delete by (by eexists). rewrite Hb. lia. }
  destruct Hm as [(Em & Emu & HB & Hni & Hrun)|(w & x' & v' & HB & H1 & H2 & H3 & (h1 & h2 & H4 & H4') & H5 & (p & ops' & k & Hw & Hs) & Hrun & Hbl)].
  - rewrite Em in *. pose proof (lookup_lt_Some _ _ _ Hj) as Hlt.
    destruct (rel_collect1 false K B m0 mu0 cc (take j (retired m0)) g (drop (S j) (retired m0)) HR) as (m' & Hgc & HR'); [by rewrite take_drop_middle|].
    rewrite drop_length in Hgc. destruct (gc_reclaim F K HF m0 j g _ m' Hj Hgc) as [Er El]; [lia|]. exists m'. split; [done|]. split; [by eexists|]. intros t.
    exists B, m', mu0, cc. cbn [c_mem c_thr c_blk c_fault]. split; [done|]. split; [done|]. split; [by apply Hlen|]. split; [done|]. split; [done|]. split; [done|]. left.
    split; [done|]. split; [done|]. cbn [c_thr]. split; [done|]. split; [done|]. intros i p ops Hi. destruct (Hrun i p ops Hi) as (h1 & o & h2 & Ho & Hr & Hok' & Hro & Hu).
    exists h1, o, h2. split; [done|]. split; [done|]. split; [done|]. split; [done|]. intros Hud. destruct (Hu Hud) as (_ & X2 & k & X3). split; [done|]. split; [done|]. exists k.
    assert (B + cost o < U32_MAX)%N as HB2 by (rewrite (reads_cost o Hr); lia).
    destruct (gc_steps k _ _ m0 m' m0 p (cm_call F o) Hgc (call_nofail F K HF B o m' mu0 cc Hok' (reads_K K _ Hr) HB2 HR') X3) as (m1' & E1 & G1).
    + by apply (call_steps F K HF B o m0 mu0 cc k m0 p Hok' (reads_K K _ Hr) HB2 HR X3).
    + pose proof (gc_fun _ _ _ _ Hgc G1) as <-. exact E1.
  - set (o' := Insert x' v') in *. destruct (steps_retired _ _ _ _ _ (cm_call F o') Hs) as [x Hx].
    assert (length x <= j) as Hxj.
    { destruct (decide (length x <= j)) as [|Hlt]; [done|]. exfalso. assert (w ∈ @nil nat) as Hw' by (apply (Hbl j [] Hbj); rewrite Hx, app_length; lia). by apply elem_of_nil in Hw'. }
    pose proof Hj as Hj0. rewrite Hx, lookup_app_r in Hj0 by done. set (j0 := j - length x) in *. pose proof (lookup_lt_Some _ _ _ Hj0) as Hlt.
    destruct (rel_collect1 false K B m0 mu0 cc (take j0 (retired m0)) g (drop (S j0) (retired m0)) HR) as (m0' & Hgc & HR'); [by rewrite take_drop_middle|].
    rewrite drop_length in Hgc. assert (B + cost o' < U32_MAX)%N as HB2 by lia.
    destruct (gc_steps k _ _ m0 m0' (c_mem c) p (cm_call F o') Hgc (call_nofail F K HF B o' m0' mu0 cc H1 H2 HB2 HR') Hs) as (m' & E1 & G1).
    { by apply (call_steps F K HF B o' m0 mu0 cc k (c_mem c) p H1 H2 HB2 HR Hs). }
    destruct (gc_reclaim F K HF (c_mem c) j g _ m' Hj G1) as [Er El]; [rewrite Hx, app_length; unfold j0 in *; lia|].
    destruct (gc_reclaim F K HF m0 j0 g _ m0' Hj0 Hgc) as [_ El0]; [lia|]. exists m'. split; [done|]. split; [by eexists|]. intros t.
    exists B, m0', mu0, cc. cbn [c_mem c_thr c_blk c_fault]. split; [done|]. split; [done|]. split; [by apply Hlen|]. split; [done|]. split; [done|]. split; [done|]. right. exists w, x', v'.
    split; [done|]. split; [done|]. split; [done|]. split; [done|]. split; [by exists h1, h2|]. split; [done|]. split; [|split].
    + exists p, ops', k. done.
    + intros i q ops Hi Hne. destruct (Hrun i q ops Hi Hne) as (g1 & o & g2 & Ho & Hr & Hok' & Hro & Hu). exists g1, o, g2. split; [done|]. split; [done|]. split; [done|]. split; [done|]. intros Hud. by destruct (Hu Hud).
    + cbn [c_mem c_blk]. intros i b Hi Hlt2. assert (i < length x) as Hix by (rewrite Hx, app_length in El; lia).
      rewrite lookup_delete_lt in Hi by lia. apply (Hbl i b Hi). rewrite Hx, app_length. lia.
Qed.
Lemma ser_time c h t : SerInv c h -> SerInv (mk_csys (c_mem c) (c_thr c) (c_blk c) (c_fault c) t) h.
Proof. intros H. exact H. Qed.
Lemma progress_dec i h : (exists x v, in_progress i (Insert x v) h) \/ forall x v, ~ in_progress i (Insert x v) h.
Proof. unfold in_progress. destruct (last_of i h) as [[j [| | | |]|]|] eqn:E; try (right; intros ? ? [=]; done). destruct (decide (j = i)) as [->|]; [left; eauto|right; intros ? ? [=]; done]. Qed.

Lemma ser_act c h a c' h' : SerInv c h -> c_step F a c = (c', h') -> serial (h ++ untimed h') -> SerInv c' (h ++ untimed h').
Proof.
  intros HX Hs Hx. destruct a as [i|j]; cbn [c_step] in Hs.
  - unfold sys_step in Hs. cbn [fst snd] in Hs. assert (length (retired (c_mem c)) - length (c_blk c) = 0) as E0.
    { destruct HX as (B & m0 & mu0 & cc & _ & _ & Hb & _). lia. }
    destruct (c_thr c !! i) as [[[|[a|e|R f k]] ops]|] eqn:Hi.
    + destruct ops as [|o ops].
      * rewrite E0 in Hs. injection Hs as <- <-. cbn [untimed map]. rewrite app_nil_r in *. by apply ser_time.
      * rewrite E0 in Hs. injection Hs as <- <-. by apply ser_call.
    + rewrite E0 in Hs. injection Hs as <- <-. apply ser_return; [done|done|by rewrite map_length|].
      intros w j b Hne Hj. cbn [replicate app] in Hj. rewrite list_lookup_fmap in Hj. destruct (c_blk c !! j) as [b'|]; [|done]. cbn in Hj. injection Hj as <-. exists b'. split; [done|].
      intros Hin. unfold without. apply elem_of_list_In, filter_In. split; [by apply elem_of_list_In|]. destruct (Nat.eqb_spec w i); [congruence|done].
    + rewrite E0 in Hs. injection Hs as <- <-. cbn [untimed map]. rewrite app_nil_r in *. by apply ser_time.
    + destruct (progress_dec i h) as [(x & v & Hin)|Hno].
      * destruct (ser_write c h i R f k ops x v HX Hi Hin) as (r & m' & E & HX'). rewrite E in Hs. injection Hs as <- <-. cbn [untimed map]. rewrite app_nil_r. apply HX'.
      * pose proof (ser_read c h i R f k ops HX Hi Hno) as HX'. destruct (f (c_mem c)) as [[r m']|e].
        -- destruct HX' as [-> HX']. rewrite E0 in Hs. injection Hs as <- <-. cbn [untimed map]. rewrite app_nil_r. apply HX'.
        -- rewrite E0 in Hs. injection Hs as <- <-. cbn [untimed map]. rewrite app_nil_r. apply HX'.
    + rewrite E0 in Hs. injection Hs as <- <-. cbn [untimed map]. rewrite app_nil_r in *. by apply ser_time.
  - destruct (retired (c_mem c) !! j) as [g|] eqn:Hj; [|injection Hs as <- <-; cbn [untimed map]; rewrite app_nil_r; by apply ser_time].
    destruct (c_blk c !! j) as [[|x b]|] eqn:Hb; try (injection Hs as <- <-; cbn [untimed map]; rewrite app_nil_r; by apply ser_time).
    destruct (ser_collect c h j g HX Hj Hb) as (m' & E & _ & HX'). rewrite E in Hs. injection Hs as <- <-. cbn [untimed map]. rewrite app_nil_r. apply HX'.
Qed.
Lemma ser_run acts : forall c h c' h', SerInv c h -> c_run F acts c = (c', h') -> serial (h ++ untimed h') -> SerInv c' (h ++ untimed h').
Proof.
  induction acts as [|a acts IH]; intros c h c' h' HX Hr Hx; cbn [c_run] in Hr.
  - injection Hr as <- <-. cbn. by rewrite app_nil_r.
  - destruct (c_step F a c) as [c1 h1] eqn:E1. destruct (c_run F acts c1) as [c2 h2] eqn:E2. injection Hr as <- <-.
    unfold untimed in *. rewrite map_app, app_assoc in *. eapply IH; [|exact E2|done]. eapply ser_act; [exact HX|exact E1|]. by apply serial_app in Hx.
Qed.
Lemma ser_start scripts : Forall op_ok (concat scripts) -> Forall (K_ok K) (concat scripts) -> (6144 + costs (concat scripts) < U32_MAX)%N ->
  SerInv (c_start scripts) [].
Proof.
  intros Hok HK HB. assert (rest (c_thr (c_start scripts)) = concat scripts) as Er.
  { unfold rest, c_start. cbn [c_thr]. rewrite map_map. cbn. by rewrite map_id. }
  exists 6144%N, tree_new, ∅, 0%N. rewrite Er. split; [apply rel_new|]. split; [done|]. split; [done|]. split; [done|]. split; [done|].
  split. { intros _ h1 i o h2 a (h3 & E & _). by destruct h1. }
  left. split; [done|]. split; [done|]. rewrite Er. split; [done|]. split; [by intros j k v|]. intros i p ops Hi. cbn in Hi. apply list_lookup_fmap_Some in Hi as (x & _ & [=]).
Qed.
Lemma ser_fail c h i e : SerInv c h -> c_failed c i e -> exists h1 o h2, open_call h h1 i o h2 /\ reads_only o /\ ~ undisturbed h1 h2.
Proof.
  intros (B & m0 & mu0 & cc & HR & Hf & Hb & Hok & HK & Hra & Hm) (ops & Hi).
  destruct Hm as [(Em & Emu & HB & Hni & Hrun)|(w & x & v & HB & H1 & H2 & H3 & (h1 & h2 & H4 & H4') & H5 & (p & ops' & k & Hw & Hs) & Hrun & Hbl)].
  - destruct (Hrun i _ _ Hi) as (h1 & o & h2 & Ho & Hr & Hok' & Hro & Hu). exists h1, o, h2. split; [done|]. split; [done|]. intros Hud. destruct (Hu Hud) as (_ & _ & k & Hs).
    assert (B + cost o < U32_MAX)%N as HB2 by (rewrite (reads_cost o Hr); lia). destruct (call_steps F K HF B o m0 mu0 cc _ _ _ Hok' (reads_K K _ Hr) HB2 HR Hs) as [Hno _]. by apply (Hno e).
  - destruct (decide (i = w)) as [->|Hne].
    + exfalso. rewrite Hi in Hw. injection Hw as <- <-. assert (B + cost (Insert x v) < U32_MAX)%N as HB2 by lia.
      by destruct (call_steps F K HF B (Insert x v) m0 mu0 cc _ _ _ H1 H2 HB2 HR Hs) as [Hno _]; apply (Hno e).
    + destruct (Hrun i _ _ Hi Hne) as (g1 & o & g2 & Ho & Hr & Hok' & Hro & Hu). exists g1, o, g2. split; [done|]. split; [done|]. intros Hud. by destruct (Hu Hud).
Qed.
(** ** insertions complete *)
Definition inserting (h : list event) (i : nat) : Prop := exists x v, in_progress i (Insert x v) h.
Lemma ser_writer c h i : SerInv c h -> inserting h i -> exists B m0 mu0 cc x v p ops k, Rel false K B m0 mu0 cc /\ op_ok (Insert x v) /\ K x v /\
  (B + cost (Insert x v) < U32_MAX)%N /\ c_thr c !! i = Some (TRun p, ops) /\ steps k (m0, call insert F (Insert x v)) = (c_mem c, p).
Proof.
  intros (B & m0 & mu0 & cc & HR & Hf & Hb & Hok & HK & Hra & Hm) (x0 & v0 & Hin).
  destruct Hm as [(Em & Emu & HB & Hni & Hrun)|(w & x & v & HB & H1 & H2 & H3 & (h1 & h2 & H4 & H4') & H5 & (p & ops' & k & Hw & Hs) & Hrun & Hbl)]; [by apply Hni in Hin|].
  rewrite (H5 _ _ _ Hin). exists B, m0, mu0, cc, x, v, p, ops', k. do 3 (split; [done|]). split; [lia|done].
Qed.
Lemma ser_ends c h i : SerInv c h -> inserting h i -> exists N, ends c i N.
Proof.
  intros HX Hin. destruct (ser_writer c h i HX Hin) as (B & m0 & mu0 & cc & x & v & p & ops & k & HR & H1 & H2 & H3 & Hi & H4).
  destruct (call_run F K HF B (Insert x v) m0 mu0 cc H1 H2 H3 HR) as (a & m' & E & _). destruct (run_steps _ _ _ _ E) as (y & Hy & _).
  exists y, p, ops, a, m'. split; [done|]. specialize (Hy (k + y) ltac:(lia)). rewrite steps_app in Hy. unfold P in *. by rewrite H4 in Hy.
Qed.
Lemma ser_ends_step c h a c' h' i N : SerInv c h -> inserting h i -> ends c i N -> c_step F a c = (c', h') -> serial (h ++ untimed h') ->
  (exists t x, (t, ERet i x) ∈ h') \/ (inserting (h ++ untimed h') i /\
  match a with Thread j => if decide (j = i) then match N with 0 => False | S N => ends c' i N end else ends c' i N | Collect _ => ends c' i N end).
Proof.
  intros HX Hin (p & ops & x & mf & Hi & Hs) Hst Hex. pose proof (ser_act c h a c' h' HX Hst Hex) as HX'. destruct a as [j|j].
  - destruct (decide (j = i)) as [->|Hne].
    + cbn [c_step] in Hst. unfold sys_step in Hst. cbn [fst snd] in Hst. rewrite Hi in Hst. destruct p as [a|e|R f k].
      * injection Hst as <- <-. left. exists (c_time c), a. by left.
      * exfalso. destruct Hin as (x0 & v0 & Hin). destruct (ser_fail c h i e HX ltac:(by exists ops)) as (h1 & o & h2 & Ho & Hr & _). apply open_progress in Ho. unfold in_progress in *. rewrite Hin in Ho. injection Ho as <-. done.
      * right. destruct (f (c_mem c)) as [[r m']|e] eqn:E.
        -- injection Hst as <- <-. cbn [untimed map]. rewrite app_nil_r. split; [done|]. destruct N as [|N]; [done|]. cbn [steps] in Hs. unfold step1 in Hs. cbn [fst snd] in Hs. rewrite E in Hs.
           exists (k r), ops, x, mf. cbn [c_thr c_mem]. split; [apply list_lookup_insert; by eapply lookup_lt_Some|done].
        -- exfalso. destruct N as [|N]; [done|]. cbn [steps] in Hs. unfold step1 in Hs. cbn [fst snd] in Hs. rewrite E in Hs. clear -Hs. induction N as [|N IH]; [done|]. by apply IH.
    + right. assert (c_thr c' !! i = Some (TRun p, ops) /\ c_mem c' = c_mem c /\ inserting (h ++ untimed h') i) as (Ht & Em & Hin'); [|split; [done|]; exists p, ops, x, mf; by rewrite Em].
      assert (forall e, event_of e = j -> inserting (h ++ [e]) i) as He.
      { intros e He. destruct Hin as (y & u & Hin). exists y, u. apply in_progress_other; [done|congruence]. }
      cbn [c_step] in Hst. unfold sys_step in Hst. cbn [fst snd] in Hst. destruct (c_thr c !! j) as [[[|[a|e|R f k]] ops']|] eqn:Hj.
      * destruct ops' as [|o ops']; injection Hst as <- <-; cbn [c_thr c_mem untimed map].
        -- rewrite app_nil_r. done.
        -- split; [by rewrite list_lookup_insert_ne|]. split; [done|]. by apply He.
      * injection Hst as <- <-; cbn [c_thr c_mem untimed map]. split; [by rewrite list_lookup_insert_ne|]. split; [done|]. by apply He.
      * injection Hst as <- <-; cbn [c_thr c_mem untimed map]. rewrite app_nil_r. done.
      * assert (forall y u, ~ in_progress j (Insert y u) h) as Hno.
        { intros y u Hp. destruct Hin as (y' & u' & Hin). destruct HX as (B & m0 & mu0 & cc & HR & Hf & Hb & Hok & HK & Hra & Hm).
          destruct Hm as [(_ & _ & _ & Hni & _)|(w & x2 & v2 & _ & _ & _ & _ & _ & H5 & _)]; [by apply Hni in Hp|]. apply Hne. by rewrite (H5 _ _ _ Hp), (H5 _ _ _ Hin). }
        pose proof (ser_read c h j R f k ops' HX Hj Hno) as HX2. destruct (f (c_mem c)) as [[r m']|e].
        -- destruct HX2 as [-> _]. injection Hst as <- <-; cbn [c_thr c_mem untimed map]. rewrite app_nil_r. by rewrite list_lookup_insert_ne.
        -- injection Hst as <- <-; cbn [c_thr c_mem untimed map]. rewrite app_nil_r. by rewrite list_lookup_insert_ne.
      * injection Hst as <- <-; cbn [c_thr c_mem untimed map]. rewrite app_nil_r. done.
  - right. cbn [c_step] in Hst. destruct (retired (c_mem c) !! j) as [g|] eqn:Hj; [|injection Hst as <- <-; cbn [untimed map]; rewrite app_nil_r; split; [done|]; by exists p, ops, x, mf].
    destruct (c_blk c !! j) as [[|y b]|] eqn:Hb; try (injection Hst as <- <-; cbn [untimed map]; rewrite app_nil_r; split; [done|]; by exists p, ops, x, mf).
    destruct (ser_collect c h j g HX Hj Hb) as (m' & Er & (y & Hgc) & _). rewrite Er in Hst.
    injection Hst as <- <-. cbn [untimed map] in *. rewrite app_nil_r in *. split; [done|].
    destruct (ser_writer _ _ i HX' Hin) as (B & m0 & mu0 & cc & o & v & p' & ops' & k & HR & H1 & H2 & H3 & Hi' & H4). cbn [c_mem c_thr] in H4, Hi'. rewrite Hi in Hi'. injection Hi' as <- <-.
    destruct (ser_writer _ _ i HX Hin) as (_ & m0' & _ & _ & o' & v' & p' & ops' & k' & _ & _ & _ & _ & Hi' & H4'). rewrite Hi in Hi'. injection Hi' as <- <-.
    destruct (gc_steps N p _ _ m' mf (Ret x) (cm_steps _ _ _ _ _ (cm_call F _) H4') Hgc) as (m1' & E1 & _); [|exact Hs|done|].
    + intros j' e He. apply (call_nofail F K HF B (Insert o v) m0 mu0 cc H1 H2 H3 HR (k + j') e). rewrite steps_app. unfold P in *. by rewrite H4.
    + by exists p, ops, x, m1'.
Qed.
Lemma ser_ends_run acts : forall c h c' h' i N, SerInv c h -> inserting h i -> ends c i N -> c_run F acts c = (c', h') -> serial (h ++ untimed h') ->
  N < turns_of i acts -> exists t x, (t, ERet i x) ∈ h'.
Proof.
  induction acts as [|a acts IH]; intros c h c' h' i N HX Hin He Hr Hx HN; [cbn in HN; lia|]. cbn [c_run] in Hr.
  destruct (c_step F a c) as [c1 h1] eqn:E1. destruct (c_run F acts c1) as [c2 h2] eqn:E2. injection Hr as <- <-.
  unfold untimed in Hx. rewrite map_app, app_assoc in Hx. pose proof (serial_app _ _ Hx) as Hx1.
  pose proof (ser_act c h a c1 h1 HX E1 Hx1) as HX1.
  destruct (ser_ends_step c h a c1 h1 i N HX Hin He E1 Hx1) as [(t & x & Hin1)|[Hin1 He1]]; [exists t, x; apply elem_of_app; by left|].
  assert (exists N', ends c1 i N' /\ N' < turns_of i acts) as (N' & He' & HN').
  { unfold turns_of in *. cbn [List.filter] in HN. destruct a as [j|j].
    - destruct (decide (j = i)) as [->|Hne].
      + rewrite Nat.eqb_refl in HN. cbn [length] in HN. destruct N as [|N]; [done|]. exists N. split; [done|lia].
      + destruct (Nat.eqb_spec j i); [done|]. by exists N.
    - by exists N. }
  destruct (IH c1 _ c2 h2 i N' HX1 Hin1 He' E2 Hx HN') as (t & x & Hin2). exists t, x. apply elem_of_app. by right.
Qed.
End Serial.

Section Top.
Context (F : nat) (scripts : list (list op)) (acts : list act) (c : csys) (h : list (N * event)).
Context (HF : 300 <= F) (Hok : history_ok (concat scripts)) (Hrun : c_run F acts (c_start scripts) = (c, h)) (Hx : serial (untimed h)).
Lemma serial_top : SerInv F (Kof (concat scripts)) c (untimed h).
Proof.
  apply (ser_run F (Kof (concat scripts)) HF acts (c_start scripts) [] c h); [|done|done].
  destruct Hok as [H1 H2]. rewrite key_bytes_costs in H2. apply ser_start; [done|apply Kof_ok|unfold U32_MAX; lia].
Qed.
Lemma serial_safe : c_fault c = false /\ forall i e, c_failed c i e ->
  exists h1 o h2, open_call (untimed h) h1 i o h2 /\ reads_only o /\ ~ undisturbed h1 h2.
Proof. split; [destruct serial_top as (B & m0 & mu0 & cc & _ & Hf & _); done|]. intros i e. eapply ser_fail; [exact HF|exact serial_top]. Qed.
Context (Hu : unambiguous (concat scripts)).
Lemma serial_answers h1 i o h2 a : answered_call (untimed h) h1 i o h2 a -> undisturbed h1 h2 -> a = (map_step (contents h1) o).1.
Proof. destruct serial_top as (B & m0 & mu0 & cc & _ & _ & _ & _ & _ & Hra & _). apply (Hra (top_fine scripts Hu)). Qed.
Lemma serial_contents : no_insertion (untimed h) ->
  (forall k, op_ok (Get k) -> run (get F k) (c_mem c) = Ok (contents (untimed h) !! k, c_mem c)) /\ cnt (c_mem c) = N.of_nat (size (contents (untimed h))).
Proof.
  intros Hn. pose proof (top_fine scripts Hu) as Hs. destruct serial_top as (B & m0 & mu0 & cc & HR & _ & _ & _ & _ & _ & Hm).
  destruct Hm as [(Em & Emu & HB & Hni & Hr)|(w & x & v & HB & H1 & H2 & H3 & (h1 & h2 & H4 & H4') & _)].
  2:{ exfalso. by apply (Hn w x v), (open_progress _ h1 w (Insert x v) h2). }
  rewrite Em, <- Emu. split.
  - intros x Hxx. destruct (call_run F (Kof (concat scripts)) HF B (Get x) m0 mu0 cc Hxx I) as (r & m' & E & _ & Hr2); [cbn [cost]; lia|done|].
    cbn [call] in E. rewrite VersionLaws.run_bind in E. destruct (run (get F x) m0) as [[y m2]|] eqn:G; [|done]. cbn in E. injection E as <- <-. specialize (Hr2 Hs). cbn in Hr2. injection Hr2 as ->.
    f_equal. f_equal. by apply (lookups_read_only F x m0 (mu0 !! x)); left.
  - destruct HR as (_ & s & Hc & HS & _ & _ & _ & _ & _ & Hex). destruct (Hex Hs) as (_ & _ & X3). by rewrite (st_cnt _ _ HS), X3.
Qed.
End Top.
Lemma serial_completes F scripts acts c h i k v : 300 <= F -> history_ok (concat scripts) -> c_run F acts (c_start scripts) = (c, h) -> serial (untimed h) ->
  in_progress i (Insert k v) (untimed h) -> exists N, forall acts' c' h', c_run F acts' c = (c', h') -> serial (untimed (h ++ h')) -> N <= turns_of i acts' -> exists t a, (t, ERet i a) ∈ h'.
Proof.
  intros HF Hok Hr Hx Hi. pose proof (serial_top F scripts acts c h HF Hok Hr Hx) as HX. assert (inserting (untimed h) i) as Hin by (by exists k, v).
  destruct (ser_ends _ _ HF c _ i HX Hin) as (N & HN). exists (S N).
  intros acts' c' h' Hr' Hx' Hl. unfold untimed in Hx'. rewrite map_app in Hx'. exact (ser_ends_run _ _ HF acts' c (untimed h) c' h' i N HX Hin HN Hr' Hx' Hl).
Qed.
