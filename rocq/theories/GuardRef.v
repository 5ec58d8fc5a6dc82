(** Explicit guards: the theorems (GuardSys.v). *)
From Verif Require Import Base Key Prog Version Mem Tree SpecTree TreeTop SpecLin SpecConc SpecGuard Conc ConcVar ConcSys ConcTop ConcOnce GuardSys.

Lemma conc_calls_more scripts k : conc_calls scripts -> conc_op (GetRef k) -> conc_calls (scripts ++ [[GetRef k]]).
Proof.
  intros (H1 & H2 & H3) Hk. assert (inserts (concat (scripts ++ [[GetRef k]])) = inserts (concat scripts)) as E.
  { rewrite concat_app, inserts_app. cbn. apply app_nil_r. }
  split; [apply Forall_app; split; [done|]; by apply Forall_singleton, Forall_singleton|]. unfold one_layer, bags_fit in *. rewrite !E. done.
Qed.
Lemma lift_fail p e : lift p (Fail e) -> p = Fail e.
Proof. destruct p as [a|e'|R f k]; unfold lift; cbn; [done|congruence|by intros (? & ? & _)]. Qed.

Fixpoint fro {A} (p : P A) : Prop :=
  match p with Step f k => (forall m r m', f m = Ok (r, m') -> m' = m) /\ forall r, fro (k r) | _ => True end.
Lemma ro_fro {A} (p : P A) : ro p -> fro p.
Proof. induction 1; cbn; done. Qed.
(** what the first access of a program does *)
Definition pstep {A} (p : P A) (m : mem) : res (P A * mem) :=
  match p with Step f k => match f m with Ok (r, m') => Ok (k r, m') | Er e => Er e end | _ => Er Panic end.

Section Refs.
Context (F : nat) (scripts : list (list op)) (Hcalls : conc_calls scripts).
Let n : nat := length scripts.
Notation Rel := (Rel scripts).

(** ** without the further thread *)
Lemma rel_start ex : Rel (fun x => x) (g_start scripts) (c_start (scripts ++ ex)).
Proof.
  split; try done; cbn.
  - by rewrite map_length.
  - rewrite map_length, app_length. lia.
  - intros i t Hi. rewrite list_lookup_fmap in Hi. destruct (scripts !! i) as [ops|] eqn:E; [|done]. cbn in Hi. injection Hi as <-.
    exists TIdle. split; [|done]. rewrite list_lookup_fmap, lookup_app_l by (by eapply lookup_lt_Some). by rewrite E.
  - intros x p ops _ Hx. rewrite list_lookup_fmap in Hx. by destruct ((scripts ++ ex) !! x).
Qed.
Lemma g_run_app acts acts' : forall g, g_run F (acts ++ acts') g =
  let '(g1, h1) := g_run F acts g in let '(g2, h2) := g_run F acts' g1 in (g2, h1 ++ h2).
Proof.
  induction acts as [|a acts IH]; intros g; cbn.
  - by destruct (g_run F acts' g).
  - destruct (g_step F a g) as [g1 h1]. rewrite IH. destruct (g_run F acts g1) as [g2 h2]. destruct (g_run F acts' g2) as [g3 h3]. by rewrite app_assoc.
Qed.
Lemma c_run_snoc acts a c c1 h1 : c_run F acts c = (c1, h1) -> c_run F (acts ++ [a]) c = ((c_step F a c1).1, h1 ++ (c_step F a c1).2).
Proof. intros H. rewrite c_run_app, H. cbn. destruct (c_step F a c1). cbn. by rewrite app_nil_r. Qed.
Lemma g_transfer acts g h : g_run F acts (g_start scripts) = (g, h) -> exists acts' c,
  c_run F acts' (c_start scripts) = (c, h) /\ Rel (fun x => x) g c /\ g_time g = c_time c.
Proof.
  revert g h. induction acts as [|a acts IH] using rev_ind; intros g h Hr.
  - injection Hr as <- <-. exists [], (c_start scripts). split; [done|]. split; [|done]. rewrite <- (app_nil_r scripts) at 3. apply rel_start.
  - rewrite g_run_app in Hr. destruct (g_run F acts (g_start scripts)) as [g1 h1]. cbn in Hr.
    destruct (IH _ _ eq_refl) as (acts' & c & Hc & R & Et).
    destruct (step_rel F scripts (fun x => x) a g1 c R) as (a' & S).
    { eapply conc_facts; [done|exact Hc]. }
    { intros i ops b refs x p o _ _ Hx Hp E. destruct (re_ext _ _ _ _ R x p o Hx Hp) as (t & Ht & _).
      apply lookup_lt_Some in Ht. rewrite (re_n _ _ _ _ R) in Ht. unfold n in *. lia. }
    destruct (g_step F a g1) as [g2 h2] eqn:Eg. injection Hr as <- <-. exists (acts' ++ [a']), (c_step F a' c).1.
    destruct (st_evs _ _ _ _ _ _ _ S) as (evs & E1 & E2). destruct (st_time _ _ _ _ _ _ _ S) as [T1 T2].
    pose proof (st_rel' _ _ _ _ _ _ _ S) as R'. rewrite Eg in E1, T1, R'. cbn [fst snd] in *.
    rewrite (c_run_snoc _ _ _ _ _ Hc), E1, E2, Et, app_nil_r. split; [done|]. split; [done|]. by rewrite T1, T2, Et.
Qed.

(** ** with it *)
Definition OW (i x : nat) : nat := if x <? n then x else i.
Definition reach (k : bytes) (c : csys) : Prop := conc_op (GetRef k) /\
  exists acts h, c_run F acts (c_start (scripts ++ [[GetRef k]])) = (c, h).
Lemma reach_facts k c : reach k c -> facts c.
Proof. intros (Hk & acts & h & H). eapply conc_facts; [|exact H]. by apply conc_calls_more. Qed.
Lemma reach_step k c a : reach k c -> reach k (c_step F a c).1.
Proof. intros (Hk & acts & h & H). split; [done|]. exists (acts ++ [a]). eexists. by apply c_run_snoc. Qed.
(** before its call; during it, before the last access; and before that access *)
Definition P0 (k : bytes) (g : gsys) : Prop := exists c, reach k c /\ Rel (fun x => x) g c /\ c_thr c !! n = Some (TIdle, [GetRef k]).
Definition P1 (i : nat) (p : P (ans * option (N * N))) (g : gsys) : Prop := exists k c p0 q, reach k c /\ Rel (OW i) g c /\
  c_thr c !! n = Some (TRun q, []) /\ fro p0 /\ follows p0 fG p /\ follows p0 fC q.
Definition P2 (i : nat) (h v : N) (g : gsys) : Prop := exists k c kk, reach k c /\ Rel (OW i) g c /\
  c_thr c !! n = Some (TRun (Step (deref h) kk), []) /\ vals (g_mem g) !! h = Some v.

Lemma reach_deref k c h kk : reach k c -> c_thr c !! n = Some (TRun (Step (deref h) kk), []) -> is_Some (vals (c_mem c) !! h).
Proof.
  intros (Hk & acts & hh & H) Hn. destruct (vals (c_mem c) !! h) as [v|] eqn:E; [by eexists|].
  destruct (conc_safe F (scripts ++ [[GetRef k]]) (acts ++ [Thread n]) _ _ (conc_calls_more _ _ Hcalls Hk) (c_run_snoc _ _ _ _ _ H)) as [_ Hs].
  destruct (Hs n UB) as [|]; [|done..]. exists []. cbn [c_step]. unfold sys_step. cbn [fst snd]. rewrite Hn. unfold deref at 1. rewrite E. cbn.
  apply list_lookup_insert. by eapply lookup_lt_Some.
Qed.
Lemma reach_same k c a h v v' : reach k c -> vals (c_mem c) !! h = Some v -> vals (c_mem (c_step F a c).1) !! h = Some v' -> v' = v.
Proof.
  intros (Hk & acts & hh & H) Hv Hv'. eapply (vals_constant F (scripts ++ [[GetRef k]]) acts [a] h); [by apply conc_calls_more|by rewrite H|].
  by rewrite (c_run_snoc _ _ _ _ _ H).
Qed.
(** the action does not drop thread [i]'s guard *)
Definition keeps (i : nat) (a : gact) (g : gsys) : Prop := forall ops b refs, a = GUnpin i -> g_thr g !! i <> Some (mk_gt GIdle ops b refs).
Lemma ow_step i a g c : Rel (OW i) g c -> facts c -> keeps i a g -> exists a', steps F scripts (OW i) a g c a'.
Proof.
  intros R Hf Hk. apply step_rel; [done|done|]. intros j ops b refs x p o -> Hj Hx Hp Ho.
  assert (OW i x = i) as E by (unfold OW; apply (Nat.ltb_ge x n) in Hx; by rewrite Hx). rewrite E in Ho. subst j. by eapply Hk.
Qed.
Lemma p2_step i h v a g : P2 i h v g -> keeps i a g -> P2 i h v (g_step F a g).1.
Proof.
  intros (k & c & kk & Hr & R & Hn & Hv) Hk. destruct (ow_step i a g c R (reach_facts _ _ Hr) Hk) as (a' & S).
  pose proof (reach_step k c a' Hr) as Hr'. pose proof (st_ext _ _ _ _ _ _ _ S n ltac:(done)) as En. rewrite Hn in En.
  exists k, (c_step F a' c).1, kk. split; [done|]. split; [apply S|]. split; [done|].
  destruct (reach_deref _ _ _ _ Hr' En) as [v' Hv']. rewrite <- (re_mem _ _ _ _ (st_rel' _ _ _ _ _ _ _ S)). rewrite Hv'. f_equal.
  eapply reach_same; [exact Hr| |exact Hv']. by rewrite (re_mem _ _ _ _ R).
Qed.
(** steps of other threads *)
Lemma p1_step i p a g : P1 i p g -> keeps i a g -> P1 i p (g_step F a g).1.
Proof.
  intros (k & c & p0 & q & Hr & R & Hn & Hp) Hk. destruct (ow_step i a g c R (reach_facts _ _ Hr) Hk) as (a' & S).
  exists k, (c_step F a' c).1, p0, q. split; [by apply reach_step|]. split; [apply S|]. split; [|done].
  by rewrite (st_ext _ _ _ _ _ _ _ S n).
Qed.
Lemma p0_step k a g : P0 k g -> P0 k (g_step F a g).1.
Proof.
  intros (c & Hr & R & Hn). destruct (step_rel F scripts (fun x => x) a g c R (reach_facts _ _ Hr)) as (a' & S).
  { intros i ops b refs x p o _ _ Hx Hp E. destruct (re_ext _ _ _ _ R x p o Hx Hp) as (t & Ht & _).
    apply lookup_lt_Some in Ht. rewrite (re_n _ _ _ _ R) in Ht. unfold n in *. lia. }
  exists (c_step F a' c).1. split; [by apply reach_step|]. split; [apply S|]. by rewrite (st_ext _ _ _ _ _ _ _ S n).
Qed.
(** the further thread begins its call *)
Lemma p0_p1 k i g t : P0 k g -> g_thr g !! i = Some t -> gt_pin t = true -> gt_st t = GRun (gcall F (GetRef k)) -> P1 i (gcall F (GetRef k)) g.
Proof.
  intros (c & Hr & R & Hn) Hi Hp Hs. pose proof (reach_facts _ _ Hr) as Hf.
  assert (c_step F (Thread n) c = (mk_csys (c_mem c) (<[n := (TRun (call insert F (GetRef k)), [])]> (c_thr c)) (c_blk c) (c_fault c) (c_time c + 1),
    [(c_time c, ECall n (GetRef k))])) as E.
  { cbn. unfold sys_step. cbn [fst snd]. rewrite Hn. cbn. by rewrite <- (fa_len _ Hf), Nat.sub_diag. }
  pose proof (lookup_lt_Some _ _ _ Hn) as Hlt. pose proof (reach_step k c (Thread n) Hr) as Hr'. rewrite E in Hr'. cbn [fst] in Hr'.
  exists k, (mk_csys (c_mem c) (<[n := (TRun (call insert F (GetRef k)), [])]> (c_thr c)) (c_blk c) (c_fault c) (c_time c + 1)),
    (ref_pre F k), (call insert F (GetRef k)). split; [done|]. split; [|split; [cbn [c_thr]; by apply list_lookup_insert|]].
  2:{ split; [apply ro_fro, pre_ro|]. split; [apply pre_g|apply pre_c]. }
  assert (forall x p ops, n <= x -> c_thr c !! x = Some (TRun p, ops) -> False) as Hno.
  { intros x p ops Hx Hc. destruct (re_ext _ _ _ _ R x p ops Hx Hc) as (u & Hu & _). apply lookup_lt_Some in Hu. rewrite (re_n _ _ _ _ R) in Hu. unfold n in *. lia. }
  split; cbn; try apply R.
  - rewrite insert_length. apply R.
  - intros j u Hu. pose proof (lookup_lt_Some _ _ _ Hu) as Hj. rewrite (re_n _ _ _ _ R) in Hj. rewrite list_lookup_insert_ne by (unfold n in *; lia). by apply R.
  - intros j Hj. unfold OW. apply Nat.ltb_lt in Hj. unfold n. by rewrite Hj.
  - intros j B C x HB HC Hx. pose proof (re_blk _ _ _ _ R j B C x HB HC Hx) as Hin.
    destruct (fa_in _ Hf B x) as (p & ops & Hxp); [by eapply elem_of_list_lookup_2|done|].
    unfold OW. destruct (x <? n) eqn:El; [done|]. apply Nat.ltb_ge in El. by destruct (Hno x p ops).
  - intros x p ops Hx Hc. exists t. unfold OW. destruct (x <? n) eqn:El; [|done]. apply Nat.ltb_lt in El. unfold n in *. lia.
Qed.
(** thread [i] makes an access, and the further thread the same *)
Lemma p1_access i R0 (f : mem -> res (R0 * mem)) kp g t : P1 i (Step f kp) g -> g_thr g !! i = Some t -> gt_st t = GRun (Step f kp) -> gt_pin t = true ->
  match f (g_mem g) with
  | Er e => True
  | Ok (r, m) => P1 i (kp r) (g_step F (GThread i) g).1 \/ exists h v a, kp r = Ret (a, Some (h, v)) /\ P2 i h v (g_step F (GThread i) g).1
  end.
Proof.
  intros (k & c & p0 & q & Hr & R & Hn & Hro & Hg & Hq) Hi Hs Hp. destruct (f (g_mem g)) as [[r m]|e] eqn:Ef; [|done].
  destruct (ow_step i (GThread i) g c R (reach_facts _ _ Hr)) as (a' & S); [done|]. pose proof (reach_step k c a' Hr) as Hr'.
  pose proof (st_ext _ _ _ _ _ _ _ S n ltac:(done)) as En. rewrite Hn in En. pose proof (st_rel' _ _ _ _ _ _ _ S) as R'.
  assert (g_mem (g_step F (GThread i) g).1 = m) as Em by (cbn; by rewrite Hi, Hs, Ef).
  set (c1 := (c_step F a' c).1) in *. set (g1 := (g_step F (GThread i) g).1) in *.
  pose proof (f_equal (fun p : P (ans * option (N * N)) => pstep p (g_mem g))) as HP.
  destruct p0 as [[h|]|e|R1 f1 k1]; [|cbn in Hg; done|cbn in Hg; done|].
  - right. cbn in Hg, Hq. destruct Hg as (kk & Eg & Hkk). destruct Hq as (kq & ->). apply HP in Eg. cbn in Eg. rewrite Ef in Eg. unfold deref in Eg.
    destruct (vals (g_mem g) !! h) as [v|] eqn:Hv; [|done]. injection Eg as Ekp Em2. rewrite Hkk in Ekp.
    exists h, v, (AGet (Some v)). split; [done|]. exists k, c1, kq. split; [done|]. split; [done|]. split; [done|]. by rewrite Em, Em2.
  - left. cbn in Hg, Hq, Hro. destruct Hg as (kg & Eg & Hg). destruct Hq as (kq & -> & Hq). destruct Hro as [Hro1 Hro2].
    apply HP in Eg. cbn in Eg. rewrite Ef in Eg. destruct (f1 (g_mem g)) as [[r1 m1]|] eqn:Ef1; [|done]. injection Eg as Ekp Em2. subst m1.
    pose proof (Hro1 _ _ _ Ef1) as Em1. pose proof (reach_facts _ _ Hr') as Hf1.
    assert (c_mem c1 = g_mem g) as Ec1 by (rewrite (re_mem _ _ _ _ R'), Em; exact Em1).
    assert (c_step F (Thread n) c1 = (mk_csys (c_mem c1) (<[n := (TRun (kq r1), [])]> (c_thr c1)) (c_blk c1) (c_fault c1) (c_time c1 + 1), [])) as E.
    { cbn. unfold sys_step. cbn [fst snd]. rewrite En, Ec1, Ef1. cbn. by rewrite Em1, <- Ec1, <- (fa_len _ Hf1), Nat.sub_diag. }
    pose proof (reach_step k c1 (Thread n) Hr') as Hr2. rewrite E in Hr2. cbn [fst] in Hr2. pose proof (lookup_lt_Some _ _ _ En) as Hlt.
    eexists k, _, (k1 r1), (kq r1). split; [exact Hr2|]. split; [|split; [cbn [c_thr]; by apply list_lookup_insert|]].
    2:{ rewrite Ekp. split; [apply Hro2|]. split; [apply Hg|apply Hq]. }
    split; cbn; try apply R'.
    + rewrite insert_length. apply R'.
    + intros j u Hu. pose proof (lookup_lt_Some _ _ _ Hu) as Hj. rewrite (re_n _ _ _ _ R') in Hj. rewrite list_lookup_insert_ne by (unfold n in *; lia). by apply R'.
    + intros x p ops Hx. destruct (decide (x = n)) as [->|Hne]; [|rewrite list_lookup_insert_ne by done; by apply R'].
      intros _. by eapply (re_ext _ _ _ _ R' n).
Qed.

(** ** all of them *)
Record GInv (g : gsys) : Prop := {
  gi_p0 : forall k, conc_op (GetRef k) -> P0 k g;
  gi_run : forall i t p, g_thr g !! i = Some t -> gt_st t = GRun p -> gt_pin t = true ->
    noref p \/ P1 i p g \/ exists h v a, p = Ret (a, Some (h, v)) /\ P2 i h v g;
  gi_ref : forall i t h v, g_thr g !! i = Some t -> (h, v) ∈ gt_refs t -> gt_pin t = true /\ P2 i h v g;
  gi_ops : forall i t o, g_thr g !! i = Some t -> o ∈ gt_ops t -> conc_op o }.
Lemma p1_ret i a x g : P1 i (Ret (a, x)) g -> x = None.
Proof.
  intros (k & c & p0 & q & _ & _ & _ & _ & Hg & _). destruct p0 as [[h|]|e|R1 f1 k1]; cbn in Hg; [by destruct Hg as (kk & ? & _)|congruence|done|].
  by destruct Hg as (kk & ? & _).
Qed.
(** threads that are where they were *)
Lemma others i a g t p : g_thr g !! i = Some t -> keeps i a g ->
  (gt_st t = GRun p -> gt_pin t = true -> noref p \/ P1 i p g \/ exists h v a, p = Ret (a, Some (h, v)) /\ P2 i h v g) ->
  gt_st t = GRun p -> gt_pin t = true -> noref p \/ P1 i p (g_step F a g).1 \/ exists h v a0, p = Ret (a0, Some (h, v)) /\ P2 i h v (g_step F a g).1.
Proof.
  intros Hi Hk H Hs Hp. destruct (H Hs Hp) as [?|[?|(h & v & a0 & ? & ?)]]; [by left|right; left; by apply p1_step|].
  right. right. exists h, v, a0. split; [done|]. by apply p2_step.
Qed.
Lemma ginv_step a g : GInv g -> GInv (g_step F a g).1.
Proof.
  intros [I0 I1 I2 I3].
  assert (forall g', g_thr g' = g_thr g -> g' = (g_step F a g).1 -> (forall i, keeps i a g) -> GInv g') as Hsame.
  { intros g' Et E Hk. split.
    - intros k Hk'. rewrite E. by apply p0_step, I0.
    - rewrite Et. intros i t p Hi. rewrite E. eapply others; [done|apply Hk|]. by apply I1.
    - rewrite Et. intros i t h v Hi Hr. destruct (I2 i t h v Hi Hr) as [Hp H2]. split; [done|]. rewrite E. by apply p2_step.
    - rewrite Et. done. }
  (* one thread moves *)
  assert (forall i t t' g', g_thr g !! i = Some t -> g_thr g' = <[i := t']> (g_thr g) -> g' = (g_step F a g).1 ->
    (forall j, j <> i -> keeps j a g) -> (forall o, o ∈ gt_ops t' -> o ∈ gt_ops t) ->
    (forall p, gt_st t' = GRun p -> gt_pin t' = true -> noref p \/ P1 i p g' \/ exists h v a, p = Ret (a, Some (h, v)) /\ P2 i h v g') ->
    (forall h v, (h, v) ∈ gt_refs t' -> gt_pin t' = true /\ P2 i h v g') -> GInv g') as Hmove.
  { intros i t t' g' Hi Et E Hk Ho Hrun Href. split.
    - intros k Hk'. rewrite E. by apply p0_step, I0.
    - rewrite Et. intros j u p Hj. destruct (decide (j = i)) as [->|Hne].
      + rewrite list_lookup_insert in Hj by (by eapply lookup_lt_Some). injection Hj as <-. apply Hrun.
      + rewrite list_lookup_insert_ne in Hj by done. rewrite E. eapply others; [done|by apply Hk|]. by apply I1.
    - rewrite Et. intros j u h v Hj. destruct (decide (j = i)) as [->|Hne].
      + rewrite list_lookup_insert in Hj by (by eapply lookup_lt_Some). injection Hj as <-. apply Href.
      + rewrite list_lookup_insert_ne in Hj by done. intros Hr. destruct (I2 j u h v Hj Hr) as [Hp H2]. split; [done|]. rewrite E. apply p2_step; [done|by apply Hk].
    - rewrite Et. intros j u o Hj. destruct (decide (j = i)) as [->|Hne].
      + rewrite list_lookup_insert in Hj by (by eapply lookup_lt_Some). injection Hj as <-. intros H. eapply I3; [done|]. by apply Ho.
      + rewrite list_lookup_insert_ne in Hj by done. by eapply I3. }
  destruct a as [i|i|i|j].
  - assert (forall j, keeps j (GThread i) g) as Hk by done.
    destruct (g_thr g !! i) as [t|] eqn:Hi; [|eapply Hsame; [|reflexivity|done]; cbn; by rewrite Hi].
    assert (forall h v, (h, v) ∈ gt_refs t -> gt_pin t = true /\ P2 i h v (g_step F (GThread i) g).1) as Hold.
    { intros h v Hr. destruct (I2 i t h v Hi Hr) as [Hp H2]. split; [done|]. by apply p2_step. }
    destruct (gt_st t) as [|p] eqn:Est.
    + destruct (gt_ops t) as [|o ops] eqn:Eo; [eapply Hsame; [|reflexivity|done]; cbn; by rewrite Hi, Est, Eo|].
      assert (g_thr (g_step F (GThread i) g).1 = <[i := mk_gt (GRun (gcall F o)) ops (gt_pin t) (gt_refs t)]> (g_thr g)) as Et by (cbn; by rewrite Hi, Est, Eo).
      eapply (Hmove i t); [done|exact Et|reflexivity|done|..].
      * cbn. rewrite Eo. by right.
      * cbn [gt_st gt_pin]. intros p [= <-] Hp. destruct o as [| |k| |]; try (left; by apply noref_call). right. left.
        eapply (p0_p1 k i _ (mk_gt (GRun (gcall F (GetRef k))) ops (gt_pin t) (gt_refs t))); try done.
        -- apply p0_step, I0. eapply I3; [done|]. rewrite Eo. by left.
        -- rewrite Et. apply list_lookup_insert. by eapply lookup_lt_Some.
      * done.
    + destruct p as [[a x]|e|R0 f k].
      * assert (g_thr (g_step F (GThread i) g).1 = <[i := mk_gt GIdle (gt_ops t) (gt_pin t) (if gt_pin t then opt_list x ++ gt_refs t else gt_refs t)]> (g_thr g)) as Et by (cbn; by rewrite Hi, Est).
        eapply (Hmove i t); [done|exact Et|reflexivity|done|done|done|]. cbn [gt_refs gt_pin]. intros h v. destruct (gt_pin t) eqn:Ep; [|intros Hr; by apply Hold].
        rewrite elem_of_app. intros [Hr|Hr]; [|by apply Hold]. split; [done|].
        destruct (I1 i t _ Hi Est Ep) as [Hn|[H1|(h' & v' & a0 & E & H2)]].
        -- cbn in Hn. subst x. by apply elem_of_nil in Hr.
        -- apply p1_ret in H1 as ->. by apply elem_of_nil in Hr.
        -- injection E as -> ->. apply elem_of_list_singleton in Hr. injection Hr as -> ->. by apply p2_step.
      * eapply Hsame; [|reflexivity|done]; cbn; by rewrite Hi, Est.
      * pose proof (p1_access i R0 f k g t) as HA. destruct (f (g_mem g)) as [[r m]|e] eqn:Ef.
        -- assert (g_thr (g_step F (GThread i) g).1 = <[i := mk_gt (GRun (k r)) (gt_ops t) (gt_pin t) (gt_refs t)]> (g_thr g)) as Et by (cbn; by rewrite Hi, Est, Ef).
           eapply (Hmove i t); [done|exact Et|reflexivity|done|done| |done]. cbn [gt_st gt_pin]. intros p [= <-] Hp.
           destruct (I1 i t _ Hi Est Hp) as [Hn|[H1|(h' & v' & a0 & E & H2)]]; [left; apply Hn| |done]. right. by apply HA.
        -- assert (g_thr (g_step F (GThread i) g).1 = <[i := mk_gt (GRun (Fail e)) (gt_ops t) (gt_pin t) (gt_refs t)]> (g_thr g)) as Et by (cbn; by rewrite Hi, Est, Ef).
           eapply (Hmove i t); [done|exact Et|reflexivity|done|done| |done]. cbn [gt_st gt_pin]. intros p [= <-] Hp. by left.
  - assert (forall j, keeps j (GPin i) g) as Hk by done.
    destruct (g_thr g !! i) as [[st ops b refs]|] eqn:Hi; [|eapply Hsame; [|reflexivity|done]; cbn; by rewrite Hi].
    destruct st as [|p]; [|eapply Hsame; [|reflexivity|done]; cbn; by rewrite Hi].
    assert (g_thr (g_step F (GPin i) g).1 = <[i := mk_gt GIdle ops true refs]> (g_thr g)) as Et by (cbn; by rewrite Hi).
    eapply (Hmove i (mk_gt GIdle ops b refs)); [done|exact Et|reflexivity|done|done|done|]. cbn [gt_refs gt_pin]. intros h v Hr. split; [done|].
    destruct (I2 i _ h v Hi Hr) as [Hp H2]. by apply p2_step.
  - destruct (g_thr g !! i) as [[st ops b refs]|] eqn:Hi.
    2:{ eapply Hsame; [|reflexivity|]; [cbn; by rewrite Hi|]. intros j ops b refs [= <-]. by rewrite Hi. }
    destruct st as [|p].
    2:{ eapply Hsame; [|reflexivity|]; [cbn; by rewrite Hi|]. intros j ops' b' refs' [= <-]. by rewrite Hi. }
    assert (g_thr (g_step F (GUnpin i) g).1 = <[i := mk_gt GIdle ops false []]> (g_thr g)) as Et by (cbn; by rewrite Hi).
    eapply (Hmove i (mk_gt GIdle ops b refs)); [done|exact Et|reflexivity| |done|done|].
    + intros j Hne ops' b' refs' [= ->]. done.
    + intros h v Hr. by apply elem_of_nil in Hr.
  - eapply Hsame; [|reflexivity|done]. cbn. destruct (retired (g_mem g) !! j); [|done]. destruct (g_blk g !! j) as [[|]|]; try done. by destruct (reclaim1 _ _).
Qed.
Lemma ginv_start : GInv (g_start scripts).
Proof.
  split.
  - intros k Hk. exists (c_start (scripts ++ [[GetRef k]])). split; [split; [done|]; by exists [], []|]. split; [apply rel_start|].
    cbn. rewrite list_lookup_fmap, lookup_app_r by done. unfold n. by rewrite Nat.sub_diag.
  - cbn. intros i t p Hi. rewrite list_lookup_fmap in Hi. destruct (scripts !! i); [|done]. injection Hi as <-. done.
  - cbn. intros i t h v Hi. rewrite list_lookup_fmap in Hi. destruct (scripts !! i); [|done]. injection Hi as <-. cbn. by intros ?%elem_of_nil.
  - cbn. intros i t o Hi. rewrite list_lookup_fmap in Hi. destruct (scripts !! i) as [ops|] eqn:E; [|done]. injection Hi as <-. cbn. intros Ho.
    destruct Hcalls as [H _]. rewrite Forall_forall in H. specialize (H ops (elem_of_list_lookup_2 _ _ _ E)). rewrite Forall_forall in H. by apply H.
Qed.
Lemma ginv_run acts g h : g_run F acts (g_start scripts) = (g, h) -> GInv g.
Proof.
  revert g h. induction acts as [|a acts IH] using rev_ind; intros g h Hr.
  - injection Hr as <- <-. apply ginv_start.
  - rewrite g_run_app in Hr. destruct (g_run F acts (g_start scripts)) as [g1 h1]. cbn in Hr. specialize (IH _ _ eq_refl).
    apply (ginv_step a) in IH. destruct (g_step F a g1) as [g2 h2]. by injection Hr as <- <-.
Qed.

(** whoever keeps an object from being freed has a guard *)
Lemma g_blockers acts g h : g_run F acts (g_start scripts) = (g, h) -> forall B x, B ∈ g_blk g -> x ∈ B -> x ∈ g_holders (g_thr g).
Proof.
  revert g h. induction acts as [|a acts IH] using rev_ind; intros g h Hr.
  - injection Hr as <- <-. intros B x HB. by apply elem_of_nil in HB.
  - rewrite g_run_app in Hr. destruct (g_run F acts (g_start scripts)) as [g1 h1]. cbn in Hr. specialize (IH _ _ eq_refl).
    assert (forall i t t' x, g_thr g1 !! i = Some t -> x ∈ g_holders (g_thr g1) -> (x = i -> g_holds t' = true) -> x ∈ g_holders (<[i := t']> (g_thr g1))) as Hset.
    { intros i t t' x Hi. rewrite !elem_g_holders. intros (u & Hu & Hh) Hx. destruct (decide (x = i)) as [->|Hne].
      - exists t'. rewrite list_lookup_insert by (by eapply lookup_lt_Some). split; [done|by apply Hx].
      - exists u. by rewrite list_lookup_insert_ne. }
    destruct (g_step F a g1) as [g2 h2] eqn:Es. injection Hr as <- <-.
    destruct a as [i|i|i|j]; cbn in Es.
    + destruct (g_thr g1 !! i) as [t|] eqn:Hi; [|injection Es as <- <-; exact IH].
      destruct (gt_st t) as [|p] eqn:Est.
      * destruct (gt_ops t) as [|o ops]; injection Es as <- <-; [exact IH|]. cbn. intros B x HB Hx. eapply Hset; [done|by eapply IH|]. intros _.
        unfold g_holds. cbn. by rewrite orb_true_r.
      * destruct p as [[a x]|e|R0 f k].
        -- injection Es as <- <-. cbn. intros B y HB Hy. destruct (gt_pin t) eqn:Ep.
           ++ eapply Hset; [done|by eapply IH|]. intros _. unfold g_holds. done.
           ++ apply elem_of_list_fmap in HB as (B' & -> & HB). apply without_sub in Hy as [Hy Hne]. eapply Hset; [done|by eapply IH|]. done.
        -- injection Es as <- <-. exact IH.
        -- destruct (f (g_mem g1)) as [[r m]|e]; injection Es as <- <-; cbn; intros B y HB Hy.
           ++ eapply Hset; [done| |intros _; unfold g_holds; cbn; by rewrite orb_true_r]. apply elem_of_app in HB as [HB|HB]; [|by eapply IH].
              apply elem_of_replicate in HB as [-> _]. done.
           ++ eapply Hset; [done|by eapply IH|]. intros _. unfold g_holds. cbn. by rewrite orb_true_r.
    + destruct (g_thr g1 !! i) as [[st ops b refs]|] eqn:Hi; [|injection Es as <- <-; exact IH]. destruct st; injection Es as <- <-; [|exact IH].
      cbn. intros B y HB Hy. eapply Hset; [done|by eapply IH|]. done.
    + destruct (g_thr g1 !! i) as [[st ops b refs]|] eqn:Hi; [|injection Es as <- <-; exact IH]. destruct st; injection Es as <- <-; [|exact IH].
      cbn. intros B y HB Hy. apply elem_of_list_fmap in HB as (B' & -> & HB). apply without_sub in Hy as [Hy Hne]. eapply Hset; [done|by eapply IH|]. done.
    + destruct (retired (g_mem g1) !! j); [|injection Es as <- <-; exact IH]. destruct (g_blk g1 !! j) as [[|]|]; try (injection Es as <- <-; exact IH).
      destruct (reclaim1 _ _); injection Es as <- <-; [|exact IH]. cbn. intros B y HB Hy. eapply IH; [by eapply delete_elem|done].
Qed.
End Refs.

(** ** the theorems *)
Section Top.
Context (F : nat) (scripts : list (list op)) (acts : list gact) (g : gsys) (h : list (N * event)).
Context (Hcalls : conc_calls scripts) (Hrun : g_run F acts (g_start scripts) = (g, h)).
Lemma guard_refs i t p v : g_thr g !! i = Some t -> (p, v) ∈ gt_refs t -> vals (g_mem g) !! p = Some v.
Proof. intros Hi Hr. by destruct (gi_ref _ _ _ (ginv_run F scripts Hcalls acts g h Hrun) i t p v Hi Hr) as [_ (k & c & kk & _ & _ & _ & ?)]. Qed.
Lemma guard_safe : g_fault g = false /\ forall i e, g_failed g i e -> e = Fuel \/ e = Limit.
Proof.
  destruct (g_transfer F scripts Hcalls acts g h Hrun) as (acts' & c & Hc & R & _). destruct (conc_safe F scripts acts' c h Hcalls Hc) as [H1 H2].
  split; [by rewrite <- (re_fault _ _ _ _ R)|]. intros i e (t & Hi & Hs). apply (H2 i). destruct (re_thr _ _ _ _ R _ _ Hi) as (s & Hc' & Hst). rewrite Hs in Hst.
  destruct s as [|q]; [done|]. unfold st_rel, lift in Hst. cbn in Hst. subst q. by exists (gt_ops t).
Qed.
Lemma guard_same : exists acts' c, c_run F acts' (c_start scripts) = (c, h) /\ c_mem c = g_mem g /\ (g_quiet g -> c_quiet c).
Proof.
  destruct (g_transfer F scripts Hcalls acts g h Hrun) as (acts' & c & Hc & R & _). exists acts', c. split; [done|]. split; [apply R|].
  intros Hq i s ops Hi. pose proof (lookup_lt_Some _ _ _ Hi) as Hlt.
  assert (length (c_thr c) = length scripts) as El.
  { clear -Hc. assert (forall a c0, length (c_thr (c_step F a c0).1) = length (c_thr c0)) as Hs.
    { intros [i|j] c0; cbn.
      - unfold sys_step. cbn. destruct (c_thr c0 !! i) as [[[|p] ops]|]; [destruct ops|destruct p as [| |R0 f k]|]; cbn; rewrite ?insert_length; try done.
        destruct (f (c_mem c0)) as [[r m]|]; cbn; by rewrite insert_length.
      - destruct (retired (c_mem c0) !! j); [|done]. destruct (c_blk c0 !! j) as [[|]|]; try done. by destruct (reclaim1 _ _). }
    assert (forall l c0, length (c_thr (c_run F l c0).1) = length (c_thr c0)) as Hr.
    { induction l as [|a l IH]; intros c0; cbn; [done|]. specialize (Hs a c0). destruct (c_step F a c0) as [c1 h1]. specialize (IH c1).
      destruct (c_run F l c1). cbn in *. congruence. }
    specialize (Hr acts' (c_start scripts)). rewrite Hc in Hr. cbn in Hr. by rewrite map_length in Hr. }
  rewrite El, <- (re_n _ _ _ _ R) in Hlt. apply lookup_lt_is_Some in Hlt as [t Ht]. destruct (re_thr _ _ _ _ R _ _ Ht) as (s' & Hs' & Hst).
  rewrite Hi in Hs'. injection Hs' as <- ->. rewrite (Hq i t Ht) in Hst. by destruct s.
Qed.
Lemma guard_released : g_quiet g -> g_unpinned g -> forall B, B ∈ g_blk g -> B = [].
Proof.
  intros Hq Hu B HB. destruct B as [|x B]; [done|]. pose proof (g_blockers F scripts acts g h Hrun _ x HB ltac:(by left)) as H.
  apply elem_g_holders in H as (t & Ht & Hh). unfold g_holds in Hh. by rewrite (Hq _ _ Ht), (Hu _ _ Ht) in Hh.
Qed.
Lemma guard_stored k v : NoDup (values_of (concat scripts)) -> g_quiet g -> Forall (fun b => b < 256)%N k ->
  stored (g_mem g) k v <-> asked k v h /\ ~ handed_back v h.
Proof.
  intros Hd Hq Hk. destruct guard_same as (acts' & c & Hc & Em & Hqc). rewrite <- Em.
  apply (conc_stored scripts Hd Hcalls F acts' c h Hc k v (Hqc Hq) Hk).
Qed.
End Top.
