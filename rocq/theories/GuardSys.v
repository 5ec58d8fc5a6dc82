(** Explicit guards: each execution with guards is one without, and what a reference points
    to stays.  For the latter a further thread makes the same [get_ref] call at the same time
    but puts off its last access, the one through the pointer it got: by C38 that access
    succeeds whenever it is made. *)
From Verif Require Import Base Key Prog Version Mem Tree SpecTree TreeTop SpecLin SpecConc SpecGuard Conc ConcVar ConcSys ConcTop.

(** ** executions *)
Lemma c_run_app F acts acts' : forall c, c_run F (acts ++ acts') c =
  let '(c1, h1) := c_run F acts c in let '(c2, h2) := c_run F acts' c1 in (c2, h1 ++ h2).
Proof.
  induction acts as [|a acts IH]; intros c; cbn.
  - by destruct (c_run F acts' c).
  - destruct (c_step F a c) as [c1 h1]. rewrite IH. destruct (c_run F acts c1) as [c2 h2]. destruct (c_run F acts' c2) as [c3 h3]. by rewrite app_assoc.
Qed.
Lemma c_runv_app F acts acts' : forall c, c_runv F (acts ++ acts') c =
  let '(c1, h1) := c_runv F acts c in let '(c2, h2) := c_runv F acts' c1 in (c2, h1 ++ h2).
Proof.
  induction acts as [|a acts IH]; intros c; cbn.
  - by destruct (c_runv F acts' c).
  - destruct (c_stepv F a c) as [c1 h1]. rewrite IH. destruct (c_runv F acts c1) as [c2 h2]. destruct (c_runv F acts' c2) as [c3 h3]. by rewrite app_assoc.
Qed.
(** the contents of a value never change while it exists *)
Lemma vals_constant F scripts acts acts' h v v' : conc_calls scripts ->
  vals (c_mem (c_run F acts (c_start scripts)).1) !! h = Some v ->
  vals (c_mem (c_run F (acts ++ acts') (c_start scripts)).1) !! h = Some v' -> v' = v.
Proof.
  intros Hc. assert (forall a, sim (c_run F a (c_start scripts)).1 (c_runv F a (c_start scripts)).1) as Hs.
  { intros a. apply sim_run; [apply sim_start|]. intros acts0. destruct (conc_ok_v F scripts acts0 Hc) as [w S]. by eapply sinv_running. }
  rewrite (sim_mem _ _ (Hs acts)), (sim_mem _ _ (Hs (acts ++ acts'))). clear Hs. rewrite c_runv_app.
  destruct (c_run_ok scripts Hc F acts _ _ _ (sinv_start scripts)) as (w & S & _).
  destruct (c_runv F acts (c_start scripts)) as [c1 h1]. cbn [fst snd] in *.
  destruct (c_run_ok scripts Hc F acts' _ _ _ S) as (w' & S' & _ & M).
  destruct (c_runv F acts' c1) as [c2 h2]. cbn [fst snd] in *.
  rewrite <- (si_mem _ _ _ _ S), <- (si_mem _ _ _ _ S'). intros H1 H2.
  apply (iv_tag _ (si_inv _ _ _ _ S)) in H1 as [k H1]. apply (iv_tag _ (si_inv _ _ _ _ S')) in H2 as [k' H2].
  apply (mo_tag _ _ M) in H1. congruence.
Qed.
Record facts (c : csys) : Prop := {
  fa_len : length (c_blk c) = length (retired (c_mem c));
  fa_in : forall B x, B ∈ c_blk c -> x ∈ B -> exists p ops, c_thr c !! x = Some (TRun p, ops) }.
Lemma conc_facts F scripts acts c h : conc_calls scripts -> c_run F acts (c_start scripts) = (c, h) -> facts c.
Proof.
  intros Hc Hr. destruct (conc_ok _ _ _ _ _ Hc Hr) as (c' & w & Hs & S). split.
  - rewrite (sim_blk _ _ Hs), (sim_mem _ _ Hs), <- (si_blk _ _ _ _ S), <- (si_mem _ _ _ _ S). apply (si_inv _ _ _ _ S).
  - intros B x HB Hx. rewrite (sim_blk _ _ Hs), <- (si_blk _ _ _ _ S) in HB. pose proof (si_grd _ _ _ _ S _ _ HB Hx) as H.
    rewrite (si_run _ _ _ _ S), <- (sim_holders _ _ (sim_thr _ _ Hs)) in H. by apply elem_holders in H.
Qed.

(** ** programs that begin alike *)
Fixpoint follows {A B} (p : P A) (fin : A -> P B -> Prop) (q : P B) : Prop :=
  match p with
  | Ret a => fin a q
  | Fail e => q = Fail e
  | Step f k => exists k', q = Step f k' /\ forall r, follows (k r) fin (k' r)
  end.
Definition lift (p : P (ans * option (N * N))) (q : P ans) : Prop := follows p (fun a q => q = Ret a.1) q.
Fixpoint noref (p : P (ans * option (N * N))) : Prop :=
  match p with Ret a => a.2 = None | Fail _ => True | Step f k => forall r, noref (k r) end.

Definition deref (h : N) : mem -> res (N * mem) :=
  fun m => match vals m !! h with Some v => Ok (v, m) | None => Er UB end.
(** what [get_ref] does before it uses the pointer it found *)
Definition ref_pre (F : nat) (kb : bytes) : P (option N) :=
  match key_new kb with
  | None => Fail Panic
  | Some k => r <- load_root ;; get_ref_loop F F k (GLayer r)
  end.
Definition fG (o : option N) (p : P (ans * option (N * N))) : Prop :=
  match o with
  | None => p = Ret (AGet None, None)
  | Some h => exists kk, p = Step (deref h) kk /\ forall v, kk v = Ret (AGet (Some v), Some (h, v))
  end.
Definition fC (o : option N) (q : P ans) : Prop :=
  match o with None => True | Some h => exists kk, q = Step (deref h) kk end.
Lemma follows_then {A B C D} (p : P A) (f : A -> P B) (g : B -> P C) (h : C -> P D) (fin : B -> P D -> Prop) :
  (forall a, follows (f a) fin (bind (bind (f a) g) h)) -> follows (bind p f) fin (bind (bind p (fun a => bind (f a) g)) h).
Proof. intros H. induction p as [a|e|R x k IH]; cbn; [done..|]. by eexists. Qed.
Lemma follows_bind3 {A B C} (p : P A) (f : A -> P B) (g : B -> P C) (fin : A -> P C -> Prop) :
  (forall a, fin a (bind (f a) g)) -> follows p fin (bind (bind p f) g).
Proof. intros H. induction p as [a|e|R x k IH]; cbn; [done..|]. by eexists. Qed.
Lemma pre_g F k : follows (ref_pre F k) fG (gcall F (GetRef k)).
Proof.
  cbn [gcall]. unfold ref_pre, get_ref_at. destruct (key_new k) as [kk|]; [|done].
  apply follows_then. intros r. apply follows_bind3. intros [h|]; cbn; [|done]. eexists. split; [reflexivity|]. done.
Qed.
Lemma pre_c F k : follows (ref_pre F k) fC (call insert F (GetRef k)).
Proof.
  cbn [call]. unfold ref_pre, get_ref. destruct (key_new k) as [kk|]; [|done].
  apply follows_then. intros r. apply follows_bind3. intros [h|]; cbn; [|done]. by eexists.
Qed.
Lemma pre_ro F k : ro (ref_pre F k).
Proof. unfold ref_pre. destruct (key_new k); [|constructor]. apply ro_bind; [apply ro_load_root|]. intros r. apply ro_get_ref_loop. Qed.
Lemma lift_call F o : lift (gcall F o) (call insert F o).
Proof.
  assert (forall p : P ans, lift (bind p (fun a => Ret (a, None))) p) as H.
  { intros p. unfold lift. induction p as [a|e|R f k IH]; cbn; [done..|]. by eexists. }
  destruct o as [| |k| |]; try apply H. cbn [gcall call]. unfold get_ref_at, get_ref. destruct (key_new k) as [kk|]; [|done].
  assert (forall A (p : P A) (f : A -> P (option (N * N))) (f' : A -> P (option N)),
    (forall a, lift (bind (f a) (fun x => Ret (AGet (snd <$> x), x))) (bind (f' a) (fun r => Ret (AGet r)))) ->
    lift (bind (bind p f) (fun x => Ret (AGet (snd <$> x), x))) (bind (bind p f') (fun r => Ret (AGet r)))) as Hb.
  { intros A p f f' Hf. unfold lift in *. induction p as [a|e|R g k' IH]; cbn; [apply Hf|done|]. by eexists. }
  apply Hb. intros r. apply Hb. intros [h|]; [|done]. apply Hb. intros v. done.
Qed.
Lemma noref_call F o : (forall k, o <> GetRef k) -> noref (gcall F o).
Proof.
  intros H. assert (forall p : P ans, noref (bind p (fun a => Ret (a, None)))) as Hp.
  { intros p. induction p; cbn; done. }
  destruct o as [| |k| |]; try apply Hp. by destruct (H k).
Qed.

(** ** executions with guards and executions without *)
Definition st_rel (s : gstate) (t : tstate) : Prop :=
  match s, t with GIdle, TIdle => True | GRun p, TRun q => lift p q | _, _ => False end.
Lemma elem_g_holders thr j : j ∈ g_holders thr <-> exists t, thr !! j = Some t /\ g_holds t = true.
Proof.
  unfold g_holders. rewrite elem_of_list_In, filter_In, in_seq. split.
  - intros [_ H]. destruct (thr !! j) as [t|]; [|done]. by exists t.
  - intros (t & H & Ht). rewrite H. split; [|done]. apply lookup_lt_Some in H. lia.
Qed.

Section Guards.
Context (F : nat) (scripts : list (list op)).
Let n : nat := length scripts.
(** [c] is at the same point as [g]; whom [c] waits for, [g] waits for, if the guard of each
    thread [x] from [n] on is that of [own x] *)
Record Rel (own : nat -> nat) (g : gsys) (c : csys) : Prop := {
  re_mem : c_mem c = g_mem g; re_fault : c_fault c = g_fault g; re_n : length (g_thr g) = n; re_cn : n <= length (c_thr c);
  re_thr : forall i t, g_thr g !! i = Some t -> exists s, c_thr c !! i = Some (s, gt_ops t) /\ st_rel (gt_st t) s;
  re_own : forall i, i < n -> own i = i;
  re_len : length (c_blk c) = length (g_blk g);
  re_blk : forall j B C x, c_blk c !! j = Some B -> g_blk g !! j = Some C -> x ∈ B -> own x ∈ C;
  re_ext : forall x p ops, n <= x -> c_thr c !! x = Some (TRun p, ops) -> exists t, g_thr g !! own x = Some t /\ gt_pin t = true }.
(** the action does not drop the guard of one of those *)
Definition keeps_pins (own : nat -> nat) (a : gact) (g : gsys) (c : csys) : Prop :=
  forall i ops b refs x p o, a = GUnpin i -> g_thr g !! i = Some (mk_gt GIdle ops b refs) -> n <= x -> c_thr c !! x = Some (TRun p, o) -> own x <> i.
Record steps (own : nat -> nat) (a : gact) (g : gsys) (c : csys) (a' : act) : Prop := {
  st_rel' : Rel own (g_step F a g).1 (c_step F a' c).1;
  st_evs : exists evs, (g_step F a g).2 = map (pair (g_time g)) evs /\ (c_step F a' c).2 = map (pair (c_time c)) evs;
  st_time : g_time (g_step F a g).1 = (g_time g + 1)%N /\ c_time (c_step F a' c).1 = (c_time c + 1)%N;
  st_ext : forall x, n <= x -> c_thr (c_step F a' c).1 !! x = c_thr c !! x;
  st_cn : length (c_thr (c_step F a' c).1) = length (c_thr c) }.

Lemma tick_step c : facts c -> c_step F (Thread (length (c_thr c))) c = (mk_csys (c_mem c) (c_thr c) (c_blk c) (c_fault c) (c_time c + 1), []).
Proof.
  intros Hf. cbn [c_step]. unfold sys_step. cbn [fst snd]. rewrite (lookup_ge_None_2 (c_thr c)) by lia. cbn.
  by rewrite <- (fa_len _ Hf), Nat.sub_diag.
Qed.
(** one thread changes, and perhaps the memory *)
Lemma rel_thread own g c i t t' s' m B C fb tg tc :
  Rel own g c -> g_thr g !! i = Some t -> gt_pin t' = gt_pin t -> st_rel (gt_st t') s' -> length B = length C ->
  (forall j b d x, B !! j = Some b -> C !! j = Some d -> x ∈ b -> own x ∈ d) ->
  Rel own (mk_gsys m (<[i := t']> (g_thr g)) C fb tg) (mk_csys m (<[i := (s', gt_ops t')]> (c_thr c)) B fb tc).
Proof.
  intros R Hi Ep Hs El Hb. pose proof (lookup_lt_Some _ _ _ Hi) as Hlt. rewrite (re_n _ _ _ R) in Hlt.
  split; cbn; try done; rewrite ?insert_length; try apply R; try done.
  - intros j u. destruct (decide (j = i)) as [->|Hne].
    + rewrite !list_lookup_insert by (pose proof (re_cn _ _ _ R); pose proof (re_n _ _ _ R); lia). intros [= <-]. by exists s'.
    + rewrite !list_lookup_insert_ne by done. apply R.
  - intros x p ops Hx. rewrite list_lookup_insert_ne by lia. intros Hc. destruct (re_ext _ _ _ R _ _ _ Hx Hc) as (u & Hu & Pu).
    destruct (decide (own x = i)) as [E|Hne]; [rewrite E in *|rewrite list_lookup_insert_ne by done; by exists u].
    exists t'. rewrite list_lookup_insert by (pose proof (re_n _ _ _ R); lia). split; [done|]. rewrite Ep. replace t with u by congruence. exact Pu.
Qed.
Lemma holders_rel own g c x : Rel own g c -> x ∈ holders (c_thr c) -> own x ∈ g_holders (g_thr g).
Proof.
  intros R. rewrite elem_holders, elem_g_holders. intros (p & ops & Hx). destruct (decide (x < n)) as [Hn|Hn].
  - rewrite (re_own _ _ _ R x Hn). rewrite <- (re_n _ _ _ R) in Hn. apply lookup_lt_is_Some in Hn as [t Ht].
    destruct (re_thr _ _ _ R _ _ Ht) as (s & Hs & Hst). rewrite Hx in Hs. injection Hs as <- _. exists t. split; [done|].
    unfold g_holds. destruct (gt_st t); [done|]. by rewrite orb_true_r.
  - destruct (re_ext _ _ _ R x p ops ltac:(lia) Hx) as (t & Ht & Hp). exists t. split; [done|]. unfold g_holds. by rewrite Hp.
Qed.
Lemma steps_tick own a g c g' : Rel own g c -> facts c -> g_step F a g = (g', []) -> g_time g' = (g_time g + 1)%N ->
  Rel own g' (mk_csys (c_mem c) (c_thr c) (c_blk c) (c_fault c) (c_time c + 1)) -> steps own a g c (Thread (length (c_thr c))).
Proof.
  intros R Hf E Et R'. split; rewrite ?E, ?(tick_step c Hf); cbn; try done. by exists [].
Qed.
Lemma rel_same own g c tg tc : Rel own g c -> Rel own (mk_gsys (g_mem g) (g_thr g) (g_blk g) (g_fault g) tg) (mk_csys (c_mem c) (c_thr c) (c_blk c) (c_fault c) tc).
Proof. intros R. split; cbn; apply R. Qed.
Lemma step_rel own a g c : Rel own g c -> facts c -> keeps_pins own a g c -> exists a', steps own a g c a'.
Proof.
  intros R Hf Hk. pose proof (re_n _ _ _ R) as Hn. pose proof (re_cn _ _ _ R) as Hcn.
  destruct a as [i|i|i|j].
  - destruct (g_thr g !! i) as [t|] eqn:Hi.
    2:{ exists (Thread (length (c_thr c))). eapply steps_tick; [done|done|cbn; by rewrite Hi|done|by apply rel_same]. }
    destruct (re_thr _ _ _ R _ _ Hi) as (s & Hs & Hst). pose proof (lookup_lt_Some _ _ _ Hi) as Hlt.
    destruct (gt_st t) as [|p] eqn:Est; destruct s as [|q]; try done.
    + destruct (gt_ops t) as [|o ops] eqn:Eo.
      { exists (Thread (length (c_thr c))). eapply steps_tick; [done|done|cbn; by rewrite Hi, Est, Eo|done|by apply rel_same]. }
      exists (Thread i). assert (g_step F (GThread i) g = (mk_gsys (g_mem g) (<[i := mk_gt (GRun (gcall F o)) ops (gt_pin t) (gt_refs t)]> (g_thr g))
                 (g_blk g) (g_fault g) (g_time g + 1), [(g_time g, ECall i o)])) as Eg by (cbn; by rewrite Hi, Est, Eo).
      assert (c_step F (Thread i) c = (mk_csys (c_mem c) (<[i := (TRun (call insert F o), ops)]> (c_thr c)) (c_blk c) (c_fault c) (c_time c + 1), [(c_time c, ECall i o)])) as Ec.
      { cbn. unfold sys_step. cbn. rewrite Hs. cbn. by rewrite <- (fa_len _ Hf), Nat.sub_diag. }
      split; rewrite ?Eg, ?Ec; cbn [fst snd g_time c_time c_thr].
      * rewrite (re_mem _ _ _ R), (re_fault _ _ _ R).
        apply (rel_thread own g c i t (mk_gt (GRun (gcall F o)) ops (gt_pin t) (gt_refs t)) (TRun (call insert F o))); try done; [apply lift_call|apply R|apply R].
      * by exists [ECall i o].
      * done.
      * intros x Hx. apply list_lookup_insert_ne. lia.
      * apply insert_length.
    + destruct p as [[a x]|e|R0 f k].
      * exists (Thread i). unfold st_rel, lift in Hst. cbn in Hst. subst q.
        assert (g_step F (GThread i) g = (mk_gsys (g_mem g)
                 (<[i := mk_gt GIdle (gt_ops t) (gt_pin t) (if gt_pin t then opt_list x ++ gt_refs t else gt_refs t)]> (g_thr g))
                 (if gt_pin t then g_blk g else map (without i) (g_blk g)) (g_fault g) (g_time g + 1),
               [(g_time g, ERet i a)])) as Eg by (cbn; by rewrite Hi, Est).
        assert (c_step F (Thread i) c = (mk_csys (c_mem c) (<[i := (TIdle, gt_ops t)]> (c_thr c)) (map (without i) (c_blk c)) (c_fault c) (c_time c + 1), [(c_time c, ERet i a)])) as Ec.
        { cbn. unfold sys_step. cbn. rewrite Hs. cbn. by rewrite <- (fa_len _ Hf), Nat.sub_diag. }
        split; rewrite ?Eg, ?Ec; cbn [fst snd g_time c_time c_thr].
        -- rewrite (re_mem _ _ _ R), (re_fault _ _ _ R).
           apply (rel_thread own g c i t (mk_gt GIdle (gt_ops t) (gt_pin t) (if gt_pin t then opt_list x ++ gt_refs t else gt_refs t)) TIdle); try done.
           ++ rewrite map_length. destruct (gt_pin t); [apply R|]. rewrite map_length. apply R.
           ++ intros j b d y Hb Hd Hy. rewrite list_lookup_fmap in Hb. destruct (c_blk c !! j) as [b0|] eqn:Eb; [|done]. cbn in Hb. injection Hb as <-.
              apply without_sub in Hy as [Hy Hne]. destruct (gt_pin t) eqn:Ep; [by eapply (re_blk _ _ _ R)|].
              rewrite list_lookup_fmap in Hd. destruct (g_blk g !! j) as [d0|] eqn:Ed; [|done]. cbn in Hd. injection Hd as <-.
              apply without_ne; [|by eapply (re_blk _ _ _ R)]. intros Eo. destruct (decide (y < n)) as [Hyn|Hyn]; [by rewrite (re_own _ _ _ R) in Eo|].
              destruct (fa_in _ Hf b0 y) as (p & ops & Hp); [by eapply elem_of_list_lookup_2|done|].
              destruct (re_ext _ _ _ R y p ops ltac:(lia) Hp) as (u & Hu & Pu). rewrite Eo in Hu. congruence.
        -- by exists [ERet i a].
        -- done.
        -- intros y Hy. apply list_lookup_insert_ne. lia.
        -- apply insert_length.
      * exists (Thread (length (c_thr c))). eapply steps_tick; [done|done|cbn; by rewrite Hi, Est|done|by apply rel_same].
      * exists (Thread i). unfold st_rel, lift in Hst. cbn in Hst. destruct Hst as (k' & -> & Hk').
        destruct (f (g_mem g)) as [[r m]|e] eqn:Ef.
        -- assert (g_step F (GThread i) g = (mk_gsys m (<[i := mk_gt (GRun (k r)) (gt_ops t) (gt_pin t) (gt_refs t)]> (g_thr g))
                     (replicate (length (retired m) - length (g_blk g)) (g_holders (g_thr g)) ++ g_blk g)
                     (g_fault g) (g_time g + 1), [])) as Eg by (cbn; by rewrite Hi, Est, Ef).
           assert (c_step F (Thread i) c = (mk_csys m (<[i := (TRun (k' r), gt_ops t)]> (c_thr c))
             (replicate (length (retired m) - length (c_blk c)) (holders (c_thr c)) ++ c_blk c) (c_fault c) (c_time c + 1), [])) as Ec.
           { cbn. unfold sys_step. cbn. by rewrite Hs, (re_mem _ _ _ R), Ef. }
           split; rewrite ?Eg, ?Ec; cbn [fst snd g_time c_time c_thr].
           ++ rewrite (re_fault _ _ _ R).
              apply (rel_thread own g c i t (mk_gt (GRun (k r)) (gt_ops t) (gt_pin t) (gt_refs t)) (TRun (k' r))); try done.
              ** apply Hk'.
              ** rewrite !app_length, !replicate_length, (re_len _ _ _ R). done.
              ** intros j b d y Hb Hd Hy. rewrite (re_len _ _ _ R) in Hb. set (z := length (retired m) - length (g_blk g)) in *.
                 apply lookup_app_Some in Hb as [Hb|[Hz Hb]].
                 --- apply lookup_replicate in Hb as [-> Hz]. rewrite lookup_app_l in Hd by (rewrite replicate_length; lia).
                     apply lookup_replicate in Hd as [-> _]. by apply (holders_rel own g c).
                 --- rewrite replicate_length in Hz, Hb. rewrite lookup_app_r in Hd by (rewrite replicate_length; lia).
                     rewrite replicate_length in Hd. by eapply (re_blk _ _ _ R).
           ++ by exists [].
           ++ done.
           ++ intros y Hy. apply list_lookup_insert_ne. lia.
           ++ apply insert_length.
        -- assert (g_step F (GThread i) g = (mk_gsys (g_mem g) (<[i := mk_gt (GRun (Fail e)) (gt_ops t) (gt_pin t) (gt_refs t)]> (g_thr g))
                     (g_blk g) (g_fault g) (g_time g + 1), [])) as Eg by (cbn; by rewrite Hi, Est, Ef).
           assert (c_step F (Thread i) c = (mk_csys (c_mem c) (<[i := (TRun (Fail e), gt_ops t)]> (c_thr c)) (c_blk c) (c_fault c) (c_time c + 1), [])) as Ec.
           { cbn. unfold sys_step. cbn. rewrite Hs, (re_mem _ _ _ R), Ef. cbn. by rewrite <- (re_mem _ _ _ R), <- (fa_len _ Hf), Nat.sub_diag. }
           split; rewrite ?Eg, ?Ec; cbn [fst snd g_time c_time c_thr].
           ++ rewrite (re_fault _ _ _ R), (re_mem _ _ _ R).
              apply (rel_thread own g c i t (mk_gt (GRun (Fail e)) (gt_ops t) (gt_pin t) (gt_refs t)) (TRun (Fail e))); try done; apply R.
           ++ by exists [].
           ++ done.
           ++ intros y Hy. apply list_lookup_insert_ne. lia.
           ++ apply insert_length.
  - exists (Thread (length (c_thr c))). destruct (g_thr g !! i) as [[st ops b refs]|] eqn:Hi.
    2:{ eapply steps_tick; [done|done|cbn; by rewrite Hi|done|by apply rel_same]. }
    destruct st as [|p].
    2:{ eapply steps_tick; [done|done|cbn; by rewrite Hi|done|by apply rel_same]. }
    eapply steps_tick; [done|done|cbn; by rewrite Hi|done|].
    split; cbn; rewrite ?insert_length; try apply R.
    + intros j u. destruct (decide (j = i)) as [->|Hne].
      * rewrite list_lookup_insert by (by eapply lookup_lt_Some). intros [= <-]. by apply (re_thr _ _ _ R) in Hi.
      * rewrite list_lookup_insert_ne by done. apply R.
    + intros x p o Hx Hc. destruct (re_ext _ _ _ R _ _ _ Hx Hc) as (u & Hu & Pu). destruct (decide (own x = i)) as [->|Hne].
      * eexists. rewrite list_lookup_insert by (by eapply lookup_lt_Some). by split.
      * exists u. by rewrite list_lookup_insert_ne.
  - exists (Thread (length (c_thr c))). destruct (g_thr g !! i) as [[st ops b refs]|] eqn:Hi.
    2:{ eapply steps_tick; [done|done|cbn; by rewrite Hi|done|by apply rel_same]. }
    destruct st as [|p].
    2:{ eapply steps_tick; [done|done|cbn; by rewrite Hi|done|by apply rel_same]. }
    eapply steps_tick; [done|done|cbn; by rewrite Hi|done|].
    split; cbn; rewrite ?insert_length, ?map_length; try apply R.
    + intros j u. destruct (decide (j = i)) as [->|Hne].
      * rewrite list_lookup_insert by (by eapply lookup_lt_Some). intros [= <-]. by apply (re_thr _ _ _ R) in Hi.
      * rewrite list_lookup_insert_ne by done. apply R.
    + intros j B C y HB HC Hy. rewrite list_lookup_fmap in HC. destruct (g_blk g !! j) as [d0|] eqn:Ed; [|done]. cbn in HC. injection HC as <-.
      apply without_ne; [|by eapply (re_blk _ _ _ R)]. intros Eo. destruct (fa_in _ Hf B y) as (p & o & Hp); [by eapply elem_of_list_lookup_2|done|].
      destruct (decide (y < n)) as [Hyn|Hyn].
      * rewrite (re_own _ _ _ R) in Eo by done. subst y. destruct (re_thr _ _ _ R _ _ Hi) as (s & Hs & Hst). cbn in Hst. rewrite Hp in Hs. injection Hs as <- _. done.
      * by eapply (Hk i ops b refs y p o); [done|done|lia|done|].
    + intros x p o Hx Hc. destruct (re_ext _ _ _ R _ _ _ Hx Hc) as (u & Hu & Pu). exists u. rewrite list_lookup_insert_ne; [done|].
      intros E. by eapply (Hk i ops b refs x p o).
  - assert (forall g', g_step F (GCollect j) g = (g', []) -> g' = mk_gsys (g_mem g) (g_thr g) (g_blk g) (g_fault g) (g_time g + 1) ->
      exists a', steps own (GCollect j) g c a') as Hsame.
    { intros g' E1 E2. exists (Thread (length (c_thr c))). eapply steps_tick; [done|done|exact E1|by subst|subst; by apply rel_same]. }
    destruct (retired (g_mem g) !! j) as [x|] eqn:Ej; [|eapply Hsame; [cbn; by rewrite Ej|done]].
    destruct (g_blk g !! j) as [[|y B]|] eqn:Eb; [|eapply Hsame; [cbn; by rewrite Ej, Eb|done]..]. clear Hsame.
    assert (c_blk c !! j = Some []) as Ec.
    { destruct (c_blk c !! j) as [[|y B]|] eqn:Ec; [done| |].
      - pose proof (re_blk _ _ _ R j _ _ y Ec Eb ltac:(by left)) as H. by apply elem_of_nil in H.
      - apply lookup_ge_None in Ec. rewrite (re_len _ _ _ R) in Ec. apply lookup_lt_Some in Eb. lia. }
    exists (Collect j).
    assert (forall j0 (B C : list nat) x0, delete j (c_blk c) !! j0 = Some B -> delete j (g_blk g) !! j0 = Some C -> x0 ∈ B -> own x0 ∈ C) as Hdel.
    { intros j0 B C y HB HC Hy. destruct (decide (j0 < j)).
      + rewrite lookup_delete_lt in HB by done. rewrite lookup_delete_lt in HC by done. by eapply (re_blk _ _ _ R).
      + rewrite lookup_delete_ge in HB by lia. rewrite lookup_delete_ge in HC by lia. by eapply (re_blk _ _ _ R). }
    destruct (reclaim1 x (mwith_retired (delete j (retired (g_mem g))) (g_mem g))) as [m|e] eqn:Er.
    + assert (g_step F (GCollect j) g = (mk_gsys m (g_thr g) (delete j (g_blk g)) (g_fault g) (g_time g + 1), [])) as Eg by (cbn; by rewrite Ej, Eb, Er).
      assert (c_step F (Collect j) c = (mk_csys m (c_thr c) (delete j (c_blk c)) (c_fault c) (c_time c + 1), [])) as Ecs by (cbn; by rewrite (re_mem _ _ _ R), Ej, Ec, Er).
      split; rewrite ?Eg, ?Ecs; cbn; try done; [|by exists []]. split; cbn; try done; try apply R.
      rewrite !length_delete by (by eexists). by rewrite (re_len _ _ _ R).
    + assert (g_step F (GCollect j) g = (mk_gsys (g_mem g) (g_thr g) (g_blk g) true (g_time g + 1), [])) as Eg by (cbn; by rewrite Ej, Eb, Er).
      assert (c_step F (Collect j) c = (mk_csys (c_mem c) (c_thr c) (c_blk c) true (c_time c + 1), [])) as Ecs by (cbn; by rewrite (re_mem _ _ _ R), Ej, Ec, Er).
      split; rewrite ?Eg, ?Ecs; cbn; try done; [|by exists []]. split; cbn; try done; apply R.
Qed.
End Guards.
