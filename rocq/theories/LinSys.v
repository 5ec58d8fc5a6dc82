(** Concurrent executions on one leaf: from the calls to the whole system. *)
From Verif Require Import Base Perm PermFacts PermList PermLaws SpecPerm Key SpecKey KeyFacts Prog Version VersionFacts Mem Tree
  SpecTree TreeState TreeRead TreeSplit TreeTop SpecLin Lin LinRead LinWrite LinInsert.

Section K.
Context (K : list bytes) (HK : Forall (fun k => length k <= 8 /\ is_bytes k) K)
  (HK24 : length (remove_dups K) <= 24).
Local Notation Inv := (Inv K).
Local Notation cwp := (cwp K).
Local Notation reads := (reads K).
Local Notation places := (status -> Prop).

(** the calls considered *)
Definition good (o : op) : Prop := lin_op o /\ match o with Insert k _ => k ∈ K | _ => True end.
Definition fin (i : nat) (a : ans) (w : world) (O : places) : Prop := wow w <> Some i /\ i ∉ wowe w /\ O (Done a).

Lemma cwp_call i o F w l (O : places) : good o -> Inv w l -> O (Pending o) -> wow w <> Some i -> i ∉ wowe w ->
  cwp i (call insert F o) w O (fin i).
Proof.
  intros [Hl Hk] HI Hp Hw Hi.
  assert (Hq : forall w', Rely i w w' -> wow w' <> Some i /\ i ∉ wowe w').
  { intros w' HR. by rewrite <- (rl_own _ _ _ HR), <- (rl_owe _ _ _ HR). }
  destruct o as [k v|k|k| |]; cbn [call].
  - destruct Hl as [Hl Hb]. apply cwp_bind. unfold insert, insert_gen. rewrite key_new_ok by done.
    apply cwp_bind. apply (reads_root K i w O); [by eexists|]. intros r w1 l1 O1 HR1 HI1 HO1 ->.
    destruct (Hq w1 HR1) as [Hw1 Hi1].
    eapply cwp_mono; [apply (cwp_insert_loop K HK HK24 i k v); [done|by apply HO1|done|done]|].
    intros [old|] w2 O2 (A1 & A2 & A3); [|done]. by apply cwp_ret.
  - destruct Hl as [Hl Hb]. apply cwp_bind. apply (reads_get K HK i k F w l O (Get k) Hb Hl); [done|done|done|].
    intros r w1 l1 O1 HR1 HI1 HO1 Hd. apply cwp_ret. destruct (Hq w1 HR1). done.
  - destruct Hl as [Hl Hb]. apply cwp_bind. eapply cwp_peq; [apply get_ref_peq|].
    apply (reads_get K HK i k F w l O (GetRef k) Hb Hl); [done|done|done|].
    intros r w1 l1 O1 HR1 HI1 HO1 Hd. apply cwp_ret. destruct (Hq w1 HR1). done.
  - done.
  - apply cwp_bind. apply (reads_is_empty K i w l O); [done|done|].
    intros r w1 l1 O1 HR1 HI1 HO1 Hd. apply cwp_ret. destruct (Hq w1 HR1). done.
Qed.
Lemma cwp_rely i (p : P ans) w w' (O : places) : Rely i w w' -> cwp i p w O (fin i) -> cwp i p w' O (fin i).
Proof.
  intros HR. destruct p as [a|e|R f k]; cbn.
  - intros (A1 & A2 & A3). split; [by rewrite <- (rl_own _ _ _ HR)|]. split; [by rewrite <- (rl_owe _ _ _ HR)|done].
  - done.
  - intros H w1 l1 HR1 HI1. apply (H w1 l1); [by eapply rely_trans|done].
Qed.

(** *** the invariant of the system *)
Definition thread_ok (w : world) (i : nat) (t : tstate) (ops : list op) (O : places) : Prop :=
  Forall good ops /\ (exists s, O s) /\
  match t with
  | TIdle => wow w <> Some i /\ i ∉ wowe w /\ forall s, O s -> s = Idle
  | TRun p => cwp i p w O (fin i)
  end.
Record SInv (c : sys) (h : list event) (w : world) (l : leaf) (Os : nat -> places) : Prop := {
  si_mem : wm w = c.1; si_inv : Inv w l;
  si_thr : forall i t ops, c.2 !! i = Some (t, ops) -> thread_ok w i t ops (Os i);
  si_owe : forall j, length c.2 <= j -> j ∉ wowe w;
  si_tr : forall st, length st = length c.2 -> (forall j s, st !! j = Some s -> Os j s) ->
    exists acts, atomic_map (length c.2) acts (wmu w) st /\ visible acts = h }.

Lemma visible_app a b : visible (a ++ b) = visible a ++ visible b.
Proof. apply omap_app. Qed.
Lemma thread_rely w w' i t ops (O : places) : Rely i w w' -> thread_ok w i t ops O -> thread_ok w' i t ops O.
Proof.
  intros HR (A & B & C). split; [done|]. split; [done|]. destruct t as [|p].
  - destruct C as (C1 & C2 & C3). by rewrite <- (rl_own _ _ _ HR), <- (rl_owe _ _ _ HR).
  - by eapply cwp_rely.
Qed.

(** a step of thread [i] *)
Definition upd (Os : nat -> places) (i : nat) (O : places) : nat -> places :=
  fun j => if Nat.eqb j i then O else Os j.
Lemma upd_same Os i O : upd Os i O i = O.
Proof. unfold upd. by rewrite Nat.eqb_refl. Qed.
Lemma upd_ne Os i O j : j <> i -> upd Os i O j = Os j.
Proof. intros H. unfold upd. by apply Nat.eqb_neq in H as ->. Qed.

Lemma sinv_step c h w l Os i t ops t' ops' w' l' (O' : places) h' :
  SInv c h w l Os -> c.2 !! i = Some (t, ops) ->
  Inv w' l' -> Guar i w w' -> thread_ok w' i t' ops' O' ->
  (forall s', O' s' -> exists s, Os i s /\ forall acts st, atomic_map (length c.2) acts (wmu w) (<[i := s]> st) ->
      i < length st ->
      exists acts', atomic_map (length c.2) (acts ++ acts') (wmu w') (<[i := s']> st) /\ visible acts' = h') ->
  SInv (wm w', <[i := (t', ops')]> c.2) (h ++ h') w' l' (upd Os i O').
Proof.
  intros [S1 S2 S3 S4 S5] Hc HI' HG Ht Htr. pose proof (lookup_lt_Some _ _ _ Hc) as Hi. split.
  - done.
  - done.
  - cbn [snd]. intros j t1 ops1 Hj. destruct (decide (j = i)) as [->|Hne].
    + rewrite list_lookup_insert in Hj by done. injection Hj as <- <-. by rewrite upd_same.
    + rewrite list_lookup_insert_ne in Hj by done. rewrite upd_ne by done. eapply thread_rely; [by apply HG|]. by apply S3.
  - cbn [snd]. intros j. rewrite insert_length. intros Hj. assert (j <> i) as Hne by lia.
    rewrite <- (rl_owe _ _ _ (HG j Hne)). by apply S4.
  - cbn [snd]. rewrite insert_length. intros st Hlen Hst.
    destruct (lookup_lt_is_Some_2 st i) as [s' Hs']; [lia|].
    pose proof (Hst i s' Hs') as HO'. rewrite upd_same in HO'. destruct (Htr s' HO') as (s & Hs & Hex).
    destruct (S5 (<[i := s]> st)) as (acts & Ha & Hv).
    + by rewrite insert_length.
    + intros j s1 Hj. destruct (decide (j = i)) as [->|Hne].
      * rewrite list_lookup_insert in Hj by lia. by injection Hj as <-.
      * rewrite list_lookup_insert_ne in Hj by done. specialize (Hst j s1 Hj). by rewrite upd_ne in Hst.
    + destruct (Hex acts st Ha) as (acts' & Ha' & Hv'); [lia|]. exists (acts ++ acts').
      rewrite list_insert_id in Ha' by done. split; [done|]. by rewrite visible_app, Hv, Hv'.
Qed.

Lemma sys_step_ok F i c h w l Os : SInv c h w l Os -> exists w' l' Os',
  SInv (sys_step F i c).1 (h ++ (sys_step F i c).2) w' l' Os' /\ length (sys_step F i c).1.2 = length c.2.
Proof.
  intros HS. unfold sys_step. destruct (c.2 !! i) as [[t ops]|] eqn:Hc; [|exists w, l, Os; cbn; by rewrite app_nil_r].
  pose proof (si_thr _ _ _ _ _ HS i t ops Hc) as (T1 & [s0 T2] & T3). pose proof (si_mem _ _ _ _ _ HS) as Hm.
  pose proof (si_inv _ _ _ _ _ HS) as HI.
  destruct t as [|[a|e|R f k]].
  - destruct ops as [|o ops]; [exists w, l, Os; cbn; by rewrite app_nil_r|]. destruct T3 as (T3 & T4 & T5).
    apply Forall_cons in T1 as [Hg T1]. cbn [fst snd]. rewrite insert_length. rewrite <- Hm.
    exists w, l, (upd Os i (eq (Pending o))). split; [|done].
    eapply sinv_step; [done|done|done|intros ??; apply rely_refl| |].
    + split; [done|]. split; [by eexists|]. by eapply cwp_call.
    + intros s' <-. exists Idle. split; [by rewrite <- (T5 _ T2)|]. intros acts st Ha Hlt.
      exists [Ev (ECall i o)]. split; [|done]. rewrite <- (list_insert_insert st i (Pending o) Idle).
      apply am_call; [done|]. by apply list_lookup_insert.
  - destruct T3 as (T3 & T4 & T5). cbn [fst snd]. rewrite insert_length. rewrite <- Hm.
    exists w, l, (upd Os i (eq Idle)). split; [|done].
    eapply sinv_step; [done|done|done|intros ??; apply rely_refl| |].
    + split; [done|]. split; [by eexists|]. by split.
    + intros s' <-. exists (Done a). split; [done|]. intros acts st Ha Hlt.
      exists [Ev (ERet i a)]. split; [|done]. rewrite <- (list_insert_insert st i Idle (Done a)).
      apply am_return; [done|]. by apply list_lookup_insert.
  - exists w, l, Os. cbn. by rewrite app_nil_r.
  - cbn in T3. destruct (T3 w l (rely_refl i w) HI) as (r & w2 & l2 & Hf & HI2 & HG & Hex & Hk).
    rewrite <- Hm. rewrite Hf. cbn [fst snd]. rewrite insert_length.
    exists w2, l2, (upd Os i (after (Os i) (wmu w) (wmu w2))). split; [|done].
    eapply sinv_step; [done|done|done|done| |].
    + split; [done|]. split; [done|]. done.
    + intros s' [[Hs' Hmu]|(o & a & Ho & Hst & ->)].
      * exists s'. split; [done|]. intros acts st Ha Hlt. exists []. split; [|done]. by rewrite app_nil_r, Hmu.
      * exists (Pending o). split; [done|]. intros acts st Ha Hlt. exists [TakeEffect i]. split; [|done].
        rewrite <- (list_insert_insert st i (Done a) (Pending o)).
        eapply am_effect; [done| |done]. by apply list_lookup_insert.
Qed.

Lemma sys_run_ok F sched : forall c h w l Os, SInv c h w l Os -> exists w' l' Os',
  SInv (sys_run F sched c).1 (h ++ (sys_run F sched c).2) w' l' Os' /\ length (sys_run F sched c).1.2 = length c.2.
Proof.
  induction sched as [|i sched IH]; intros c h w l Os HS; cbn [sys_run].
  - exists w, l, Os. cbn. by rewrite app_nil_r.
  - destruct (sys_step_ok F i c h w l Os HS) as (w1 & l1 & Os1 & HS1 & HL1).
    destruct (sys_step F i c) as [c1 h1]. cbn [fst snd] in *.
    destruct (IH c1 (h ++ h1) w1 l1 Os1 HS1) as (w2 & l2 & Os2 & HS2 & HL2).
    destruct (sys_run F sched c1) as [c2 h2]. cbn [fst snd] in *. exists w2, l2, Os2.
    rewrite app_assoc. split; [done|congruence].
Qed.

Lemma inv_start : Inv (mk_w tree_new ∅ None ∅) leaf_new_root.
Proof.
  destruct (empty_law_holds P24 P24_ok) as (Hp & Ha & _). change (p_empty P24) with perm_empty in *.
  apply perm_word_wf in Hp.
  assert (active_slots (l_perm leaf_new_root) = []) as E by (change (l_perm leaf_new_root) with perm_empty; by rewrite ids_active).
  split; rewrite ?E; try done.
  - intros s Hs. by apply elem_of_nil in Hs.
  - intros s s' k Hs. by apply elem_of_nil in Hs.
Qed.

Lemma sinv_start scripts : Forall (Forall good) scripts ->
  SInv (sys_start scripts) [] (mk_w tree_new ∅ None ∅) leaf_new_root (fun _ => eq Idle).
Proof.
  intros Hg. split.
  - done.
  - apply inv_start.
  - cbn. intros i t ops Hi. apply list_lookup_fmap_Some in Hi as (ops' & Hi & [= -> ->]).
    split; [by eapply Forall_lookup_1|]. split; [by eexists|]. split; [done|]. split; [|done]. apply not_elem_of_empty.
  - cbn. intros j _. apply not_elem_of_empty.
  - cbn. intros st Hlen Hst. exists []. split; [|done].
    assert (st = replicate (length st) Idle) as ->.
    { symmetry. apply replicate_as_elem_of. split; [done|]. intros x [j Hj]%elem_of_list_lookup_1. by rewrite (Hst j x Hj). }
    rewrite Hlen. constructor.
Qed.

Lemma pick (n : nat) (Os : nat -> places) : (forall j, j < n -> exists s, Os j s) ->
  exists st, length st = n /\ forall j s, st !! j = Some s -> Os j s.
Proof.
  induction n as [|n IH]; intros H; [by exists []|].
  destruct IH as (st & Hl & Hs); [intros; apply H; lia|]. destruct (H n) as [s Hn]; [lia|].
  exists (st ++ [s]). split; [rewrite app_length; cbn; lia|]. intros j s' Hj.
  apply lookup_app_Some in Hj as [Hj|[Hge Hj]]; [by apply Hs|].
  destruct (j - length st) eqn:E; [|done]. injection Hj as <-. by replace j with n by lia.
Qed.

Theorem lin_sys F scripts sched c h : Forall (Forall good) scripts ->
  sys_run F sched (sys_start scripts) = (c, h) ->
  exists mu, linearizable_to (length scripts) h mu /\
    (forall i e, sys_failed c i e -> e = Fuel) /\ (quiet c -> cnt c.1 = N.of_nat (size mu)).
Proof.
  intros Hg Hrun. destruct (sys_run_ok F sched _ _ _ _ _ (sinv_start scripts Hg)) as (w & l & Os & HS & HL).
  rewrite Hrun in HS, HL. cbn [fst snd app] in *. cbn in HL. rewrite fmap_length in HL.
  exists (wmu w). split; [|split].
  - destruct (pick (length c.2) Os) as (st & Hl & Hst).
    { intros j Hj. destruct (lookup_lt_is_Some_2 c.2 j Hj) as [[t ops] Hc]. by apply (si_thr _ _ _ _ _ HS) in Hc as (_ & ? & _). }
    destruct (si_tr _ _ _ _ _ HS st Hl Hst) as (acts & Ha & Hv). rewrite HL in Ha. by exists acts, st.
  - intros i e [ops Hc]. by apply (si_thr _ _ _ _ _ HS) in Hc as (_ & _ & ?).
  - intros Hq. rewrite <- (si_mem _ _ _ _ _ HS). pose proof (iv_cnt _ _ _ (si_inv _ _ _ _ _ HS)) as Hc.
    assert (wowe w = ∅) as E; [|rewrite E, size_empty in Hc; lia].
    apply elem_of_equiv_empty_L. intros j Hj. destruct (decide (j < length c.2)) as [Hlt|Hge].
    + destruct (lookup_lt_is_Some_2 c.2 j Hlt) as [[t ops] Hcj]. pose proof (Hq j t ops Hcj) as ->.
      by apply (si_thr _ _ _ _ _ HS) in Hcj as (_ & _ & _ & ? & _).
    + apply (si_owe _ _ _ _ _ HS j); [lia|done].
Qed.
End K.

Lemma inserted_in scripts ops k v : ops ∈ scripts -> Insert k v ∈ ops -> k ∈ inserted_keys scripts.
Proof.
  intros H1 H2. unfold inserted_keys. apply elem_of_list_fmap. exists (k, v). split; [done|].
  unfold inserts. apply elem_of_list_omap. exists (Insert k v). split; [|done].
  apply elem_of_list_In, in_concat. exists ops. by rewrite <- !elem_of_list_In.
Qed.
Lemma inserted_of scripts k : k ∈ inserted_keys scripts -> exists ops v, ops ∈ scripts /\ Insert k v ∈ ops.
Proof.
  unfold inserted_keys. intros [[k' v] [-> H]]%elem_of_list_fmap. unfold inserts in H.
  apply elem_of_list_omap in H as (o & Ho & E). apply elem_of_list_In, in_concat in Ho as (ops & H1 & H2). rewrite <- !elem_of_list_In in *.
  destruct o; try done. injection E as -> ->. by exists ops, v.
Qed.

Theorem linearizable F scripts sched c h : Forall (Forall lin_op) scripts -> fits_one_leaf scripts ->
  sys_run F sched (sys_start scripts) = (c, h) ->
  exists mu, linearizable_to (length scripts) h mu /\
    (forall i e, sys_failed c i e -> e = Fuel) /\ (quiet c -> cnt c.1 = N.of_nat (size mu)).
Proof.
  intros Hl [H8 H24] Hrun. apply (lin_sys (inserted_keys scripts)) with F sched; [|done| |done].
  - apply Forall_forall. intros k Hk. rewrite Forall_forall in H8. split; [by apply H8|].
    destruct (inserted_of scripts k Hk) as (ops & v & H1 & H2). rewrite Forall_forall in Hl. specialize (Hl ops H1).
    rewrite Forall_forall in Hl. by destruct (Hl _ H2).
  - rewrite Forall_forall in Hl |- *. intros ops Hops. specialize (Hl ops Hops). rewrite Forall_forall in Hl |- *.
    intros o Ho. split; [by apply Hl|]. destruct o; try done. by eapply inserted_in.
Qed.
