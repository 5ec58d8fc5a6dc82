(** One thread among others that only read: it does what it would do alone. *)
From Verif Require Import Base Prog Mem Tree SpecTree SpecHist SpecSolo TreeTop TreeLaws.

(** ** a program alone, access by access *)
Definition step1 {M A} (c : M * prog M A) : M * prog M A :=
  match c.2 with
  | Step f k => match f c.1 with Ok (r, m) => (m, k r) | Er e => (c.1, Fail e) end
  | _ => c
  end.
Fixpoint steps {M A} (n : nat) (c : M * prog M A) : M * prog M A :=
  match n with O => c | S n => steps n (step1 c) end.
Lemma steps_ret {M A} n (m : M) (a : A) : steps n (m, Ret a) = (m, Ret a).
Proof. induction n; [done|]. cbn. exact IHn. Qed.
Lemma steps_snoc {M A} n (c : M * prog M A) : steps (S n) c = step1 (steps n c).
Proof. revert c. induction n as [|n IH]; intros c; [done|]. cbn in *. by rewrite IH. Qed.
Lemma run_steps {M A} (p : prog M A) : forall m a m', run p m = Ok (a, m') -> exists n,
  (forall j, n <= j -> steps j (m, p) = (m', Ret a)) /\ forall j, (forall e, (steps j (m, p)).2 <> Fail e) /\ forall b, (steps j (m, p)).2 = Ret b -> steps j (m, p) = (m', Ret a).
Proof.
  induction p as [b|e|R f k IH]; intros m a m' H; cbn in H.
  - injection H as -> ->. exists 0. split; intros j; [intros _; apply steps_ret|]. rewrite steps_ret. done.
  - done.
  - destruct (f m) as [[r m1]|e] eqn:E; [|done]. destruct (IH r _ _ _ H) as (n & H1 & H2). exists (S n). split.
    + intros [|j] Hj; [lia|]. cbn [steps]. unfold step1 at 1. cbn [fst snd]. rewrite E. apply H1. lia.
    + intros [|j]; [done|]. cbn [steps]. unfold step1. cbn [fst snd]. rewrite E. apply H2.
Qed.
Lemma steps_app {M A} n n' (c : M * prog M A) : steps (n + n') c = steps n' (steps n c).
Proof. revert c. induction n as [|n IH]; intros c; [done|]. cbn. apply IH. Qed.

(** ** among others *)
Lemma thread_step_solo {M A} w i (m : M) (ps : list (prog M A)) p : ps !! w = Some p -> (forall j q, ps !! j = Some q -> j <> w -> ro q) ->
  let c := thread_step i (m, ps) in
  let c' := if Nat.eqb w i then step1 (m, p) else (m, p) in
  c.1 = c'.1 /\ c.2 !! w = Some c'.2 /\ forall j q, c.2 !! j = Some q -> j <> w -> ro q.
Proof.
  intros Hw Ho. cbn zeta. unfold thread_step. cbn [fst snd]. pose proof (lookup_lt_Some _ _ _ Hw) as Hlt. destruct (Nat.eqb_spec w i) as [<-|Hne].
  - rewrite Hw. unfold step1. cbn [fst snd]. destruct p as [a|e|R f k]; try done. destruct (f m) as [[r m']|e]; cbn [fst snd]; (split; [done|]);
      (split; [by apply list_lookup_insert|]); intros j q Hj Hjw; rewrite list_lookup_insert_ne in Hj by done; by eapply Ho.
  - destruct (ps !! i) as [q|] eqn:Hi; [|done]. pose proof (Ho i q Hi (not_eq_sym Hne)) as Hq. destruct Hq as [a|e|R f k Hf Hk]; try done.
    assert (forall q', ro q' -> forall j q, <[i := q']> ps !! j = Some q -> j <> w -> ro q) as Hins.
    { intros q' Hq' j q Hj Hjw. apply list_lookup_insert_Some in Hj as [(-> & -> & _)|[_ Hj]]; [done|by eapply Ho]. }
    destruct (f m) as [[r m']|e] eqn:E; cbn [fst snd].
    + apply Hf in E as ->. split; [done|]. split; [by rewrite list_lookup_insert_ne|]. by apply Hins.
    + split; [done|]. split; [by rewrite list_lookup_insert_ne|]. apply Hins. constructor.
Qed.
Lemma exec_solo {M A} w sched : forall (m : M) (ps : list (prog M A)) p, ps !! w = Some p -> (forall j q, ps !! j = Some q -> j <> w -> ro q) ->
  let c := exec sched (m, ps) in let c' := steps (turns w sched) (m, p) in
  c.1 = c'.1 /\ c.2 !! w = Some c'.2.
Proof.
  induction sched as [|i sched IH]; intros m ps p Hw Ho; cbn zeta; [done|].
  unfold exec. cbn [fold_left]. fold (exec sched (thread_step i (m, ps))).
  destruct (thread_step_solo w i m ps p Hw Ho) as (E1 & E2 & E3). destruct (thread_step i (m, ps)) as [m1 ps1]. cbn [fst snd] in *.
  unfold turns. cbn [List.filter]. destruct (Nat.eqb w i); cbn [length steps].
  - specialize (IH m1 ps1 _ E2 E3). cbn zeta in IH. subst m1. destruct (step1 (m, p)). exact IH.
  - cbn [fst snd] in *. subst m1. by apply IH.
Qed.
Lemma ro_call F o : reads_only o -> ro (call insert F o).
Proof.
  destruct o as [k v|k|k| |]; [done|..]; intros _; cbn [call]; (apply ro_bind; [|intros; constructor]).
  - apply ro_get.
  - apply ro_get_ref.
  - apply ro_load_count.
  - unfold is_empty. apply ro_bind; [apply ro_load_root|]. intros r. apply ro_bind; [apply ro_flag|]. intros [|]; [|constructor].
    apply ro_bind; [apply ro_load_root|]. intros r2. apply ro_bind; [apply ro_leaf_ld|]. intros pm. constructor.
Qed.
Lemma ro_thread F ops : forall l, Forall reads_only ops -> ro (thread_from F l ops).
Proof.
  induction ops as [|o ops IH]; intros l H; cbn; [constructor|]. apply Forall_cons in H as [H1 H2]. apply ro_bind; [by apply ro_call|]. intros a. by apply IH.
Qed.
Lemma run_thread F ops : forall d m l m', run_calls insert F ops m = Ok (l, m') -> run (thread_from F d ops) m = Ok (rev d ++ l, m').
Proof.
  induction ops as [|o ops IH]; intros d m l m' H; cbn in *.
  - injection H as <- <-. by rewrite app_nil_r.
  - unfold res_bind in H. destruct (run (call insert F o) m) as [[a m1]|] eqn:E; [|done].
    destruct (run_calls insert F ops m1) as [[l2 m2]|] eqn:E2; [|done]. injection H as <- <-.
    rewrite VersionLaws.run_bind, E. rewrite (IH (a :: d) _ _ _ E2). cbn. by rewrite <- app_assoc.
Qed.

Section Solo.
Context (F : nat) (before : list op) (l0 : list ans) (m0 : mem) (ts : list (list op)) (w : nat) (ops : list op).
Context (HF : 300 <= F) (Hok : history_ok (before ++ ops)) (Hm0 : run_calls insert F before tree_new = Ok (l0, m0)).
Context (Hw : ts !! w = Some ops) (Ho : others_read w ts).
Lemma solo_run : exists l m, run_calls insert F (before ++ ops) tree_new = Ok (l0 ++ l, m) /\ run_calls insert F ops m0 = Ok (l, m) /\ Forall2 answered ops l.
Proof.
  destruct (never_fails false F (before ++ ops) HF Hok) as (l & m & E & Ha). change (insert_gen false) with insert in E. pose proof E as E'.
  rewrite run_calls_app, Hm0 in E. cbn [res_bind] in E. destruct (run_calls insert F ops m0) as [[l2 m2]|] eqn:E2; [|done]. cbn in E. injection E as <- <-.
  exists l2, m2. split; [done|]. split; [done|]. apply Forall2_app_inv_l in Ha as (x & y & Hx & Hy & E).
  destruct (never_fails false F before HF) as (l' & m' & E1 & Ha').
  { destruct Hok as [H1 H2]. apply Forall_app in H1 as [H1 _]. split; [done|]. rewrite key_bytes_app in H2. lia. }
  change (insert_gen false) with insert in E1. rewrite Hm0 in E1. injection E1 as <- <-.
  apply app_inj_1 in E as [_ ->]; [done|]. rewrite <- (Forall2_length _ _ _ Ha'), (Forall2_length _ _ _ Hx). done.
Qed.
Lemma solo_undisturbed : exists n l m, run_calls insert F ops m0 = Ok (l, m) /\ Forall2 answered ops l /\
  forall sched, let c := exec sched (start F m0 ts) in
    (forall e, ~ failed c w e) /\ (n <= turns w sched -> finished c w l) /\ (forall l', finished c w l' -> l' = l /\ c.1 = m).
Proof.
  destruct solo_run as (l & m & _ & E & Ha). pose proof (run_thread F ops [] _ _ _ E) as Hr. cbn in Hr.
  destruct (run_steps _ _ _ _ Hr) as (n & H1 & H2). exists n, l, m. split; [done|]. split; [done|]. intros sched. cbn zeta.
  destruct (exec_solo w sched m0 (map (thread F) ts) (thread F ops)) as [E1 E2].
  { by rewrite list_lookup_fmap, Hw. }
  { intros j q Hj Hne. apply list_lookup_fmap_Some in Hj as (o & Hj & ->). apply ro_thread. by eapply Ho. }
  change (m0, map (thread F) ts) with (start F m0 ts) in E1, E2. unfold thread in E1, E2.
  destruct (exec sched (start F m0 ts)) as [mc pc]. cbn [fst snd] in *. unfold failed, finished. cbn [fst snd].
  specialize (H2 (turns w sched)) as [H2 H3]. split; [|split].
  - intros e He. pose proof (eq_trans (eq_sym E2) He) as He'. injection He' as He'. by eapply H2.
  - intros Hn. rewrite (H1 _ Hn) in E2. exact E2.
  - intros l' Hl'. pose proof (eq_trans (eq_sym E2) Hl') as He. clear Hl'. injection He as Hl'. pose proof (H3 _ Hl') as E3. rewrite E3 in Hl'. cbn in Hl'. injection Hl' as ->.
    split; [done|]. by rewrite E1, E3.
Qed.
Context (Hu : unambiguous (before ++ ops)).
Lemma solo_map sched l : finished (exec sched (start F m0 ts)) w l ->
  l = (map_run (map_run ∅ before).2 ops).1 /\
  forall k, op_ok (Get k) -> run (get F k) (exec sched (start F m0 ts)).1 = Ok (last_value k (inserts (before ++ ops)), (exec sched (start F m0 ts)).1).
Proof.
  destruct solo_undisturbed as (n & l' & m & E & _ & H). intros Hf. destruct (H sched) as (_ & _ & H3). destruct (H3 l Hf) as [-> ->]. clear H H3 Hf.
  destruct solo_run as (l2 & m2 & E1 & E2 & _). rewrite E in E2. injection E2 as <- <-.
  destruct (map_semantics false F (before ++ ops) HF Hok (or_intror Hu)) as (m3 & E3). change (insert_gen false) with insert in E3. rewrite E1 in E3. injection E3 as E3 <-.
  split.
  - rewrite map_run_app in E3. pose proof (map_run_len ∅ before) as Hl. destruct (map_run ∅ before) as [lb mu]. cbn [fst snd] in *. destruct (map_run mu ops) as [lo mu']. cbn in *.
    apply app_inj_1 in E3 as [_ ->]; [done|]. rewrite Hl.
    destruct (never_fails false F before HF) as (l1 & m1 & E4 & Ha').
    { destruct Hok as [H1 H2]. apply Forall_app in H1 as [H1 _]. split; [done|]. rewrite key_bytes_app in H2. lia. }
    change (insert_gen false) with insert in E4. rewrite Hm0 in E4. injection E4 as <- <-. by rewrite (Forall2_length _ _ _ Ha').
  - intros k Hk. destruct (get_last false F (before ++ ops) k HF) as (l3 & m3 & E4).
    { destruct Hok as [H1 H2]. split; [apply Forall_app; split; [done|by constructor]|]. rewrite key_bytes_app. cbn [key_bytes]. lia. }
    { by right. }
    change (insert_gen false) with insert in E4. rewrite run_calls_app, E1 in E4. cbn [res_bind run_calls] in E4. cbn [call] in E4. rewrite VersionLaws.run_bind in E4.
    destruct (run (get F k) m) as [[r m4]|] eqn:G; [|done]. cbn in E4. injection E4 as E4 <-. apply app_inj_2 in E4 as [_ [= ->]]; [|done].
    f_equal. f_equal. by apply (lookups_read_only F k m (last_value k (inserts (before ++ ops)))); left.
Qed.
End Solo.
(** all threads only read *)
Lemma map_run_reads mu ops : Forall reads_only ops -> (map_run mu ops).1 = map (fun o => (map_step mu o).1) ops.
Proof.
  induction ops as [|o ops IH]; intros H; [done|]. apply Forall_cons in H as [H1 H2]. cbn. assert ((map_step mu o).2 = mu) as E by (by destruct o).
  destruct (map_step mu o) as [a mu'] eqn:Eo. cbn in E. subst mu'. specialize (IH H2). destruct (map_run mu ops). cbn in *. by rewrite IH.
Qed.
Lemma readers_exact F before l0 m0 ts sched i ops l : 300 <= F -> history_ok (before ++ ops) -> unambiguous before ->
  run_calls insert F before tree_new = Ok (l0, m0) -> Forall (Forall reads_only) ts -> ts !! i = Some ops ->
  finished (exec sched (start F m0 ts)) i l -> l = map (fun o => (map_step (map_run ∅ before).2 o).1) ops.
Proof.
  intros HF Hok Hu Hm0 Hr Hi Hf. rewrite Forall_forall in Hr. assert (forall j o, ts !! j = Some o -> Forall reads_only o) as Hr'.
  { intros j o Hj. apply Hr. by eapply elem_of_list_lookup_2. }
  assert (inserts ops = []) as Hins.
  { specialize (Hr' i ops Hi). clear -Hr'. induction Hr' as [|o ops Ho _ IH]; [done|]. by destruct o. }
  destruct (solo_map F before l0 m0 ts i ops HF Hok Hm0 Hi) with (sched := sched) (l := l) as [-> _]; [|..|done|].
  - intros j o Hj _. by eapply Hr'.
  - eapply unambiguous_incl; [|exact Hu]. intros x. rewrite inserts_app, Hins, app_nil_r. done.
  - apply map_run_reads. by eapply Hr'.
Qed.

Lemma is_empty_among_readers F before l0 m0 ts sched i : 300 <= F -> history_ok before ->
  run_calls insert F before tree_new = Ok (l0, m0) -> ts !! i = Some [IsEmpty] -> others_read i ts ->
  (forall e, ~ failed (exec sched (start F m0 ts)) i e) /\
  forall l, finished (exec sched (start F m0 ts)) i l -> l = [AEmpty (bool_decide (inserts before = []))].
Proof.
  intros HF Hok Hm0 Hi Ho. assert (history_ok (before ++ [IsEmpty])) as Hok'.
  { destruct Hok as [H1 H2]. split; [apply Forall_app; split; [done|by constructor]|]. rewrite key_bytes_app. cbn [key_bytes]. lia. }
  destruct (solo_undisturbed F before l0 m0 ts i [IsEmpty] HF Hok' Hm0 Hi Ho) as (n & l & m & E & Ha & H). specialize (H sched) as (H1 & _ & H2).
  split; [exact H1|]. intros l' Hl'. destruct (H2 l' Hl') as [-> _]. destruct (is_empty_exact false F before HF Hok) as (l1 & m1 & E1).
  change (insert_gen false) with insert in E1. rewrite run_calls_app, Hm0 in E1. cbn [res_bind] in E1. rewrite E in E1. cbn in E1. injection E1 as E1 _.
  pose proof (Forall2_length _ _ _ Ha) as Hl. destruct l as [|a [|]]; try done. by apply app_inj_2 in E1 as [_ ->].
Qed.
