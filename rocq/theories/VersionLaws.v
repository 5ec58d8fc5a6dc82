(** Proofs about the node lock. *)
From Verif Require Import Base Prog Version VersionTry SpecVersion VersionFacts.

Ltac ands := repeat match goal with |- _ /\ _ => split end.
Inductive hst := Out | Held (lv : N) | In (lv : N).
(** relation between the guard's local copy and the word while the lock is held *)
Definition W (lv w : N) : Prop :=
  vok lv /\ vok w /\ bit w 0 = true /\ vcnt lv = vcnt w /\ bit lv 2 = bit w 2 /\
  bit lv 1 || bit lv 2 = true /\ bit lv 1 = bit w 1.
Definition st_ok (h : hst) (m : vmem) : Prop :=
  vok (word m) /\
  match h with Out => True | Held lv => W lv (word m) | In lv => W lv (word m) /\ 0 < inside m end.
Definition same (m m' : vmem) : Prop :=
  vok (word m') /\ bit (word m') 0 = bit (word m) 0 /\ bit (word m') 2 = bit (word m) 2 /\
  vcnt (word m') = vcnt (word m) /\ inside m' = inside m /\ bit (word m') 1 = bit (word m) 1.
Definition released (m m' : vmem) : Prop :=
  vok (word m') /\ bit (word m) 0 = true /\ bit (word m') 0 = false /\ inside m' = inside m /\
  exists d, (1 <= d <= 64)%N /\ vcnt (word m') = ((vcnt (word m) + d) mod 2 ^ 25)%N /\
    (bit (word m) 2 = true -> (vcnt (word m) + d) / 64 = vcnt (word m) / 64 + 1)%N.
Definition trans (h : hst) (m : vmem) (h' : hst) (m' : vmem) : Prop :=
  match h, h' with
  | Out, Out => same m m'
  | Out, Held lv => bit (word m) 0 = false /\ W lv (word m') /\ vcnt (word m') = vcnt (word m) /\
                    inside m' = inside m
  | Held lv, Held lv' | In lv, In lv' =>
      W lv' (word m') /\ vcnt (word m') = vcnt (word m) /\ inside m' = inside m
  | Held lv, In lv' => lv' = lv /\ word m' = word m /\ inside m' = inside m + 1
  | In lv, Held lv' => lv' = lv /\ word m' = word m /\ inside m = inside m' + 1
  | Held lv, Out => released m m'
  | _, _ => False
  end.
Fixpoint safe {A} (h : hst) (p : prog vmem A) (Q : hst -> A -> Prop) : Prop :=
  match p with
  | Ret a => Q h a
  | Fail e => e = Fuel
  | Step f k =>
      forall m, st_ok h m ->
      exists r m' h', f m = Ok (r, m') /\ trans h m h' m' /\ safe h' (k r) Q
  end.

Lemma safe_mono {A} (p : prog vmem A) : forall h (Q Q' : hst -> A -> Prop),
  (forall h a, Q h a -> Q' h a) -> safe h p Q -> safe h p Q'.
Proof.
  induction p as [a|e|R f k IH]; cbn; intros h Q Q' HQ H; auto.
  intros m Hm. destruct (H m Hm) as (r & m' & h' & E & T & S). exists r, m', h'. eauto.
Qed.
Lemma safe_bind {A B} (p : prog vmem A) (q : A -> prog vmem B) : forall h Q,
  safe h p (fun h' a => safe h' (q a) Q) -> safe h (bind p q) Q.
Proof.
  induction p as [a|e|R f k IH]; cbn; intros h Q H; auto.
  intros m Hm. destruct (H m Hm) as (r & m' & h' & E & T & S). exists r, m', h'. eauto.
Qed.

Definition vout {A} (h : hst) (_ : A) : Prop := h = Out.

Lemma safe_load h : safe h (ver_load vrd) (fun h' v => h' = h /\ exists m, v = word m /\ st_ok h m).
Proof.
  cbn. intros m Hm. exists (word m), m, h. split; [done|]. split.
  - destruct Hm as [H1 H2]. destruct h; cbn [trans]; unfold same; [auto 10|auto|destruct H2; auto].
  - split; [done|]. now exists m.
Qed.
Lemma locked_W v : vok v -> W (v_locked v) (v_locked v).
Proof.
  intros H. assert (vok (v_locked v)) by (apply vok_lor; [apply vok_lor; [done|]|]; by apply vok_const).
  unfold W. ands; try apply H0; unfold v_locked; rewrite ?bit_lor; cbn; rewrite ?orb_true_r; done.
Qed.
Lemma safe_cas v : v_can_lock v = true ->
  safe Out (ver_cas vrd vwr v (v_locked v))
    (fun h b => if b : bool then h = Held (v_locked v) else h = Out).
Proof.
  intros Hc. cbn. intros m [Hm _]. destruct (N.eqb_spec (word m) v) as [<-|Hne].
  - exists true, (vwr (v_locked (word m)) m), (Held (v_locked (word m))). split; [done|]. split; [|done].
    rewrite can_lock_bits in Hc. cbn. split; [destruct (bit (word m) 0); done|].
    split; [now apply locked_W|]. split; [apply locked_vcnt|done].
  - exists false, m, Out. split; [done|]. split; [|done]. unfold trans, same. auto 10.
Qed.
Lemma safe_lock F : safe Out (ver_lock vrd vwr F) (fun h lv => h = Held lv).
Proof.
  induction F as [|F IH]; [done|]. cbn [ver_lock]. apply safe_bind.
  eapply safe_mono; [|apply safe_load]. intros h v [-> _].
  destruct (v_can_lock v) eqn:E; [|done]. apply safe_bind.
  eapply safe_mono; [|by apply safe_cas]. intros h [] ->; done.
Qed.
Lemma safe_try_lock : safe Out (ver_try_lock vrd vwr)
  (fun h o => match o with Some lv => h = Held lv | None => h = Out end).
Proof.
  unfold ver_try_lock. apply safe_bind.
  eapply safe_mono; [|apply safe_load]. intros h v [-> _].
  destruct (v_can_lock v) eqn:E; [|done]. apply safe_bind.
  eapply safe_mono; [|by apply safe_cas]. intros h [] ->; done.
Qed.
Lemma safe_try_lock_for n : safe Out (ver_try_lock_for vrd vwr n)
  (fun h o => match o with Some lv => h = Held lv | None => h = Out end).
Proof.
  induction n as [|n IH]; cbn [ver_try_lock_for]; apply safe_bind;
    (eapply safe_mono; [|apply safe_try_lock]); intros h [lv|] ->; done.
Qed.
Lemma safe_lock_with_yield F : safe Out (ver_lock_with_yield vrd vwr F) (fun h lv => h = Held lv).
Proof.
  induction F as [|F IH]; [done|]. cbn [ver_lock_with_yield]. apply safe_bind.
  eapply safe_mono; [|apply safe_try_lock]. intros h [lv|] ->; done.
Qed.
Lemma safe_stable F : safe Out (ver_stable vrd F) vout.
Proof.
  induction F as [|F IH]; [done|]. cbn [ver_stable]. apply safe_bind.
  eapply safe_mono; [|apply safe_load]. intros h v [-> _]. destruct (v_is_dirty v); done.
Qed.

Lemma W_vok lv w : W lv w -> vok lv /\ vok w. Proof. intros H; split; apply H. Qed.
Lemma W_store lv w lv' w' : W lv w -> vok lv' -> vok w' -> bit w' 0 = true ->
  vcnt lv' = vcnt lv -> vcnt w' = vcnt w -> bit lv' 2 = bit w' 2 -> bit lv' 1 || bit lv' 2 = true -> bit lv' 1 = bit w' 1 -> W lv' w'.
Proof. intros (A & B & C & D & E & F) ? ? ? ? ? ? ? ?. unfold W. ands; try done; congruence. Qed.

Lemma safe_store_in lv lv' v' : W lv' v' -> vcnt lv' = vcnt lv ->
  safe (In lv) (ver_store vrd vwr v') (fun h _ => h = In lv').
Proof.
  intros H1 H2. cbn. intros m [Hm [HW Hi]]. exists tt, (vwr v' m), (In lv'). split; [done|]. split; [|done].
  cbn. split; [done|]. split; [|done].
  destruct H1 as (_ & _ & _ & E1 & _), HW as (_ & _ & _ & E2 & _). congruence.
Qed.
Lemma unlock_released lv m : W lv (word m) -> released m (vwr (v_unlock lv) m).
Proof.
  intros (A & B & C & D & E & F). destruct (unlock_fields lv A) as (U0 & U1 & _ & _ & U4 & _).
  unfold released. cbn. ands; try done; try apply U0.
  destruct F as [F F']. destruct (bump_growth (bit lv 2) (bit lv 1) (vcnt lv)) as (d & Hd & Eq & Hs);
    [now rewrite orb_comm|apply vcnt_lt|].
  exists d. split; [done|]. rewrite U4, Eq, <- D. split; [done|]. rewrite <- E. exact Hs.
Qed.
Lemma safe_drop lv : safe (Held lv) (guard_drop vrd vwr lv) vout.
Proof.
  cbn. intros m [Hm HW]. exists tt, (vwr (v_unlock lv) m), Out. split; [done|]. split; [|done].
  cbn [trans]. by apply unlock_released.
Qed.
Lemma safe_enter lv : safe (Held lv) enter (fun h _ => h = In lv).
Proof. cbn. intros m Hm. eexists tt, _, (In lv). split; [done|]. split; [|done]. cbn. auto. Qed.
Lemma safe_leave lv : safe (In lv) leave (fun h _ => h = Held lv).
Proof.
  cbn. intros m [Hm [HW Hi]]. eexists tt, _, (Held lv). split; [done|]. split; [|done]. cbn.
  ands; lia.
Qed.

Ltac vbits := rewrite ?bit_lor, ?bit_land; cbn; rewrite ?orb_true_r, ?orb_false_r, ?andb_true_r, ?andb_false_r.

Lemma safe_gop g lv : safe (In lv) (run_gop g lv) (fun h lv' => h = In lv').
Proof.
  assert (Hld : forall A (k : N -> prog vmem A) Q,
    (forall v, W lv v -> safe (In lv) (k v) Q) -> safe (In lv) (bind (ver_load vrd) k) Q).
  { intros A k Q H. apply safe_bind. eapply safe_mono; [|apply safe_load].
    intros h v [-> (m & -> & [_ [HW _]])]. auto. }
  assert (Hst : forall v' lv', W lv' v' -> vcnt lv' = vcnt lv ->
    safe (In lv) (ver_store vrd vwr v' ;;; Ret lv') (fun h x => h = In x)).
  { intros v' lv' H1 H2. apply safe_bind. eapply safe_mono; [|by apply (safe_store_in lv lv')].
    intros h _ ->. done. }
  destruct g; cbn [run_gop]; unfold guard_mark_insert, guard_mark_split, guard_mark_deleted, guard_mark_nonroot.
  - rewrite is_inserting_bit. destruct (bit lv 1) eqn:E; [done|]. apply Hld. intros v HW. apply Hst.
    + pose proof (W_vok _ _ HW) as [V1 V2]. pose proof HW as (_ & _ & C & D & E' & F & F').
      eapply W_store; [done|by apply vok_lor, vok_const|by apply vok_lor, vok_const| | | | | |];
      rewrite ?ins_vcnt; try done; vbits; done.
    + apply ins_vcnt.
  - apply Hld. intros v HW. apply Hst.
    + pose proof (W_vok _ _ HW) as [V1 V2]. pose proof HW as (_ & _ & C & D & E' & F & F').
      eapply W_store; [done|by apply vok_lor, vok_const|by apply vok_lor, vok_const| | | | | |];
      rewrite ?spl_vcnt; try done; vbits; done.
    + apply spl_vcnt.
  - apply Hld. intros v HW. pose proof (W_vok _ _ HW) as [V1 V2]. pose proof HW as (_ & _ & C & D & E' & F & F').
    assert (vok (N.lor (N.lor v DELETED_BIT) SPLITTING_BIT))
      by (apply vok_lor; [apply vok_lor; [done|]|]; by apply vok_const).
    assert (vcnt (N.lor (N.lor v DELETED_BIT) SPLITTING_BIT) = vcnt v) by now rewrite spl_vcnt, del_vcnt.
    apply Hst; [|congruence].
    eapply W_store; try done; try congruence; vbits; done.
  - apply Hld. intros v HW. pose proof (W_vok _ _ HW) as [V1 V2]. pose proof HW as (_ & _ & C & D & E' & F & F').
    apply Hst; [|apply nonroot_vcnt].
    eapply W_store; try done; try (by apply vok_mark_nonroot); rewrite ?nonroot_vcnt; try done;
    unfold v_mark_nonroot; vbits; done.
Qed.
Lemma safe_gops l : forall lv, safe (In lv) (run_gops l lv) (fun h lv' => h = In lv').
Proof.
  induction l as [|g l IH]; intros lv; cbn [run_gops]; [done|]. apply safe_bind.
  eapply safe_mono; [|apply safe_gop]. intros h lv' ->. apply IH.
Qed.
Lemma safe_section lv l : safe (Held lv) (section lv l) vout.
Proof.
  unfold section. apply safe_bind. eapply safe_mono; [|apply safe_enter]. intros h _ ->.
  apply safe_bind. eapply safe_mono; [|apply safe_gops]. intros h lv' ->.
  apply safe_bind. eapply safe_mono; [|apply safe_leave]. intros h _ ->. apply safe_drop.
Qed.
Lemma safe_update f : (forall w, vok w -> vok (f w) /\ bit (f w) 0 = bit w 0 /\ bit (f w) 2 = bit w 2 /\
    vcnt (f w) = vcnt w /\ bit (f w) 1 = bit w 1) -> safe Out (ver_update vrd vwr f) vout.
Proof.
  intros H. cbn. intros m [Hm _]. destruct (H _ Hm) as (A & B & C & D & E).
  exists tt, (vwr (f (word m)) m), Out. split; [done|]. split; [|done]. unfold trans, same. auto 10.
Qed.
Lemma safe_vop F o : safe Out (run_vop F o) vout.
Proof.
  destruct o; cbn [run_vop].
  - apply safe_bind. eapply safe_mono; [|apply safe_lock]. intros h lv ->. apply safe_section.
  - apply safe_bind. eapply safe_mono; [|apply safe_try_lock]. intros h [lv|] ->; [apply safe_section|done].
  - apply safe_bind. eapply safe_mono; [|apply safe_stable]. intros h v ->. done.
  - apply safe_bind, safe_bind. eapply safe_mono; [|apply safe_load]. intros h v [-> _]. done.
  - apply safe_bind, safe_bind. eapply safe_mono; [|apply safe_load]. intros h v [-> _]. done.
  - apply safe_update. intros w Hw. unfold v_mark_root. split; [by apply vok_lor, vok_const|].
    split; [vbits; done|]. split; [vbits; done|]. split; [apply root_vcnt|vbits; done].
  - apply safe_update. intros w Hw. split; [by apply vok_mark_nonroot|]. unfold v_mark_nonroot.
    split; [vbits; done|]. split; [vbits; done|]. split; [apply nonroot_vcnt|vbits; done].
  - apply safe_bind. eapply safe_mono; [|apply safe_lock_with_yield]. intros h lv ->. apply safe_section.
  - apply safe_bind. eapply safe_mono; [|apply safe_try_lock_for]. intros h [lv|] ->; [apply safe_section|done].
  - apply safe_bind, safe_bind. eapply safe_mono; [|apply safe_load]. intros h v [-> _]. done.
Qed.
Lemma safe_script F l : safe Out (run_script F l) vout.
Proof.
  induction l as [|o l IH]; [done|]. cbn [run_script]. apply safe_bind.
  eapply safe_mono; [|apply safe_vop]. intros h v ->. done.
Qed.
Lemma split_W src : W (v_new_for_split src) (v_new_for_split src).
Proof.
  assert (vok (v_new_for_split src)).
  { unfold v_new_for_split. apply vok_lor; [apply vok_lor|]; try by apply vok_const.
    split; [apply land_lt; reflexivity|]. vbits. done. }
  unfold W. ands; try apply H; unfold v_new_for_split; vbits; done.
Qed.
Lemma safe_creator F src l : safe (Held (v_new_for_split src)) (run_creator F l) vout.
Proof.
  unfold run_creator. apply safe_bind. eapply safe_mono; [|apply safe_enter]. intros h _ ->.
  apply safe_bind. eapply safe_mono; [|apply safe_leave]. intros h _ ->.
  apply safe_bind. apply safe_mono with (Q := vout).
  { intros h x Hx. unfold vout in Hx. subst h. apply safe_script. }
  unfold ver_unlock_for_split. apply safe_bind. eapply safe_mono; [|apply safe_load].
  intros h v [-> (m & -> & [_ HW])]. pose proof HW as (A & B & C & D & E & _).
  assert (E2 : bit (word m) 2 = true).
  { rewrite <- E. unfold v_new_for_split. vbits. done. }
  rewrite is_locked_bit, is_splitting_bit, C, E2. cbn [andb].
  rewrite unlock_for_split_eq by done. cbn. intros m' [Hm' HW'].
  exists tt, (vwr (v_unlock (word m)) m'), Out. split; [done|]. split; [|done]. cbn [trans].
  apply unlock_released. destruct HW' as (A' & B' & C' & D' & E' & F' & G'). destruct HW as (_ & _ & _ & _ & _ & _ & G).
  unfold W. ands; try apply B; try apply B'; try done; try congruence.
  all: rewrite E2; apply orb_true_r.
Qed.

(** ** configurations *)
Definition inv (o : option (nat * hst)) (c : config) : Prop :=
  vok (word c.1) /\
  match o with
  | None => bit (word c.1) 0 = false /\ inside c.1 = 0 /\
            forall i p, c.2 !! i = Some p -> safe Out p vout
  | Some (i, h) =>
      h <> Out /\ bit (word c.1) 0 = true /\ st_ok h c.1 /\
      inside c.1 = (match h with In _ => 1 | _ => 0 end) /\
      (exists p, c.2 !! i = Some p /\ safe h p vout) /\
      forall j p, j <> i -> c.2 !! j = Some p -> safe Out p vout
  end.
Definition owner_of (o : option (nat * hst)) : option nat := fst <$> o.

Lemma same_st h m m' : same m m' -> st_ok h m -> st_ok h m'.
Proof.
  intros (A & B & C & D & E & E1) [H1 H2]. split; [done|]. destruct h; [done| |].
  - destruct H2 as (G1 & G2 & G3 & G4 & G5 & G6 & G8). unfold W. ands; try apply G1; try apply A; try congruence; done.
  - destruct H2 as [(G1 & G2 & G3 & G4 & G5 & G6 & G8) G7]. split; [|lia].
    unfold W. ands; try apply G1; try apply A; try congruence; done.
Qed.

(** one step of any thread *)
Lemma inv_step o c i : inv o c -> exists o',
  inv o' (thread_step i c) /\
  ( (locked (thread_step i c) = locked c /\ owner_of o' = owner_of o /\
     vcnt (word (thread_step i c).1) = vcnt (word c.1))
  \/ (locked c = false /\ locked (thread_step i c) = true /\ owner_of o' = Some i /\
      vcnt (word (thread_step i c).1) = vcnt (word c.1))
  \/ (locked c = true /\ locked (thread_step i c) = false /\ owner_of o = Some i /\ owner_of o' = None /\
      exists d, (1 <= d <= 64)%N /\ vcnt (word (thread_step i c).1) = ((vcnt (word c.1) + d) mod 2 ^ 25)%N /\
        (bit (word c.1) 2 = true -> (vcnt (word c.1) + d) / 64 = vcnt (word c.1) / 64 + 1)%N) ).
Proof.
  intros Hinv. destruct c as [m ps]. unfold thread_step. cbn [fst snd].
  destruct (ps !! i) as [[a|e|R f k]|] eqn:Hi; try (exists o; split; [done|]; left; done).
  pose proof Hinv as [Hok Hcase]. cbn [fst snd] in *.
  assert (Hlen : i < length ps) by (apply lookup_lt_is_Some; eauto).
  destruct o as [[j h]|].
  - destruct Hcase as (Hn & Hlk & Hst & Hin & (p & Hp & Hsafe) & Hoth).
    destruct (decide (i = j)) as [<-|Hij].
    + rewrite Hi in Hp. injection Hp as <-. destruct (Hsafe m Hst) as (r & m' & h' & Ef & Ht & Hs').
      rewrite Ef. destruct h' as [|lv'|lv'].
      * exists None. destruct h; [done| |done]. destruct Ht as (V & L & L' & I & d & Hd & Hc & Hsp).
        split; [split; [done|]; cbn; ands; try done; try lia|].
        { intros q p' Hq. destruct (decide (q = i)) as [->|Hne].
          - rewrite list_lookup_insert in Hq by done. by injection Hq as <-.
          - rewrite list_lookup_insert_ne in Hq by done. eauto. }
        right; right. ands; try done. eauto.
      * exists (Some (i, Held lv')). assert (HW : W lv' (word m') /\ vcnt (word m') = vcnt (word m) /\ inside m' = 0).
        { destruct h; [done| |]; cbn in Ht.
          - destruct Ht as (?&?&?). rewrite Hin in *. auto.
          - destruct Ht as (->&Hw&?). rewrite Hin in *. destruct Hst as [_ [? _]]. rewrite Hw. ands; try done; try apply H0. lia. }
        destruct HW as (HW & Hc & Hi0). pose proof HW as (W1 & W2 & W3 & _).
        split.
        { split; [done|]. split; [done|]. cbn [fst snd]. split; [done|]. split; [by split|]. split; [done|]. split.
          - exists (k r). by rewrite list_lookup_insert.
          - intros q p' Hne Hq. rewrite list_lookup_insert_ne in Hq by done. eauto. }
        left. unfold locked. cbn [fst]. ands; [|done|done]. fold (bit (word m') 0). rewrite W3. symmetry. exact Hlk.
      * exists (Some (i, In lv')). assert (HW : W lv' (word m') /\ vcnt (word m') = vcnt (word m) /\ inside m' = 1).
        { destruct h; [done| |]; cbn in Ht.
          - destruct Ht as (->&Hw&?). rewrite Hin in *. destruct Hst as [_ ?]. rewrite Hw. ands; try done; try apply H0.
          - destruct Ht as (?&?&?). rewrite Hin in *. auto. }
        destruct HW as (HW & Hc & Hi0). pose proof HW as (W1 & W2 & W3 & _).
        split.
        { split; [done|]. split; [done|]. cbn [fst snd]. split; [done|]. split; [split; [done|]; split; [done|lia]|]. split; [done|]. split.
          - exists (k r). by rewrite list_lookup_insert.
          - intros q p' Hne Hq. rewrite list_lookup_insert_ne in Hq by done. eauto. }
        left. unfold locked. cbn [fst]. ands; [|done|done]. fold (bit (word m') 0). rewrite W3. symmetry. exact Hlk.
    + pose proof (Hoth i _ Hij Hi) as Hs. destruct (Hs m (conj Hok I)) as (r & m' & h' & Ef & Ht & Hs').
      rewrite Ef. destruct h' as [|lv'|lv']; cbn in Ht; [| |done].
      * exists (Some (j, h)). pose proof Ht as (V & L & SP & C & I & _). split.
        { split; [done|]. split; [done|]. cbn [fst snd]. split; [by rewrite L|]. split; [by eapply same_st|]. split; [by rewrite I|]. split.
          - exists p. by rewrite list_lookup_insert_ne.
          - intros q p' Hne Hq. destruct (decide (q = i)) as [->|Hne'].
            + rewrite list_lookup_insert in Hq by done. by injection Hq as <-.
            + rewrite list_lookup_insert_ne in Hq by done. eauto. }
        left. ands; done.
      * destruct Ht as (L & _). congruence.
  - destruct Hcase as (Hlk & Hin & Hall).
    destruct (Hall i _ Hi m (conj Hok I)) as (r & m' & h' & Ef & Ht & Hs').
    rewrite Ef. destruct h' as [|lv'|lv']; cbn in Ht; [| |done].
    + exists None. pose proof Ht as (V & L & SP & C & I & _). split.
      { split; [done|]. split; [by rewrite <- Hlk|]. split; [cbn; lia|].
        intros q p' Hq. cbn in Hq. destruct (decide (q = i)) as [->|Hne'].
        - rewrite list_lookup_insert in Hq by done. by injection Hq as <-.
        - rewrite list_lookup_insert_ne in Hq by done. eauto. }
      left. ands; done.
    + destruct Ht as (L & HW & C & I). pose proof HW as (W1 & W2 & W3 & _).
      exists (Some (i, Held lv')). split.
      { split; [done|]. split; [done|]. cbn [fst snd]. split; [done|]. split; [by split|]. split; [lia|]. split.
        - exists (k r). by rewrite list_lookup_insert.
        - intros q p' Hne Hq. rewrite list_lookup_insert_ne in Hq by done. eauto. }
      right; left. ands; done.
Qed.

Lemma inv_locked o c : inv o c -> locked c = match o with Some _ => true | None => false end.
Proof. intros [_ H]. destruct o as [[i h]|]; [apply H|apply H]. Qed.

Lemma inv_init c : initial c -> exists o, inv o c /\ owner_of o = initial_holder c.
Proof.
  intros [F w scripts (H1 & H2 & H3)|F src s0 scripts].
  - exists None. unfold initial_holder, locked. cbn. rewrite H3. split; [|done].
    split; [by split|]. ands; try done. intros i p Hp. cbn in Hp.
    rewrite list_lookup_fmap in Hp. destruct (scripts !! i); [|done]. injection Hp as <-. apply safe_script.
  - exists (Some (0, Held (v_new_for_split src))). pose proof (split_W src) as HW. pose proof HW as (A & B & C & _).
    split; [|unfold initial_holder, locked; cbn; unfold bit in C; by rewrite C].
    split; [done|]. split; [done|]. split; [done|]. split; [by split|]. split; [done|]. split.
    + eexists. split; [done|]. apply safe_creator.
    + intros [|j] p Hne Hp; [done|].
      change (map (run_script F) scripts !! j = Some p) in Hp. rewrite list_lookup_fmap in Hp.
      destruct (scripts !! j); [|done]. injection Hp as <-. apply safe_script.
Qed.

Lemma inv_exec sched : forall o c, inv o c -> exists o',
  inv o' (exec sched c) /\ holder (owner_of o) sched c = owner_of o' /\
  exists d, (releases sched c <= d <= 64 * releases sched c)%N /\
    vcnt (word (exec sched c).1) = ((vcnt (word c.1) + d) mod 2 ^ 25)%N /\
    (vcnt (word c.1) / 64 + split_releases sched c <= (vcnt (word c.1) + d) / 64)%N.
Proof.
  induction sched as [|i s IH]; intros o c H.
  - exists o. split; [done|]. split; [done|]. exists 0%N. cbn [releases split_releases]. split; [lia|]. cbn [exec fold_left].
    rewrite !N.add_0_r. split; [symmetry; apply N.mod_small, vcnt_lt|lia].
  - destruct (inv_step o c i H) as (o1 & H1 & Hc). destruct (IH o1 _ H1) as (o' & H' & Hh & d & Hd & Hv & Hs).
    exists o'. split; [done|]. cbn [exec fold_left holder releases split_releases]. fold (exec s (thread_step i c)).
    destruct Hc as [(L & O & C)|[(L & L' & O & C)|(L & L' & O & O' & d1 & Hd1 & C & Hs1)]].
    + split.
      * rewrite L. destruct (locked c); rewrite <- O; done.
      * rewrite L. exists d. rewrite andb_negb_r. cbn [andb]. rewrite !N.add_0_l. split; [lia|]. rewrite C in Hv, Hs. done.
    + rewrite L, L'. split; [by rewrite <- O|]. exists d. cbn [andb]. rewrite !N.add_0_l. split; [lia|].
      rewrite C in Hv, Hs. done.
    + rewrite L, L'. split; [by rewrite <- O'|]. exists (d1 + d)%N. cbn [andb negb].
      split; [lia|]. rewrite Hv, C. rewrite C in Hs. fold (bit (word c.1) 2).
      revert Hs Hs1. generalize (vcnt (word c.1)), (split_releases s (thread_step i c)), (bit (word c.1) 2). clear.
      intros x r sp Hs Hs1. split; [rewrite N.add_mod_idemp_l by discriminate; f_equal; lia|].
      assert (Hq : exists q, (x + d1 = (x + d1) mod 2 ^ 25 + q * 2 ^ 25)%N).
      { exists ((x + d1) / 2 ^ 25)%N. rewrite (N.div_mod (x + d1) (2 ^ 25)) at 1 by discriminate. lia. }
      destruct Hq as [q Hq]. set (y := ((x + d1) mod 2 ^ 25)%N) in *.
      assert (E1 : ((x + d1) / 64 = y / 64 + q * 2 ^ 19)%N).
      { rewrite Hq. replace (q * 2 ^ 25)%N with (q * 2 ^ 19 * 64)%N by (change (2 ^ 25)%N with (2 ^ 19 * 64)%N; lia).
        by rewrite N.div_add by discriminate. }
      assert (E2 : ((x + (d1 + d)) / 64 = (y + d) / 64 + q * 2 ^ 19)%N).
      { replace (x + (d1 + d))%N with (y + d + q * 2 ^ 19 * 64)%N
          by (change (2 ^ 25)%N with (2 ^ 19 * 64)%N in Hq; lia).
        by rewrite N.div_add by discriminate. }
      rewrite E2. assert (x / 64 + (if sp then 1 else 0) <= (x + d1) / 64)%N.
      { destruct sp; [rewrite (Hs1 eq_refl); lia|]. rewrite N.add_0_r. apply N.div_le_mono; [discriminate|lia]. }
      lia.
Qed.

Lemma mutual_exclusion c sched : initial c ->
  inside (exec sched c).1 <= 1 /\
  (locked (exec sched c) = true <-> holder (initial_holder c) sched c <> None) /\
  (forall i, locked (exec sched c) = true -> locked (thread_step i (exec sched c)) = false ->
     holder (initial_holder c) sched c = Some i) /\
  (forall i e, (exec sched c).2 !! i = Some (Fail e) -> e = Fuel).
Proof.
  intros Hi. destruct (inv_init c Hi) as (o & H & <-).
  destruct (inv_exec sched o c H) as (o' & H' & Hh & _). rewrite Hh. split; [|split; [|split]].
  - destruct o' as [[i h]|]; destruct H' as [_ H'].
    + destruct H' as (_ & _ & _ & E & _). rewrite E. destruct h; lia.
    + destruct H' as (_ & E & _). lia.
  - rewrite (inv_locked _ _ H'). destruct o' as [[]|]; cbn; split; congruence.
  - intros i L L'. destruct (inv_step o' _ i H') as (o1 & _ & [(E & _)|[(E & _)|(_ & _ & O & _)]]); congruence.
  - intros i e He. destruct o' as [[j h]|]; destruct H' as [_ H'].
    + destruct H' as (_ & _ & _ & _ & (p & Hp & Hs) & Ho). destruct (decide (i = j)) as [->|Hne].
      * rewrite He in Hp. injection Hp as <-. exact Hs.
      * exact (Ho i _ Hne He).
    + destruct H' as (_ & _ & Ha). exact (Ha i _ He).
Qed.

Lemma changed_cnt a b : vcnt a <> vcnt b -> v_has_changed a b = true.
Proof.
  intros H. unfold v_has_changed. apply N.ltb_lt. destruct (N.lt_ge_cases 3 (N.lxor a b)) as [|Hle]; [done|].
  exfalso. apply H. apply vcnt_ext. intros k Hk. unfold bit.
  assert (E : N.testbit (N.lxor a b) k = false).
  { destruct (N.eq_0_gt_0_cases (N.lxor a b)) as [->|]; [apply N.bits_0|].
    apply N.bits_above_log2. apply N.lt_le_trans with 3%N; [|lia]. apply N.log2_lt_pow2; [done|].
    change (2 ^ 3)%N with 8%N. lia. }
  rewrite N.lxor_spec in E. by apply Bool.xorb_eq in E.
Qed.

Lemma unchanged_means_no_release c s1 s2 : initial c ->
  (releases s2 (exec s1 c) < 2 ^ 19)%N ->
  v_has_changed (word (exec s1 c).1) (word (exec s2 (exec s1 c)).1) = false ->
  releases s2 (exec s1 c) = 0%N.
Proof.
  intros Hi Hr Hc. destruct (inv_init c Hi) as (o & H & _).
  destruct (inv_exec s1 o c H) as (o1 & H1 & _). destruct (inv_exec s2 o1 _ H1) as (o2 & _ & _ & d & Hd & Hv & _).
  assert (vcnt (word (exec s1 c).1) = vcnt (word (exec s2 (exec s1 c)).1)) as E.
  { destruct (N.eq_dec (vcnt (word (exec s1 c).1)) (vcnt (word (exec s2 (exec s1 c)).1))); [done|].
    rewrite changed_cnt in Hc by done. discriminate. }
  rewrite Hv in E. pose proof (vcnt_lt (word (exec s1 c).1)) as Hb.
  revert Hr Hd E Hb. generalize (releases s2 (exec s1 c)), (vcnt (word (exec s1 c).1)). clear.
  intros r x Hr Hd E Hb. change (2 ^ 19)%N with 524288%N in *. change (2 ^ 25)%N with 33554432%N in *.
  assert (d = 0%N) by lia. lia.
Qed.

(** a locked word is marked as being modified *)
Lemma inv_dirty o c : inv o c -> locked c = true -> v_is_dirty (word c.1) = true.
Proof.
  intros [_ H] L. destruct o as [[i h]|].
  - destruct H as (Hn & _ & Hst & _). assert (HW : exists lv, W lv (word c.1)).
    { destruct h as [|lv|lv]; [done|exists lv; apply Hst|exists lv; apply Hst]. }
    destruct HW as (lv & _ & _ & _ & _ & E2 & E & E1). rewrite is_dirty_bits. rewrite <- E1, <- E2. done.
  - destruct H as [H _]. unfold locked, bit in *. congruence.
Qed.
Lemma no_release_stays s : forall c, releases s c = 0%N -> locked c = true -> locked (exec s c) = true.
Proof.
  induction s as [|i s IH]; intros c H L; [done|]. cbn [exec fold_left releases] in *. fold (exec s (thread_step i c)).
  apply IH; [lia|]. rewrite L in H. destruct (locked (thread_step i c)); [done|]. cbn in H. lia.
Qed.
Lemma releases_app s1 s2 : forall c, releases (s1 ++ s2) c = (releases s1 c + releases s2 (exec s1 c))%N.
Proof.
  induction s1 as [|i s1 IH]; intros c; [done|]. cbn [app releases exec fold_left]. rewrite IH. fold (exec s1 (thread_step i c)). lia.
Qed.
Lemma exec_app s1 s2 (c : config) : exec (s1 ++ s2) c = exec s2 (exec s1 c).
Proof. unfold exec. apply fold_left_app. Qed.
Lemma unchanged_unlocked_all_along c s1 s2 s3 : initial c ->
  (releases (s2 ++ s3) (exec s1 c) < 2 ^ 19)%N ->
  v_has_changed_or_locked (word (exec s1 c).1) (word (exec (s2 ++ s3) (exec s1 c)).1) = false ->
  locked (exec s2 (exec s1 c)) = false /\ inside (exec s2 (exec s1 c)).1 = 0.
Proof.
  intros Hi Hr Hc. unfold v_has_changed_or_locked in Hc. apply orb_false_iff in Hc as [Hc Hd].
  pose proof (unchanged_means_no_release _ _ _ Hi Hr Hc) as H0. rewrite releases_app in H0.
  destruct (inv_init c Hi) as (o & H & _). destruct (inv_exec s1 o c H) as (o1 & H1 & _). destruct (inv_exec s2 o1 _ H1) as (o2 & H2 & _).
  assert (L : locked (exec s2 (exec s1 c)) = false).
  { destruct (locked (exec s2 (exec s1 c))) eqn:E; [|done]. apply (no_release_stays s3) in E; [|lia]. rewrite <- exec_app in E.
    destruct (inv_exec (s2 ++ s3) o1 _ H1) as (o3 & H3 & _). rewrite (inv_dirty _ _ H3 E) in Hd. done. }
  split; [done|]. rewrite (inv_locked _ _ H2) in L. destruct o2 as [[]|]; [done|]. apply H2.
Qed.

Lemma split_cnt a b : v_has_split a b = false -> (vcnt a / 64 = vcnt b / 64)%N.
Proof.
  unfold v_has_split. intros H%N.leb_gt. change (2 ^ 9)%N with 512%N.
  apply N.bits_inj. intros k. change 64%N with (2 ^ 6)%N. rewrite !N.div_pow2_bits.
  destruct (N.lt_ge_cases (k + 6) 25) as [Hk|Hk]; [|by rewrite !vcnt_bit_high].
  rewrite !vcnt_bit by done. unfold bit.
  assert (E : N.testbit (N.lxor a b) (k + 6 + 3) = false).
  { destruct (N.eq_0_gt_0_cases (N.lxor a b)) as [->|]; [apply N.bits_0|].
    apply N.bits_above_log2. apply N.lt_le_trans with 9%N; [|lia]. apply N.log2_lt_pow2; [done|]. exact H. }
  rewrite N.lxor_spec in E. by apply Bool.xorb_eq in E.
Qed.
Lemma no_split_means_no_split_release c s1 s2 : initial c ->
  (releases s2 (exec s1 c) < 2 ^ 19)%N ->
  v_has_split (word (exec s1 c).1) (word (exec s2 (exec s1 c)).1) = false ->
  split_releases s2 (exec s1 c) = 0%N.
Proof.
  intros Hi Hr Hc%split_cnt. destruct (inv_init c Hi) as (o & H & _).
  destruct (inv_exec s1 o c H) as (o1 & H1 & _). destruct (inv_exec s2 o1 _ H1) as (o2 & _ & _ & d & Hd & Hv & Hs).
  rewrite Hv in Hc. pose proof (vcnt_lt (word (exec s1 c).1)) as Hb.
  revert Hr Hd Hc Hb Hs. generalize (releases s2 (exec s1 c)), (split_releases s2 (exec s1 c)), (vcnt (word (exec s1 c).1)). clear.
  intros r sp x Hr Hd E Hb Hs. change (2 ^ 19)%N with 524288%N in *. change (2 ^ 25)%N with 33554432%N in *.
  destruct (N.lt_ge_cases (x + d) 33554432) as [Hlt|Hge].
  - rewrite N.mod_small in E by done. lia.
  - exfalso. assert (Em : ((x + d) mod 33554432 = x + d - 33554432)%N).
    { symmetry. apply (N.mod_unique _ _ 1); lia. }
    rewrite Em in E. assert (x + d - 33554432 + 64 <= x)%N by lia.
    assert ((x + d - 33554432) / 64 < x / 64)%N; [|lia].
    apply N.lt_le_trans with ((x + d - 33554432 + 1 * 64) / 64)%N.
    + rewrite N.div_add by discriminate. lia.
    + apply N.div_le_mono; [discriminate|lia].
Qed.

(** ** C21: running alone *)
Lemma run_bind {M A B} (p : prog M A) (q : A -> prog M B) : forall m,
  run (bind p q) m = match run p m with Ok (a, m') => run (q a) m' | Er e => Er e end.
Proof.
  induction p as [a|e|R f k IH]; intros m; cbn; [done|done|]. destruct (f m) as [[r m']|]; [apply IH|done].
Qed.

Definition gw (g : gop) (lv : N) : N :=
  match g with
  | GInsert => N.lor lv INSERTING_BIT
  | GSplit => N.lor lv SPLITTING_BIT
  | GDeleted => N.lor (N.lor lv DELETED_BIT) SPLITTING_BIT
  | GNonroot => v_mark_nonroot lv
  end.
(** a held word *)
Definition hw (w : N) : Prop := vok w /\ bit w 0 = true /\ bit w 1 = true.
Lemma gw_fields g w : hw w -> hw (gw g w) /\ bit (gw g w) 31 = bit w 31 /\
  bit (gw g w) 29 = bit w 29 || gop_deletes g /\
  (negb (bit (gw g w) 2) && bit (gw g w) 30) = (negb (bit w 2) && bit w 30) && negb (gop_clears_root g).
Proof.
  intros (V & L & I).
  assert (vok (gw g w)).
  { destruct g; cbn [gw]; first [by apply vok_mark_nonroot | apply vok_lor; [try apply vok_lor; try done|]; by apply vok_const]. }
  unfold hw. destruct g; cbn [gw gop_deletes gop_clears_root negb] in *; ands; try done;
  unfold v_mark_nonroot; vbits; rewrite ?L, ?I, ?andb_false_r, ?andb_true_r; done.
Qed.
Lemma run_gop_alone g w n : bit w 1 = true ->
  run (run_gop g w) (mk_vmem w n) = Ok (gw g w, mk_vmem (gw g w) n).
Proof.
  intros I. destruct g; cbn [run_gop gw]; try done.
  unfold guard_mark_insert. rewrite is_inserting_bit, I. cbn.
  replace (N.lor w INSERTING_BIT) with w; [done|].
  apply N.bits_inj. intros k. rewrite N.lor_spec. change INSERTING_BIT with (2 ^ 1)%N.
  destruct (N.eq_dec k 1) as [->|Hne].
  - unfold bit in I. by rewrite I.
  - rewrite N.pow2_bits_false by congruence. by rewrite orb_false_r.
Qed.
Lemma run_gops_alone l : forall w n, hw w ->
  exists w', run (run_gops l w) (mk_vmem w n) = Ok (w', mk_vmem w' n) /\ hw w' /\
    bit w' 31 = bit w 31 /\ bit w' 29 = bit w 29 || existsb gop_deletes l /\
    (negb (bit w' 2) && bit w' 30) = (negb (bit w 2) && bit w 30) && negb (existsb gop_clears_root l).
Proof.
  induction l as [|g l IH]; intros w n Hw.
  - exists w. cbn [existsb negb]. rewrite orb_false_r, andb_true_r. ands; try done; apply Hw.
  - cbn [run_gops]. rewrite run_bind, run_gop_alone by apply Hw.
    destruct (gw_fields g w Hw) as (H1 & H2 & H3 & H4).
    destruct (IH (gw g w) n H1) as (w' & R & G1 & G2 & G3 & G4). exists w'.
    split; [done|]. split; [done|]. split; [congruence|]. cbn [existsb]. split.
    + rewrite G3, H3. by rewrite orb_assoc.
    + rewrite G4, H4, negb_orb. by rewrite andb_assoc.
Qed.
(** a clean unlocked word *)
Definition clean (w : N) : Prop := vok w /\ bit w 0 = false /\ bit w 1 = false /\ bit w 2 = false.
Lemma clean_can_lock w : clean w -> v_can_lock w = true.
Proof. intros (_ & A & B & C). rewrite can_lock_bits, A, B, C. done. Qed.
Lemma clean_not_dirty w : clean w -> v_is_dirty w = false.
Proof. intros (_ & A & B & C). rewrite is_dirty_bits, B, C. done. Qed.
Lemma locked_hw w : clean w -> hw (v_locked w) /\ bit (v_locked w) 31 = bit w 31 /\
  bit (v_locked w) 29 = bit w 29 /\ bit (v_locked w) 30 = bit w 30 /\ bit (v_locked w) 2 = false.
Proof.
  intros (V & A & B & C). destruct (locked_W w V) as (V' & _).
  unfold hw. ands; try done; unfold v_locked; vbits; done.
Qed.
Lemma run_lock_alone F w n : clean w ->
  run (ver_lock vrd vwr (S F)) (mk_vmem w n) = Ok (v_locked w, mk_vmem (v_locked w) n).
Proof.
  intros H. cbn [ver_lock]. rewrite run_bind. cbn -[v_can_lock v_locked]. rewrite clean_can_lock by done.
  cbn -[v_locked]. rewrite N.eqb_refl. done.
Qed.
Lemma run_section_alone l w n : clean w ->
  exists w', run (section (v_locked w) l) (mk_vmem (v_locked w) n) = Ok (tt, mk_vmem w' n) /\ clean w' /\
    bit w' 31 = bit w 31 /\ bit w' 29 = bit w 29 || existsb gop_deletes l /\
    bit w' 30 = bit w 30 && negb (existsb gop_clears_root l).
Proof.
  intros H. destruct (locked_hw w H) as (H1 & H2 & H3 & H4 & H5).
  destruct (run_gops_alone l _ (n + 1) H1) as (w1 & R & G1 & G2 & G3 & G4).
  destruct (unlock_fields w1) as (U0 & U1 & U2 & U3 & U4 & U5 & U6 & U7); [apply G1|].
  exists (v_unlock w1). unfold section. split; [|split; [|split; [|split]]].
  - change (run (enter ;;; (lv' <- run_gops l (v_locked w) ;; leave ;;; guard_drop vrd vwr lv'))
              (mk_vmem (v_locked w) n)) with
      (run (lv' <- run_gops l (v_locked w) ;; leave ;;; guard_drop vrd vwr lv') (mk_vmem (v_locked w) (n + 1))).
    rewrite run_bind, R. cbn -[v_unlock]. unfold vwr. cbn -[v_unlock]. by rewrite Nat.add_sub.
  - done.
  - congruence.
  - congruence.
  - rewrite U6, G4, H4, H5. done.
Qed.
Lemma run_vop_alone F o w n : clean w -> exists w',
  run (run_vop (S F) o) (mk_vmem w n) = Ok (tt, mk_vmem w' n) /\ clean w' /\
  bit w' 31 = bit w 31 /\ bit w' 29 = bit w 29 || vop_deletes o /\ bit w' 30 = vop_root (bit w 30) o.
Proof.
  intros H. pose proof H as (V & A & B & C).
  destruct o as [l|l| | old | old | | |l|k l|old]; cbn [run_vop vop_deletes vop_root]; rewrite ?orb_false_r.
  - rewrite run_bind, run_lock_alone by done. by apply run_section_alone.
  - unfold ver_try_lock. rewrite !run_bind. cbn -[v_can_lock v_locked section].
    rewrite clean_can_lock by done. cbn -[v_locked section]. rewrite N.eqb_refl. by apply run_section_alone.
  - exists w. cbn -[v_is_dirty]. rewrite clean_not_dirty by done. done.
  - exists w. done.
  - exists w. done.
  - exists (v_mark_root w). unfold v_mark_root, clean. split; [done|].
    assert (vok (N.lor w ROOT_BIT)) by (by apply vok_lor, vok_const).
    ands; try done; vbits; done.
  - exists (v_mark_nonroot w). unfold clean. split; [done|].
    assert (vok (v_mark_nonroot w)) by (by apply vok_mark_nonroot). unfold v_mark_nonroot in *.
    ands; try done; vbits; done.
  - cbn [ver_lock_with_yield]. unfold ver_try_lock. rewrite !run_bind. cbn -[v_can_lock v_locked section].
    rewrite clean_can_lock by done. cbn -[v_locked section]. rewrite N.eqb_refl. by apply run_section_alone.
  - destruct k as [|k]; cbn [ver_try_lock_for]; unfold ver_try_lock; rewrite !run_bind; cbn -[v_can_lock v_locked section];
      rewrite clean_can_lock by done; cbn -[v_locked section]; rewrite N.eqb_refl; by apply run_section_alone.
  - exists w. done.
Qed.
Lemma run_script_alone F l : forall w n, clean w -> exists w',
  run (run_script (S F) l) (mk_vmem w n) = Ok (tt, mk_vmem w' n) /\ clean w' /\
  bit w' 31 = bit w 31 /\ bit w' 29 = bit w 29 || existsb vop_deletes l /\
  bit w' 30 = fold_left vop_root l (bit w 30).
Proof.
  induction l as [|o l IH]; intros w n H.
  - exists w. cbn [existsb fold_left]. rewrite orb_false_r. done.
  - destruct (run_vop_alone F o w n H) as (w1 & R & H1 & H2 & H3 & H4).
    destruct (IH w1 n H1) as (w' & R' & G1 & G2 & G3 & G4). exists w'.
    cbn [run_script]. rewrite run_bind, R. split; [done|]. split; [done|]. split; [congruence|].
    cbn [existsb fold_left]. split; [by rewrite G3, H3, orb_assoc|congruence].
Qed.
Lemma new_clean b : clean (v_new b) /\ bit (v_new b) 31 = b /\ bit (v_new b) 29 = false /\ bit (v_new b) 30 = false.
Proof. destruct b; unfold clean, vok; repeat split; reflexivity. Qed.
Lemma flags_survive F b l : exists w,
  run (run_script (S F) l) (mk_vmem (v_new b) 0) = Ok (tt, mk_vmem w 0) /\
  v_is_leaf w = b /\ v_is_deleted w = existsb vop_deletes l /\
  v_is_root w = fold_left vop_root l false /\
  v_is_locked w = false /\ v_is_dirty w = false /\
  forall gs, exists lv m, run (lv <- ver_lock vrd vwr (S F) ;; run_gops gs lv) (mk_vmem w 0) = Ok (lv, m) /\
    (lv + VSPLIT_LOWBIT < 2 ^ 32)%N.
Proof.
  destruct (new_clean b) as (H & H1 & H2 & H3).
  destruct (run_script_alone F l (v_new b) 0 H) as (w & R & G1 & G2 & G3 & G4).
  exists w. rewrite is_leaf_bit, is_deleted_bit, is_root_bit, is_locked_bit.
  split; [done|]. split; [congruence|]. split; [by rewrite G3, H2|]. split; [by rewrite G4, H3|].
  split; [apply G1|]. split; [by apply clean_not_dirty|].
  intros gs. destruct (locked_hw w G1) as (L1 & _).
  destruct (run_gops_alone gs _ 0 L1) as (lv & R' & Hlv & _). exists lv, (mk_vmem lv 0).
  rewrite run_bind, run_lock_alone by done. split; [done|].
  apply (vok_add lv 64); [apply Hlv|lia].
Qed.
