(** Concurrent replacement of values: the shape of the tree does not change, so what a thread
    has learnt about it stays true.  Worlds, interference, and what every read sees. *)
From Verif Require Import Base Perm PermFacts PermList PermLaws SpecPerm Key SpecKey KeyFacts Suffix SpecSuffix SuffixFacts Prog Version VersionFacts Mem Tree
  SpecTree SpecLin SpecConc TreeState TreePrim TreeInv TreeRead TreeSplit TreeSkel TreeInode TreeProp TreeLeaf TreeContent TreeInsert TreeTop.

(** ** trees that differ only in locks and in the values stored *)
Definition sslot (x y : slot) : Prop :=
  s_ik y = s_ik x /\ s_kx y = s_kx x /\ s_sf y = s_sf x /\ (s_kx x = LAYER_KEYLENX -> s_ptr y = s_ptr x).
Record sleaf (L L' : lbody) : Prop := {
  sl_perm : lb_perm L' = lb_perm L; sl_sl : Forall2 sslot (lb_sl L) (lb_sl L');
  sl_bg : lb_bg L' = lb_bg L; sl_bud : lb_bud L' = lb_bud L; sl_nx : lb_nx L' = lb_nx L; sl_pv : lb_pv L' = lb_pv L }.
Definition snod (n n' : anode) : Prop :=
  a_gh n' = a_gh n /\ a_rt n' = a_rt n /\ a_pa n' = a_pa n /\
  match a_bd n, a_bd n' with BLeaf L, BLeaf L' => sleaf L L' | BInode J, BInode J' => J' = J | _, _ => False end.
Definition same (A A' : gmap N anode) : Prop := forall p,
  match A !! p, A' !! p with Some n, Some n' => snod n n' | None, None => True | _, _ => False end.

Lemma sslot_refl x : sslot x x. Proof. done. Qed.
Lemma sslot_trans x y z : sslot x y -> sslot y z -> sslot x z.
Proof.
  intros (A1 & A2 & A3 & A4) (B1 & B2 & B3 & B4). split; [congruence|]. split; [congruence|]. split; [congruence|].
  intros H. rewrite B4, A4; congruence.
Qed.
Lemma sslot_sym x y : sslot x y -> sslot y x.
Proof. intros (A1 & A2 & A3 & A4). repeat (split; [done|]). intros H. symmetry. apply A4. congruence. Qed.
Lemma sleaf_refl L : sleaf L L.
Proof. split; try done. by apply Reflexive_instance_0. Qed.
Lemma sleaf_trans L1 L2 L3 : sleaf L1 L2 -> sleaf L2 L3 -> sleaf L1 L3.
Proof.
  intros [] []. split; try congruence. eapply Forall2_transitive; [|done|done]. intros; by eapply sslot_trans.
Qed.
Lemma sleaf_sym L L' : sleaf L L' -> sleaf L' L.
Proof. intros []. split; try done. apply Forall2_flip. eapply Forall2_impl; [done|]. intros. by apply sslot_sym. Qed.
Lemma snod_refl n : snod n n.
Proof. repeat (split; [done|]). destruct (a_bd n); [apply sleaf_refl|done]. Qed.
Lemma same_refl A : same A A.
Proof. intros p. destruct (A !! p); [apply snod_refl|done]. Qed.
Lemma snod_trans a b c : snod a b -> snod b c -> snod a c.
Proof.
  intros (A1 & A2 & A3 & A4) (B1 & B2 & B3 & B4). split; [congruence|]. split; [congruence|]. split; [congruence|].
  destruct (a_bd a), (a_bd b), (a_bd c); try done; [by eapply sleaf_trans|congruence].
Qed.
Lemma snod_sym a b : snod a b -> snod b a.
Proof.
  intros (A1 & A2 & A3 & A4). repeat (split; [done|]). destruct (a_bd a), (a_bd b); try done. by apply sleaf_sym.
Qed.
Lemma same_trans A B C : same A B -> same B C -> same A C.
Proof.
  intros H1 H2 p. specialize (H1 p). specialize (H2 p). destruct (A !! p), (B !! p), (C !! p); try done. by eapply snod_trans.
Qed.
Lemma same_sym A B : same A B -> same B A.
Proof. intros H p. specialize (H p). destruct (A !! p), (B !! p); try done. by apply snod_sym. Qed.
Lemma same_set A p n n' : A !! p = Some n -> snod n n' -> same A (<[p := n']> A).
Proof.
  intros Hp Hn q. destruct (decide (q = p)) as [->|]; [by rewrite lookup_insert, Hp|]. rewrite lookup_insert_ne by done.
  destruct (A !! q); [apply snod_refl|done].
Qed.
Lemma same_node A A' p n : same A A' -> A !! p = Some n -> exists n', A' !! p = Some n' /\ snod n n'.
Proof. intros H Hp. specialize (H p). rewrite Hp in H. destruct (A' !! p); [eauto|done]. Qed.
Lemma same_leaf A A' p g md rt pa L : same A A' -> A !! p = Some (LF g md rt pa L) ->
  exists md' L', A' !! p = Some (LF g md' rt pa L') /\ sleaf L L'.
Proof.
  intros H Hp. destruct (same_node _ _ _ _ H Hp) as ([g' md' rt' pa' [L'|J']] & Hq & E1 & E2 & E3 & E4); cbn in *; [|done].
  subst. eauto.
Qed.
Lemma same_inode A A' p g md rt pa J : same A A' -> A !! p = Some (ND g md rt pa J) ->
  exists md', A' !! p = Some (ND g md' rt pa J).
Proof.
  intros H Hp. destruct (same_node _ _ _ _ H Hp) as ([g' md' rt' pa' [L'|J']] & Hq & E1 & E2 & E3 & E4); cbn in *; [done|].
  subst. eauto.
Qed.
Lemma sleaf_slot L L' i x : sleaf L L' -> lb_sl L !! i = Some x -> exists y, lb_sl L' !! i = Some y /\ sslot x y.
Proof. intros [] H. by eapply Forall2_lookup_l. Qed.
Lemma sleaf_ids L L' : sleaf L L' -> ids L' = ids L.
Proof. intros []. unfold ids. congruence. Qed.
Lemma sleaf_ent L L' i : sleaf L L' -> sslot (ent L i) (ent L' i).
Proof.
  intros H. unfold ent. destruct (lb_sl L !! i) as [x|] eqn:E.
  - destruct (sleaf_slot _ _ _ _ H E) as (y & Ey & Hs). by rewrite !nth_lookup, E, Ey.
  - destruct H as [_ Hl _ _ _ _]. rewrite !nth_lookup, E. apply lookup_ge_None in E. rewrite (Forall2_length _ _ _ Hl) in E.
    apply lookup_ge_None in E. rewrite E. apply sslot_refl.
Qed.
Lemma sleaf_es L L' x : sleaf L L' -> x ∈ es L -> exists y, y ∈ es L' /\ sslot x y.
Proof.
  intros H Hx. unfold es in Hx. apply elem_of_list_fmap in Hx as (i & -> & Hi). exists (ent L' i). split; [|by apply sleaf_ent].
  unfold es. apply elem_of_list_fmap_1. by rewrite (sleaf_ids _ _ H).
Qed.
Lemma same_entry A A' l e : same A A' -> entry A l e -> exists e', entry A' l e' /\ sslot e e'.
Proof.
  intros H (p & g & md & rt & pa & L & Hp & Hl & He). destruct (same_leaf _ _ _ _ _ _ _ _ H Hp) as (md' & L' & Hp' & HL).
  destruct (sleaf_es _ _ _ HL He) as (e' & He' & Hs). exists e'. split; [|done]. exists p, g, md', rt, pa, L'. done.
Qed.
Lemma same_rest x y r : sslot x y -> rest_of x r -> rest_of y r.
Proof. intros (E1 & E2 & E3 & _) (R1 & R2 & R3). split; [done|]. split; [congruence|]. rewrite E2, E3. done. Qed.
Lemma same_hit x y r : sslot x y -> hit r x -> hit r y.
Proof.
  intros Hs [H1 H2]. pose proof Hs as (E1 & E2 & E3 & _). split; [congruence|]. destruct H2 as [H2|[H2 H3]]; [left; by eapply same_rest|right].
  split; [congruence|done].
Qed.
Lemma layer_same x y : sslot x y -> s_kx x = LAYER_KEYLENX -> y = x.
Proof. intros (E1 & E2 & E3 & E4) H. specialize (E4 H). destruct x, y. cbn in *. congruence. Qed.
Lemma same_path A A' k l d : same A A' -> path A k l d -> path A' k l d.
Proof.
  intros H. induction 1 as [|l d e n Hp IH H1 H2 H3 H4 H5]; [constructor|].
  destruct (same_entry _ _ _ _ H H1) as (e' & He' & Hs). assert (e' = e) as -> by (by apply layer_same).
  destruct (same_node _ _ _ _ H H5) as (n' & Hn' & Eg & _). rewrite <- Eg. by eapply p_down.
Qed.
Lemma same_reaches A A' k l d h : same A A' -> reaches A k l d h -> exists h', reaches A' k l d h'.
Proof.
  intros H. induction 1 as [l d e H1 H2 H3|l d e n h H1 H2 H3 H4 H5 H6 IH]; destruct (same_entry _ _ _ _ H H1) as (e' & He' & Hs).
  - exists (s_ptr e'). apply r_here; [done|destruct Hs as (_ & -> & _); done|by eapply same_rest].
  - assert (e' = e) as -> by (by apply layer_same). destruct (same_node _ _ _ _ H H5) as (n' & Hn' & Eg & _). destruct IH as [h' IH]. exists h'.
    eapply r_down; [done|done|done|done|done|by rewrite Eg].
Qed.
Lemma same_dead A A' : same A A' -> NoDead A -> NoDead A'.
Proof.
  intros H HN p g md rt pa L e Hp He. destruct (same_leaf _ _ _ _ _ _ _ _ (same_sym _ _ H) Hp) as (md' & L' & Hp' & HL).
  destruct (sleaf_es _ _ _ HL He) as (e' & He' & E & _). rewrite <- E. by eapply HN.
Qed.
Lemma same_skels A A' : same A A' -> skels A' = skels A.
Proof.
  intros H. apply map_eq. intros p. unfold skels. rewrite !lookup_fmap. specialize (H p). destruct (A !! p) as [n|], (A' !! p) as [n'|]; try done.
  cbn. f_equal. destruct H as (E1 & E2 & E3 & E4). unfold skel. rewrite E1, E2, E3. f_equal.
  destruct (a_bd n), (a_bd n'); try done; [destruct E4; congruence|congruence].
Qed.

(** ** worlds: the memory, what it stands for, who holds which leaf's lock, the handles
    threads hold, the calls each retired object has to outlive, the threads inside a call,
    and the map *)
Record world := mk_w { wm : mem; ws : ast; wow : gmap N nat; wfl : list (nat * N); wbk : list (list nat); wact : list nat; wmu : gmap bytes N }.

Section U.
Context (K : bytes -> N -> Prop) (B : N) (mb : mem) (sb : ast) (mu0 : gmap bytes N).

Record WInv (w : world) : Prop := {
  wi_st : St (wm w) (ws w);
  wi_in : Inv K B (ws w) 0 0;
  wi_same : same (sA sb) (sA (ws w));
  wi_R : sR (ws w) = sR sb; wi_C : sC (ws w) = sC sb; wi_fn : sfn (ws w) = [];
  wi_fl : sfv (ws w) = map snd (wfl w);
  wi_md : forall p n, sA (ws w) !! p = Some n -> a_md n = if wow w !! p then MIns else MFree;
  wi_bk : length (wbk w) = length (retired (wm w));
  wi_mu : forall k x, is_bytes k -> maps (ws w) k x <-> wmu w !! k = Some x;
  wi_dom : dom (wmu w) = dom mu0 }.

(** the handle [h] cannot be freed while thread [i] is in its call *)
Definition live (i : nat) (h : N) (w : world) : Prop :=
  h ∈ vrefs (sA (ws w)) ++ sfv (ws w) \/ exists n blk, retired (wm w) !! n = Some (GVal h) /\ wbk w !! n = Some blk /\ i ∈ blk.
(** what threads other than [i] may do *)
Record Rely (i : nat) (w w' : world) : Prop := {
  rl_ow : forall p, wow w !! p = Some i <-> wow w' !! p = Some i;
  rl_an : forall p, wow w !! p = Some i -> sA (ws w') !! p = sA (ws w) !! p;
  rl_fl : forall h, (i, h) ∈ wfl w <-> (i, h) ∈ wfl w';
  rl_act : i ∈ wact w <-> i ∈ wact w';
  rl_live : i ∈ wact w -> forall h v, live i h w -> sV (ws w) !! h = Some v -> live i h w' /\ sV (ws w') !! h = Some v }.
Lemma rely_refl i w : Rely i w w. Proof. by split. Qed.
Lemma rely_trans i w1 w2 w3 : Rely i w1 w2 -> Rely i w2 w3 -> Rely i w1 w3.
Proof.
  intros [A1 A2 A3 A4 A5] [B1 B2 B3 B4 B5]. split.
  - intros p. by rewrite A1.
  - intros p Hp. rewrite B2 by (by apply A1). by apply A2.
  - intros h. by rewrite A3.
  - by rewrite A4.
  - intros Ha h v Hl Hv. destruct (A5 Ha h v Hl Hv). apply B5; [by apply A4|done|done].
Qed.
Definition Guar (i : nat) (w w' : world) : Prop := forall j, j <> i -> Rely j w w'.

(** the places a call may be in after a step that took the map from [mu] to [mu'] *)
Definition after (O : status -> Prop) (mu mu' : gmap bytes N) (s : status) : Prop :=
  (O s /\ mu' = mu) \/ exists o a, O (Pending o) /\ map_step mu o = (a, mu') /\ s = Done a.
(** the bookkeeping of the collector *)
Definition stamped (w1 w2 : world) : Prop :=
  wact w2 = wact w1 /\ wbk w2 = replicate (length (retired (wm w2)) - length (wbk w1)) (wact w1) ++ wbk w1.

(** thread [i] holds no lock and no handle of its own *)
Definition bare (i : nat) (w : world) : Prop := (forall q, wow w !! q <> Some i) /\ forall x, (i, x) ∉ wfl w.
Lemma bare_rely i w w' : Rely i w w' -> bare i w -> bare i w'.
Proof. intros HR [H1 H2]. split; [intros q Hq; by apply (rl_ow _ _ _ HR), H1 in Hq|intros x Hx; by apply (rl_fl _ _ _ HR), H2 in Hx]. Qed.

Fixpoint cwp {A} (i : nat) (p : P A) (w : world) (O : status -> Prop) (Q : A -> world -> (status -> Prop) -> Prop) : Prop :=
  match p with
  | Ret a => Q a w O
  | Fail e => e = Fuel /\ bare i w
  | Step f k => forall w1, Rely i w w1 -> WInv w1 -> i ∈ wact w1 -> exists r w2,
      f (wm w1) = Ok (r, wm w2) /\ WInv w2 /\ Guar i w1 w2 /\ stamped w1 w2 /\
      (exists s, after O (wmu w1) (wmu w2) s) /\ cwp i (k r) w2 (after O (wmu w1) (wmu w2)) Q
  end.
Lemma cwp_bind {A C} i (p : P A) (f : A -> P C) w O Q :
  cwp i p w O (fun a w O => cwp i (f a) w O Q) -> cwp i (bind p f) w O Q.
Proof.
  revert w O. induction p as [a|e|R g k IH]; intros w O; cbn; [done..|].
  intros H w1 HR HI Ha. destruct (H w1 HR HI Ha) as (r & w2 & H1 & H2 & H3 & H4 & H5 & H6).
  exists r, w2. repeat (split; [done|]). by apply IH.
Qed.
Lemma cwp_mono {A} i (p : P A) w O (Q Q' : A -> world -> (status -> Prop) -> Prop) :
  cwp i p w O Q -> (forall a w O, Q a w O -> Q' a w O) -> cwp i p w O Q'.
Proof.
  intros H HQ. revert w O H. induction p as [a|e|R g k IH]; intros w O; cbn; [by apply HQ|done|].
  intros H w1 HR HI Ha. destruct (H w1 HR HI Ha) as (r & w2 & H1 & H2 & H3 & H4 & H5 & H6).
  exists r, w2. repeat (split; [done|]). by apply IH.
Qed.
Lemma cwp_ret {A} i (a : A) w O (Q : A -> world -> (status -> Prop) -> Prop) : Q a w O -> cwp i (Ret a) w O Q.
Proof. done. Qed.
Lemma stamped_refl w : WInv w -> stamped w w.
Proof. intros H. split; [done|]. by rewrite (wi_bk _ H), Nat.sub_diag. Qed.

(** ** reading *)
Context (i : nat) (o : op) (bb : bool).
(** a program that only reads, run by thread [i] during its call [o]: [Φ] holds at the end;
    [O'] extends [O] by the effects the call may have had meanwhile.  With [bb] it may be cut short, and
    so it must not hold anything *)
Definition reads {A} (p : P A) (w : world) (O : status -> Prop) (Φ : A -> world -> (status -> Prop) -> Prop) : Prop :=
  WInv w -> (bb = true -> bare i w) -> O (Pending o) -> forall Q : A -> world -> (status -> Prop) -> Prop,
  (forall r w' (O' : status -> Prop), Rely i w w' -> WInv w' -> (forall s, O s -> O' s) -> Φ r w' O' -> Q r w' O') -> cwp i p w O Q.

Lemma reads_wp {A} (f : mem -> res (A * mem)) w (O : status -> Prop) (Φ : A -> world -> (status -> Prop) -> Prop) :
  (forall w', Rely i w w' -> WInv w' -> i ∈ wact w' -> wp (atomic f) (wm w') (fun r m' => m' = wm w' /\
     forall O' : status -> Prop, (forall s, O s -> O' s) -> (forall a, map_step (wmu w') o = (a, wmu w') -> O' (Done a)) -> Φ r w' O')) ->
  reads (atomic f) w O Φ.
Proof.
  intros H _ _ Hp Q HQ w1 HR HI Ha. specialize (H w1 HR HI Ha). unfold wp in H. cbn in H.
  destruct (f (wm w1)) as [[r m']|e]; [|done]. destruct H as [-> H]. exists r, w1. split; [done|]. split; [done|].
  split; [intros j _; apply rely_refl|]. split; [by apply stamped_refl|]. split; [eexists; by left|].
  cbn. apply HQ; [done|done|by left|]. apply H; [by left|]. intros a Hst. right. eauto.
Qed.
Lemma reads_bind {A C} (p : P A) (f : A -> P C) w O Φ Ψ :
  reads p w O Φ ->
  (forall r w' (O' : status -> Prop), Rely i w w' -> WInv w' -> (forall s, O s -> O' s) -> Φ r w' O' -> reads (f r) w' O' Ψ) ->
  reads (bind p f) w O Ψ.
Proof.
  intros Hp Hf HI Hb HO Q HQ. apply cwp_bind, Hp; [done|done|done|]. intros r w' O' HR HI' HO' HP.
  apply (Hf r w' O' HR HI' HO' HP); [done|intros Hb'; eapply bare_rely; eauto|by apply HO'|]. intros r2 w2 O2 HR2 HI2 HO2 HP2.
  apply (HQ r2 w2 O2); [by eapply rely_trans|done|auto|done].
Qed.
Lemma reads_ret {A} (a : A) w (O : status -> Prop) (Φ : A -> world -> (status -> Prop) -> Prop) :
  Φ a w O -> reads (Ret a) w O Φ.
Proof. intros H HI _ HO Q HQ. apply (HQ a w O); [apply rely_refl|done..]. Qed.
Lemma reads_fuel {A} w (O : status -> Prop) (Φ : A -> world -> (status -> Prop) -> Prop) : bb = true -> reads (Fail Fuel) w O Φ.
Proof. intros Hb HI Hb' HO Q HQ. split; [done|by apply Hb']. Qed.
Lemma reads_weaken {A} (p : P A) w O (Φ Ψ : A -> world -> (status -> Prop) -> Prop) :
  reads p w O Φ -> (forall r w' (O' : status -> Prop), Rely i w w' -> WInv w' -> (forall s, O s -> O' s) -> Φ r w' O' -> Ψ r w' O') -> reads p w O Ψ.
Proof. intros Hp H HI Hb HO Q HQ. apply Hp; [done|done|done|]. intros. eapply HQ; eauto. Qed.

(** ** what each access sees *)
Local Notation A0 := (sA sb).
Section Leaf.
Context (p : N) (g : ghost) (md : vmode) (rt : bool) (pa : N) (L : lbody) (Hp : A0 !! p = Some (LF g md rt pa L)).
Lemma cur_leaf w : WInv w -> exists md' L', sA (ws w) !! p = Some (LF g md' rt pa L') /\ sleaf L L'.
Proof. intros H. eapply same_leaf; [apply H|exact Hp]. Qed.
Lemma r_ikey j x w O : lb_sl L !! j = Some x -> reads (ikey p j) w O (fun r _ _ => r = s_ik x).
Proof.
  intros Hx. apply reads_wp. intros w' HR HI Ha. destruct (cur_leaf w' HI) as (md' & L' & Hq & HL).
  destruct (sleaf_slot _ _ _ _ HL Hx) as (y & Hy & E & _). eapply (wp_ikey _ _ (wi_st _ HI)); [exact Hq|exact Hy|]. done.
Qed.
Lemma r_keylenx j x w O : lb_sl L !! j = Some x -> reads (keylenx p j) w O (fun r _ _ => r = s_kx x).
Proof.
  intros Hx. apply reads_wp. intros w' HR HI Ha. destruct (cur_leaf w' HI) as (md' & L' & Hq & HL).
  destruct (sleaf_slot _ _ _ _ HL Hx) as (y & Hy & _ & E & _). eapply (wp_keylenx _ _ (wi_st _ HI)); [exact Hq|exact Hy|]. done.
Qed.
Lemma r_val_ptr j x w O : lb_sl L !! j = Some x -> reads (val_ptr p j) w O (fun r w' O' => exists md' L' y,
  sA (ws w') !! p = Some (LF g md' rt pa L') /\ sleaf L L' /\ lb_sl L' !! j = Some y /\ sslot x y /\ r = s_ptr y /\ i ∈ wact w' /\
  forall a, map_step (wmu w') o = (a, wmu w') -> O' (Done a)).
Proof.
  intros Hx. apply reads_wp. intros w' HR HI Ha. destruct (cur_leaf w' HI) as (md' & L' & Hq & HL).
  destruct (sleaf_slot _ _ _ _ HL Hx) as (y & Hy & Hs). eapply (wp_val_ptr _ _ (wi_st _ HI)); [exact Hq|exact Hy|]. split; [done|].
  intros O' _ Hd. exists md', L', y. done.
Qed.
Lemma r_permutation w O : reads (permutation p) w O (fun r _ _ => r = lb_perm L).
Proof.
  apply reads_wp. intros w' HR HI Ha. destruct (cur_leaf w' HI) as (md' & L' & Hq & HL).
  eapply (wp_permutation _ _ (wi_st _ HI)); [exact Hq|]. split; [done|]. intros. apply HL.
Qed.
Lemma r_next_raw w O : reads (next_raw p) w O (fun r _ _ => r = lb_nx L).
Proof.
  apply reads_wp. intros w' HR HI Ha. destruct (cur_leaf w' HI) as (md' & L' & Hq & HL).
  eapply (wp_next_raw _ _ (wi_st _ HI)); [exact Hq|]. split; [done|]. intros. apply HL.
Qed.
Lemma r_leaf_parent w O : reads (leaf_parent p) w O (fun r _ _ => r = pa).
Proof.
  apply reads_wp. intros w' HR HI Ha. destruct (cur_leaf w' HI) as (md' & L' & Hq & HL).
  eapply (wp_leaf_parent _ _ (wi_st _ HI)); [exact Hq|]. split; [done|]. intros. done.
Qed.
Lemma r_ksuf_ptr w O : reads (ksuf_ptr p) w O (fun r _ _ => r = lb_bg L).
Proof.
  apply reads_wp. intros w' HR HI Ha. destruct (cur_leaf w' HI) as (md' & L' & Hq & HL).
  eapply (wp_ksuf_ptr _ _ (wi_st _ HI)); [exact Hq|]. split; [done|]. intros. apply HL.
Qed.
Lemma r_bag {R} j x (f : bag -> res R) (r : R) w O : lb_sl L !! j = Some x -> lb_bg L <> 0%N ->
  (forall bg, bag_get bg j = Ok (s_sf x) -> f bg = Ok r) -> reads (bag_ld (lb_bg L) f) w O (fun r' _ _ => r' = r).
Proof.
  intros Hx Hz Hf. apply reads_wp. intros w' HR HI Ha. destruct (cur_leaf w' HI) as (md' & L' & Hq & HL).
  destruct (sleaf_slot _ _ _ _ HL Hx) as (y & Hy & _ & _ & E & _).
  destruct (St_leaf _ _ _ _ _ _ _ _ (wi_st _ HI) Hq) as (l & H1 & H2 & H3 & H4).
  pose proof (lr_bag _ _ _ H4) as HB. unfold bag_rel in HB. rewrite (sl_bg _ _ HL) in HB. rewrite decide_False in HB by done.
  destruct HB as (bg & mm & E1 & E2 & E3). eapply wp_atomic; [|split; [done|intros; reflexivity]]. cbn beta. rewrite E1.
  rewrite (Hf bg); [done|]. rewrite (bag_get_inv 24 _ _ _ j E2); [by rewrite <- (E3 j y), E|].
  rewrite <- (lr_len _ _ _ H4). by eapply lookup_lt_Some.
Qed.
Lemma bag_none w : WInv w -> lb_bg L = 0%N -> forall j x, lb_sl L !! j = Some x -> s_sf x = None.
Proof.
  intros HI Hz j x Hx. destruct (cur_leaf w HI) as (md' & L' & Hq & HL).
  destruct (sleaf_slot _ _ _ _ HL Hx) as (y & Hy & _ & _ & E & _).
  destruct (St_leaf _ _ _ _ _ _ _ _ (wi_st _ HI) Hq) as (l & H1 & H2 & H3 & H4).
  pose proof (lr_bag _ _ _ H4) as HB. unfold bag_rel in HB. rewrite (sl_bg _ _ HL) in HB. rewrite decide_True in HB by done.
  rewrite <- E. by eapply HB.
Qed.
Lemma r_ksuf j x w O : lb_sl L !! j = Some x -> s_kx x = KSUF_KEYLENX -> reads (ksuf p j) w O (fun r _ _ => r = s_sf x).
Proof.
  intros Hx Hk. unfold ksuf. eapply reads_bind; [by apply r_keylenx|]. intros r w1 O1 _ HI1 _ ->. rewrite Hk, N.eqb_refl.
  eapply reads_bind; [apply r_ksuf_ptr|]. intros r w2 O2 _ HI2 _ ->. destruct (N.eqb_spec (lb_bg L) 0) as [Hz|Hz].
  - apply reads_ret. symmetry. by eapply bag_none.
  - by eapply r_bag.
Qed.
Lemma r_ksuf_equals j x suf w O : lb_sl L !! j = Some x -> s_kx x = KSUF_KEYLENX ->
  reads (ksuf_equals p j suf) w O (fun r _ _ => r = bool_decide (s_sf x = Some suf)).
Proof.
  intros Hx Hk. unfold ksuf_equals. eapply reads_bind; [by apply r_keylenx|]. intros r w1 O1 _ HI1 _ ->. rewrite Hk, N.eqb_refl.
  eapply reads_bind; [apply r_ksuf_ptr|]. intros r w2 O2 _ HI2 _ ->. destruct (N.eqb_spec (lb_bg L) 0) as [Hz|Hz].
  - apply reads_ret. rewrite (bag_none w2 HI2 Hz j x Hx). by rewrite bool_decide_false.
  - eapply r_bag; [done|done|]. intros bg Hg. unfold bag_equals. rewrite Hg. cbn. 
    destruct (s_sf x) as [y|]; cbn; [|by rewrite bool_decide_false]. f_equal. apply bool_decide_ext. split; congruence.
Qed.
End Leaf.
Section Inode.
Context (p : N) (g : ghost) (md : vmode) (rt : bool) (pa : N) (J : ibody) (Hp : A0 !! p = Some (ND g md rt pa J)).
Lemma cur_inode w : WInv w -> exists md', sA (ws w) !! p = Some (ND g md' rt pa J).
Proof. intros H. eapply same_inode; [apply H|exact Hp]. Qed.
Lemma r_nkeys w O : reads (nkeys p) w O (fun r _ _ => r = ib_nk J).
Proof.
  apply reads_wp. intros w' HR HI Ha. destruct (cur_inode w' HI) as (md' & Hq). by eapply (wp_nkeys _ _ (wi_st _ HI)); [exact Hq|].
Qed.
Lemma r_inode_parent w O : reads (inode_parent p) w O (fun r _ _ => r = pa).
Proof.
  apply reads_wp. intros w' HR HI Ha. destruct (cur_inode w' HI) as (md' & Hq). by eapply (wp_inode_parent _ _ (wi_st _ HI)); [exact Hq|].
Qed.
Lemma r_inode_ikey j x w O : ib_ks J !! j = Some x -> reads (inode_ikey p j) w O (fun r _ _ => r = x).
Proof.
  intros Hx. apply reads_wp. intros w' HR HI Ha. destruct (cur_inode w' HI) as (md' & Hq). by eapply (wp_inode_ikey _ _ (wi_st _ HI)); [exact Hq|exact Hx|].
Qed.
Lemma r_child j x w O : ib_cs J !! j = Some x -> reads (child p j) w O (fun r _ _ => r = x).
Proof.
  intros Hx. apply reads_wp. intros w' HR HI Ha. destruct (cur_inode w' HI) as (md' & Hq). by eapply (wp_child _ _ (wi_st _ HI)); [exact Hq|exact Hx|].
Qed.
End Inode.
Section Ver.
Context (p : N) (n : anode) (Hp : A0 !! p = Some n).
Lemma r_version w O : reads (version p) w O (fun r _ _ => exists md', (md' = MFree \/ md' = MIns) /\ vbits r md' (a_rt n) (is_leafb (a_bd n))).
Proof.
  apply reads_wp. intros w' HR HI Ha. destruct (same_node _ _ _ _ (wi_same _ HI) Hp) as ([g md rt pa b] & Hq & E1 & E2 & E3 & E4).
  eapply (wp_version _ _ (wi_st _ HI)); [exact Hq|]. intros v Hv Hb. split; [done|]. intros O' _ _. exists md.
  split; [pose proof (wi_md _ HI _ _ Hq) as Hmd; cbn in Hmd; rewrite Hmd; destruct (wow w' !! p); auto|].
  cbn in E2. rewrite <- E2. cbn in E4. by destruct (a_bd n), b.
Qed.
Lemma r_flag f r w O : (forall v md', md' = MFree \/ md' = MIns -> vbits v md' (a_rt n) (is_leafb (a_bd n)) -> f v = r) ->
  reads (flag p f) w O (fun r' _ _ => r' = r).
Proof.
  intros Hf. unfold flag. eapply reads_bind; [apply r_version|]. intros v w1 O1 _ _ _ (md' & H1 & H2). apply reads_ret. by eapply Hf.
Qed.
Lemma r_flag_leaf w O : reads (flag p v_is_leaf) w O (fun r _ _ => r = is_leafb (a_bd n)).
Proof. apply r_flag. intros v md' _. apply vbits_leaf. Qed.
Lemma r_flag_deleted w O : reads (flag p v_is_deleted) w O (fun r _ _ => r = false).
Proof. apply r_flag. intros v md' _. apply vbits_deleted. Qed.
Lemma r_flag_splitting w O : reads (flag p v_is_splitting) w O (fun r _ _ => r = false).
Proof. apply r_flag. intros v md' Hm Hv. rewrite (vbits_splitting _ _ _ _ Hv). by destruct Hm as [->| ->]. Qed.
Lemma r_flag_any f w O : reads (flag p f) w O (fun _ _ _ => True).
Proof. unfold flag. eapply reads_bind; [apply r_version|]. intros. by apply reads_ret. Qed.
Lemma r_stable F : bb = true -> forall w O, reads (stable F p) w O (fun _ _ _ => True).
Proof.
  intros Hb. induction F as [|F IH]; intros w O; [by apply reads_fuel|]. unfold stable. cbn [ver_stable]. eapply reads_bind; [apply r_version|].
  intros v w1 O1 _ _ _ _. destruct (v_is_dirty v); [apply IH|by apply reads_ret].
Qed.
Lemma r_has_changed old w O : reads (has_changed p old) w O (fun _ _ _ => True).
Proof. eapply reads_bind; [apply r_version|]. intros. by apply reads_ret. Qed.
Lemma r_has_split old w O : reads (has_split p old) w O (fun _ _ _ => True).
Proof. eapply reads_bind; [apply r_version|]. intros. by apply reads_ret. Qed.
End Ver.
Lemma r_load_root w O : reads load_root w O (fun r w' O' => r = sR sb /\ forall a, map_step (wmu w') o = (a, wmu w') -> O' (Done a)).
Proof. apply reads_wp. intros w' HR HI Ha. eapply wp_load_root; [apply HI|]. split; [done|]. intros O' _ Hd. split; [apply HI|done]. Qed.
Lemma r_load_count w O : reads load_count w O (fun r w' O' => r = sC sb /\ forall a, map_step (wmu w') o = (a, wmu w') -> O' (Done a)).
Proof. apply reads_wp. intros w' HR HI Ha. eapply wp_load_count; [apply HI|]. split; [done|]. intros O' _ Hd. split; [apply HI|done]. Qed.
Lemma r_from_raw h v w O : i ∈ wact w -> live i h w -> sV (ws w) !! h = Some v ->
  reads (output_from_raw h) w O (fun r w' _ => r = v).
Proof.
  intros Ha Hl Hv. apply reads_wp. intros w' HR HI _. destruct (rl_live _ _ _ HR Ha h v Hl Hv) as [H1 H2].
  eapply wp_from_raw; [apply HI|exact H2|]. done.
Qed.
End U.
