(** Whole calls and whole single-threaded histories. *)
From Verif Require Import Base Perm PermFacts PermList SpecPerm PermLaws Key SpecKey KeyFacts Suffix SpecSuffix SuffixFacts Prog Version VersionFacts Mem Tree SpecTree TreeState TreePrim TreeInv TreeRead TreeSplit TreeSkel TreeInode TreeProp TreeLeaf TreeContent TreeInsert TreeLayer TreeConv TreeLoop.

(** ** lookups of [get] and [get_ref] are the same programs *)
Inductive peq {M A} : prog M A -> prog M A -> Prop :=
| pe_ret a : peq (Ret a) (Ret a)
| pe_fail e : peq (Fail e) (Fail e)
| pe_step {R} (f : M -> res (R * M)) k k' : (forall r, peq (k r) (k' r)) -> peq (Step f k) (Step f k').
Lemma peq_refl {M A} (p : prog M A) : peq p p.
Proof. induction p; by constructor. Qed.
Lemma peq_bind {M A B} (p q : prog M A) (f g : A -> prog M B) : peq p q -> (forall a, peq (f a) (g a)) -> peq (bind p f) (bind q g).
Proof. induction 1; intros H'; cbn; [done|constructor|constructor; auto]. Qed.
Lemma peq_run {M A} (p q : prog M A) : peq p q -> forall m, run p m = run q m.
Proof. induction 1 as [| |R f k k' H IH]; intros m; cbn; [done..|]. destruct (f m) as [[r m']|]; [apply IH|done]. Qed.
Ltac peqs := repeat first [apply peq_refl | apply peq_bind; [|intros ?] ].
Lemma scan_peq p k l : peq (scan_leaf_ref p k l) (scan_leaf p k l).
Proof.
  induction l as [|s l IH]; cbn [scan_leaf_ref scan_leaf]; [constructor|]. apply peq_bind; [apply peq_refl|]. intros ik. destruct (ik =? k_ikey k)%N; cbn [negb]; [|done].
  apply peq_bind; [apply peq_refl|]. intros kx. apply peq_bind; [apply peq_refl|]. intros ptr.
  destruct (ptr =? 0)%N; [done|]. destruct (kx =? search_keylenx k)%N.
  - apply peq_bind; [apply peq_refl|]. intros [|]; [apply peq_refl|done].
  - destruct (_ && _); [apply peq_refl|done].
Qed.
Lemma get_loop_peq F n : forall k st, peq (get_ref_loop F n k st) (get_loop F n k st).
Proof.
  induction n as [|n IH]; intros k st; cbn [get_ref_loop get_loop]; [constructor|]. destruct st as [r|r p|r p v].
  - peqs. apply IH.
  - peqs. apply IH.
  - apply peq_bind; [apply peq_refl|]. intros [|]; [apply IH|]. apply peq_bind; [apply peq_refl|]. intros perm.
    destruct (is_frozen perm); [peqs; apply IH|]. apply peq_bind; [apply scan_peq|]. intros snap.
    apply peq_bind; [apply peq_refl|]. intros [|].
    + apply peq_bind; [apply peq_refl|]. intros [q v']. destruct (q =? p)%N; apply IH.
    + destruct snap as [[kx ptr]|].
      * destruct (_ <=? _)%N; [apply IH|constructor].
      * apply peq_bind; [apply peq_refl|]. intros [|]; [peqs; apply IH|]. apply peq_bind; [apply peq_refl|]. intros nr.
        destruct (_ && _); [|constructor]. apply peq_bind; [apply peq_refl|]. intros nb. destruct (_ <=? _)%N; [apply IH|constructor].
Qed.
Lemma get_ref_peq F kb : peq (get_ref F kb) (get F kb).
Proof. unfold get_ref, get. destruct (key_new kb); [|constructor]. apply peq_bind; [apply peq_refl|]. intros r. apply peq_bind; [apply get_loop_peq|]. intros o. apply peq_refl. Qed.
Lemma get_ref_run F kb m : run (get_ref F kb) m = run (get F kb) m.
Proof. apply peq_run, get_ref_peq. Qed.

(** ** lookups do not write, in any state and under any interference *)
Inductive ro {M A} : prog M A -> Prop :=
| ro_ret a : ro (Ret a)
| ro_fail e : ro (Fail e)
| ro_step {R} (f : M -> res (R * M)) k : (forall m r m', f m = Ok (r, m') -> m' = m) -> (forall r, ro (k r)) -> ro (Step f k).
Lemma ro_bind {M A B} (p : prog M A) (f : A -> prog M B) : ro p -> (forall a, ro (f a)) -> ro (bind p f).
Proof. induction 1; intros H'; cbn; [done|constructor|constructor; auto]. Qed.
Lemma ro_run {M A} (p : prog M A) : ro p -> forall m r m', run p m = Ok (r, m') -> m' = m.
Proof.
  induction 1 as [| |R f k Hf H IH]; intros m r m'; cbn; [congruence|done|]. destruct (f m) as [[x y]|] eqn:E; [|done].
  intros Hr. rewrite (IH _ _ _ _ Hr). by eapply Hf.
Qed.
Lemma ro_atomic {M R} (f : M -> res (R * M)) : (forall m r m', f m = Ok (r, m') -> m' = m) -> ro (atomic f).
Proof. intros H. constructor; [done|]. intros. constructor. Qed.
Create HintDb ro.
Lemma ro_leaf_ld {R} p (f : leaf -> option R) : ro (leaf_ld p f).
Proof. apply ro_atomic. intros m r m'. destruct (heap m !! p) as [[l|]|]; try done. destruct (f l); congruence. Qed.
Lemma ro_inode_ld {R} p (f : inode -> option R) : ro (inode_ld p f).
Proof. apply ro_atomic. intros m r m'. destruct (heap m !! p) as [[|l]|]; try done. destruct (f l); congruence. Qed.
Lemma ro_bag_ld {R} p (f : bag -> res R) : ro (bag_ld p f).
Proof. apply ro_atomic. intros m r m'. destruct (bags m !! p) as [b|]; try done. destruct (f b); congruence. Qed.
Lemma ro_version p : ro (version p).
Proof. apply ro_atomic. intros m r m'. destruct (rd_ver p m); congruence. Qed.
Lemma ro_from_raw h : ro (output_from_raw h).
Proof. apply ro_atomic. intros m r m'. destruct (vals m !! h); congruence. Qed.
Lemma ro_load_root : ro load_root.
Proof. apply ro_atomic. congruence. Qed.
Lemma ro_load_count : ro load_count.
Proof. apply ro_atomic. congruence. Qed.
Ltac ros := repeat match goal with
  | |- ro (bind _ _) => apply ro_bind; [|intros ?]
  | |- ro (leaf_ld _ _) => apply ro_leaf_ld
  | |- ro (inode_ld _ _) => apply ro_inode_ld
  | |- ro (bag_ld _ _) => apply ro_bag_ld
  | |- ro (version _) => apply ro_version
  | |- ro (output_from_raw _) => apply ro_from_raw
  | |- ro load_root => apply ro_load_root
  | |- ro load_count => apply ro_load_count
  | |- ro (Ret _) => constructor
  | |- ro (Fail _) => constructor
  | |- ro (match ?x with _ => _ end) => destruct x
  | |- ro (if ?x then _ else _) => destruct x
  | |- ro _ => progress cbv zeta
  | H : forall _, ro _ |- ro _ => apply H
  | H : forall _ _, ro _ |- ro _ => apply H
  | H : forall _ _ _, ro _ |- ro _ => apply H
  | H : ro ?x |- ro ?x => exact H
  end.
Lemma ro_flag p f : ro (flag p f). Proof. unfold flag. ros. Qed.
Lemma ro_stable F p : ro (stable F p).
Proof. unfold stable. induction F; cbn [ver_stable]; [constructor|]. apply ro_bind; [apply ro_version|]. intros v. destruct (v_is_dirty v); [done|constructor]. Qed.
Lemma ro_has_changed p v : ro (has_changed p v). Proof. apply ro_bind; [apply ro_version|]. intros. constructor. Qed.
Lemma ro_has_split p v : ro (has_split p v). Proof. apply ro_bind; [apply ro_version|]. intros. constructor. Qed.
Ltac ros' := repeat match goal with
  | |- ro (flag _ _) => apply ro_flag
  | |- ro (stable _ _) => apply ro_stable
  | |- ro (has_changed _ _) => apply ro_has_changed
  | |- ro (has_split _ _) => apply ro_has_split
  | |- ro (next_raw _) => apply ro_leaf_ld
  | |- ro (permutation _) => apply ro_leaf_ld
  | |- ro (ikey _ _) => apply ro_leaf_ld
  | |- ro (ikey_bound _) => apply ro_leaf_ld
  | |- ro (keylenx _ _) => apply ro_leaf_ld
  | |- ro (val_ptr _ _) => apply ro_leaf_ld
  | |- ro (ksuf_ptr _) => apply ro_leaf_ld
  | |- ro (leaf_parent _) => apply ro_leaf_ld
  | |- ro (inode_parent _) => apply ro_inode_ld
  | |- ro (inode_ikey _ _) => apply ro_inode_ld
  | |- ro (child _ _) => apply ro_inode_ld
  | |- ro (nkeys _) => apply ro_inode_ld
  | |- _ => progress ros
  end.
Lemma ro_ksuf_equals p s x : ro (ksuf_equals p s x). Proof. unfold ksuf_equals. ros'. Qed.
Lemma ro_poll k p : ro (poll_unmarked k p). Proof. induction k; cbn [poll_unmarked]; unfold next_is_marked; ros'. Qed.
Lemma ro_wait F k p : ro (wait_rounds F k p).
Proof. induction k; cbn [wait_rounds]; unfold next_is_marked; ros'; try apply ro_poll; ros'. Qed.
Lemma ro_maybe_parent F : forall n, ro (maybe_parent F n). Proof. induction F; intros n; cbn [maybe_parent]; ros'. Qed.
Lemma ro_ub fuel p ik : forall l r, ro (ub_loop fuel p ik l r).
Proof. induction fuel; intros l r; cbn [ub_loop]; ros'. Qed.
Lemma ro_reach F n start ik : forall p, ro (reach_leaf F n start p ik).
Proof. induction n; intros p; cbn [reach_leaf]; unfold upper_bound_internode; ros'; try apply ro_ub; ros'. Qed.
Lemma ro_advance_loop F n ik : forall p v, ro (advance_loop F n p v ik).
Proof. induction n; intros p v; cbn [advance_loop]; unfold wait_for_split; ros'; try apply ro_wait; ros'. Qed.
Lemma ro_advance F p ik v : ro (advance_to_key F p ik v).
Proof. unfold advance_to_key. ros'; try apply ro_advance_loop; ros'. Qed.
Lemma ro_scan p k l : ro (scan_leaf p k l).
Proof. induction l; cbn [scan_leaf]; ros'; try apply ro_ksuf_equals; ros'. Qed.
Lemma ro_get_loop F n : forall k st, ro (get_loop F n k st).
Proof.
  induction n as [|n IH]; intros k st; cbn [get_loop]; [constructor|]. destruct st as [r|r p|r p v].
  - apply ro_bind; [apply ro_maybe_parent|]. intros. apply ro_bind; [apply ro_reach|]. intros. apply IH.
  - ros'.
  - apply ro_bind; [apply ro_flag|]. intros [|]; [apply IH|]. ros'; try apply ro_scan; ros'; try apply ro_advance; ros'.
Qed.
Lemma ro_get F kb : ro (get F kb).
Proof. unfold get. ros'. apply ro_get_loop. Qed.
Lemma ro_scan_ref p k l : ro (scan_leaf_ref p k l).
Proof. induction l; cbn [scan_leaf_ref]; ros'; try apply ro_ksuf_equals; ros'. Qed.
Lemma ro_get_ref_loop F n : forall k st, ro (get_ref_loop F n k st).
Proof.
  induction n as [|n IH]; intros k st; cbn [get_ref_loop]; [constructor|]. destruct st as [r|r p|r p v].
  - apply ro_bind; [apply ro_maybe_parent|]. intros. apply ro_bind; [apply ro_reach|]. intros. apply IH.
  - ros'.
  - apply ro_bind; [apply ro_flag|]. intros [|]; [apply IH|]. ros'; try apply ro_scan_ref; ros'; try apply ro_advance; ros'.
Qed.
Lemma ro_get_ref F kb : ro (get_ref F kb).
Proof. unfold get_ref. ros'. apply ro_get_ref_loop. Qed.

(** ** a new tree *)
Definition L0 : lbody := mk_lbody perm_empty (repeat slot0 24) 0 0 0 0.
Definition s0 : ast := mk_ast {[ 2%N := LF (mk_gh 2 [] 0 TOP TOP) MFree true 0 L0 ]} 2 0 ∅ [] [].
Lemma st_new : St tree_new s0.
Proof.
  split; cbn [heap bags vals root cnt nxt retired tracked tree_new s0 sA sR sC sV sfv sfn].
  - intros p. destruct (decide (p = 2%N)) as [->|Hn]; [rewrite !lookup_singleton|by rewrite !lookup_singleton_ne].
    unfold node_rel. cbn [a_bd a_md a_rt a_pa]. split; [exact (vbits_root _ _ _ _ (vbits_new true))|]. split; [done|]. split; try done. unfold bag_rel. cbn [lb_bg L0]. rewrite decide_True by done.
    intros i x Hx. apply elem_of_list_lookup_2, elem_of_list_In, repeat_spec in Hx. by rewrite Hx.
  - done.
  - done.
  - done.
  - done.
  - intros p [x Hx]. apply lookup_singleton_Some in Hx as [<- _]. done.
  - intros p [x Hx]. done.
  - intros p [x Hx]. done.
  - split; [vm_compute; constructor|]. intros x. split; [|intros [y Hy]; done]. vm_compute. intros H. inversion H.
  - split; [vm_compute; constructor|]. intros x. split; [|intros [y Hy]; done]. vm_compute. intros H. inversion H.
  - split; [by apply NoDup_singleton|]. intros x. rewrite app_nil_r, elem_of_list_singleton. split; [intros ->; by eexists|].
    intros [y Hy]. by apply lookup_singleton_Some in Hy as [<- _].
Qed.

Lemma sinv_new : SInv (skels (sA s0)) 2 0 0.
Proof.
  assert (E : skels (sA s0) = {[ 2%N := mk_sn (mk_gh 2 [] 0 TOP TOP) true 0 (SL 0 0) ]}).
  { unfold skels, s0. cbn [sA]. by rewrite map_fmap_singleton. }
  rewrite E.
  assert (Hlk : forall p n, ({[ 2%N := mk_sn (mk_gh 2 [] 0 TOP TOP) true 0 (SL 0 0) ]} : gmap N snode) !! p = Some n -> p = 2%N /\ n = mk_sn (mk_gh 2 [] 0 TOP TOP) true 0 (SL 0 0)).
  { intros p n H. apply lookup_singleton_Some in H as [<- <-]. done. }
  assert (Htop : (0 < TOP)%N) by (by vm_compute).
  split.
  - done.
  - eexists. split; [apply lookup_singleton|]. done.
  - intros p n [-> ->]%Hlk. split; cbn; try lia; try done. by exists 0.
  - intros p n [-> ->]%Hlk. eexists. split; [apply lookup_singleton|]. done.
  - intros p n [-> ->]%Hlk. done.
  - intros p n [-> ->]%Hlk. done.
  - intros p n [-> ->]%Hlk. done.
  - intros p n J [-> ->]%Hlk. done.
  - intros p n nx pv [-> ->]%Hlk. cbn. intros [= <- <-]. by split.
  - intros p q n n' [-> ->]%Hlk [-> ->]%Hlk. done.
  - intros p q n n' [-> ->]%Hlk [-> ->]%Hlk. done.
  - intros [?|?]; done.
Qed.
Lemma es0 : es L0 = [].
Proof. done. Qed.
Lemma inv_new K : Inv K 6144 s0 0 0.
Proof.
  split; [apply sinv_new|]. intros p g md rt pa L Hp. cbn [s0 sA] in Hp. apply lookup_singleton_Some in Hp as [<- Hp].
  injection Hp as <- <- <- <- <-.
  assert (Hr : forall i x, lb_sl L0 !! i = Some x -> x = slot0). { intros i x Hx. by apply elem_of_list_lookup_2, elem_of_list_In, repeat_spec in Hx. }
  split.
  - done.
  - apply (empty_wf P24 P24_ok).
  - intros i x Hx%Hr _. by rewrite Hx.
  - intros i x Hx%Hr _. by rewrite Hx.
  - intros i j e e' _ H. by rewrite es0 in H.
  - intros e He. rewrite es0 in He. by apply elem_of_nil in He.
  - intros e He. rewrite es0 in He. by apply elem_of_nil in He.
  - rewrite es0. constructor.
  - done.
  - done.
  - done.
Qed.
Lemma new_entry l e : ~ entry (sA s0) l e.
Proof.
  intros (p & g & md & rt & pa & L & Hp & _ & He). cbn [s0 sA] in Hp. apply lookup_singleton_Some in Hp as [_ Hp].
  injection Hp as <- <- <- <- <-. rewrite es0 in He. by apply elem_of_nil in He.
Qed.
Lemma new_free : free_but [] (sA s0).
Proof. intros p n Hp _. cbn [s0 sA] in Hp. by apply lookup_singleton_Some in Hp as [_ <-]. Qed.
Lemma new_dead : NoDead (sA s0).
Proof. intros p g md rt pa L e Hp He. exfalso. eapply (new_entry (g_lid g) e). exists p, g, md, rt, pa, L. done. Qed.
Lemma new_maps k w : ~ maps s0 k w.
Proof. intros (h & Hr & _). inversion Hr; by eapply new_entry. Qed.

(** ** one call *)
(** what the memory says: [K] bounds the content; exact when splits are fine *)
Definition Rel (fx : bool) (K : bytes -> N -> Prop) (B : N) (m : mem) (mu : gmap bytes N) (c : N) : Prop :=
  (6144 <= B)%N /\ exists s, sC s = c /\ St m s /\ Inv K B s 0 0 /\ free_but [] (sA s) /\ sfv s = [] /\ sfn s = [] /\
  (((exists e, entry (sA s) MAIN e) /\ mu <> ∅) \/ (sA s = sA s0 /\ mu = ∅)) /\
  (split_fine fx K -> NoDead (sA s) /\ (forall k w, is_bytes k -> maps s k w <-> mu !! k = Some w) /\ sC s = N.of_nat (size mu)).
Definition cost (o : op) : N := match o with Insert k _ => N.of_nat (length k) | _ => 0%N end.
Definition K_ok (K : bytes -> N -> Prop) (o : op) : Prop := match o with Insert k v => K k v | _ => True end.
Definition bump (c : N) (a : ans) : N := match a with AIns None => (c + 1)%N | _ => c end.
Definition weak (K : bytes -> N -> Prop) (mu : gmap bytes N) (c : N) (o : op) (a : ans) : Prop :=
  match o with
  | Insert k v => exists old, a = AIns old /\ forall w, old = Some w -> K k w
  | Get k | GetRef k => exists r, a = AGet r /\ forall w, r = Some w -> K k w
  | Len => a = ALen c
  | IsEmpty => a = AEmpty (bool_decide (mu = ∅))
  end.
Lemma rel_new fx K : Rel fx K 6144 tree_new ∅ 0.
Proof.
  split; [done|]. exists s0. split; [done|]. split; [apply st_new|]. split; [apply inv_new|]. split; [apply new_free|]. split; [done|]. split; [done|].
  split; [by right|]. intros _. split; [apply new_dead|]. split; [|by rewrite map_size_empty].
  intros k w _. rewrite lookup_empty. split; [|done]. intros H. by apply new_maps in H.
Qed.

(** when the root of the main layer is a leaf, it is the only leaf *)
Lemma root_only K B m s g md rt pa L p g' md' rt' pa' L' : St m s -> Inv K B s 0 0 -> sA s !! sR s = Some (LF g md rt pa L) ->
  sA s !! p = Some (LF g' md' rt' pa' L') -> g_lid g' = MAIN -> p = sR s.
Proof.
  intros HS HI HR Hp Hl. destruct (decide (p = sR s)) as [|Hne]; [done|]. exfalso. pose proof (iv_s _ _ _ _ _ HI) as I.
  pose proof (skels_lookup _ _ _ HR) as HR'. pose proof (skels_lookup _ _ _ Hp) as Hp'.
  destruct (si_root _ _ _ _ I) as (n & N1 & N2 & N3 & _ & N4). assert (n = skel (LF g md rt pa L)) as -> by congruence. cbn in N2, N3.
  destruct (si_top _ _ _ _ I _ _ HR' N4 N3) as (T1 & T2 & _). cbn in T1, T2.
  pose proof (go_eq _ _ _ (si_gh _ _ _ _ I _ _ HR')) as T3. cbn in T3. specialize (T3 N4). 
  assert (Hdeg : forall q gq mq rq pq Lq, sA s !! q = Some (LF gq mq rq pq Lq) -> g_lid gq = MAIN -> q <> sR s -> g_hi gq = 0%N /\ g_lo gq = 0%N).
  { intros q gq mq rq pq Lq Hq Hlq Hqn. pose proof (skels_lookup _ _ _ Hq) as Hq'. pose proof (si_gh _ _ _ _ I _ _ Hq') as G.
    pose proof (go_lo _ _ _ G) as G1. cbn in G1. pose proof (go_lohi _ _ _ G) as G2. cbn in G2.
    destruct (si_disj _ _ _ _ I q (sR s) _ _ Hq' HR' Hqn) as [H|H]; cbn in *; [congruence|done|done| |]; lia. }
  destruct (Hdeg _ _ _ _ _ _ Hp Hl Hne) as [D1 D2].
  pose proof (si_leaf _ _ _ _ I p _ (lb_nx L') (lb_pv L') Hp' eq_refl) as LO. cbn in LO.
  pose proof (lo_deg _ _ _ _ _ LO ltac:(congruence)) as Hpv.
  destruct (lo_pv _ _ _ _ _ LO Hpv) as (qn & pv' & Q1 & Q2). apply skels_some in Q1 as ([gq mq rq pq bq] & Q1 & ->). cbn in Q2.
  destruct bq as [Lq|]; [|done]. injection Q2 as Q2 _.
  destruct (next_leaf K B m s HS HI _ _ _ _ _ _ Q1) as [[Hz _]|(_ & _ & g2 & md2 & rt2 & pa2 & L2 & Hq2 & E1 & E2 & E3 & _ & _ & E4)].
  { apply (St_addr _ _ _ _ HS) in Hp as [Hp _]. congruence. }
  rewrite Q2, Hp in Hq2. injection Hq2 as <- <- <- <- <-.
  destruct (decide (lb_pv L' = sR s)) as [E|E].
  { rewrite E, HR in Q1. injection Q1 as <- <- <- <- <-. rewrite <- E2, D2 in T3. rewrite T2 in T3. done. }
  destruct (Hdeg _ _ _ _ _ _ Q1 ltac:(congruence) E) as [F1 F2]. specialize (E4 ltac:(congruence)). lia.
Qed.

Lemma wp_is_empty K B m s : St m s -> Inv K B s 0 0 -> ((exists e, entry (sA s) MAIN e) \/ sA s = sA s0) ->
  wp is_empty m (fun b m' => m' = m /\ (b = true <-> sA s = sA s0)).
Proof.
  intros HS HI Hor. unfold is_empty. destruct (si_root _ _ _ _ (iv_s _ _ _ _ _ HI)) as (n & N1 & N2 & N3 & _ & N4).
  apply skels_some in N1 as (nr & HR & ->). apply wp_bind. unfold load_root. eapply wp_atomic; [done|]. rewrite (st_root _ _ HS).
  destruct nr as [g md rt pa b]. apply wp_bind. eapply (wp_flag_leaf _ _ HS); [exact HR|]. destruct b as [L|J]; cbn [is_leafb].
  - apply wp_bind. eapply wp_atomic; [done|]. rewrite (st_root _ _ HS). apply wp_bind. eapply (wp_permutation _ _ HS); [exact HR|].
    apply wp_ret. split; [done|].
    assert (Hsz : perm_size (lb_perm L) = length (es L)) by (unfold es; rewrite map_length; unfold ids; by rewrite ids_len).
    destruct Hor as [(e & p & g' & md' & rt' & pa' & L' & Hp & Hl & He)|Hor].
    + assert (p = sR s) as -> by (by eapply (root_only K B m s)). rewrite HR in Hp. injection Hp as <- <- <- <- <-.
      split.
      * intros Hz%Nat.eqb_eq. rewrite Hsz in Hz. destruct (es L); [by apply elem_of_nil in He|done].
      * intros E. rewrite E in HR. exfalso. eapply (new_entry (g_lid g) e). exists (sR s), g, md, rt, pa, L. done.
    + split; [done|]. intros _. rewrite Hor in HR. cbn [s0 sA] in HR. apply lookup_singleton_Some in HR as [_ HR]. injection HR as <- <- <- <- <-. done.
  - apply wp_ret. split; [done|]. split; [done|]. intros E. rewrite E in HR. cbn [s0 sA] in HR. apply lookup_singleton_Some in HR as [_ HR]. done.
Qed.
Lemma wp_get (fx : bool) (K : bytes -> N -> Prop) (B : N) (F : nat) (kb : bytes) (m : mem) (mu : gmap bytes N) (c : N) : 300 <= F -> length kb <= 256 -> is_bytes kb -> Rel fx K B m mu c ->
  wp (get F kb) m (fun o m' => m' = m /\ (forall w, o = Some w -> K kb w) /\ (split_fine fx K -> o = mu !! kb)).
Proof.
  intros HF Hl Hb (HB & s & Hc & HS & HI & Hfree & Hfv & Hfn & Hor & Hex). unfold get. rewrite key_new_ok by done.
  destruct (si_root _ _ _ _ (iv_s _ _ _ _ _ HI)) as (n & N1 & N2 & N3 & _ & N4). apply skels_some in N1 as (nr & HR & ->).
  apply wp_bind. eapply wp_atomic; [done|]. rewrite (st_root _ _ HS). apply wp_bind.
  eapply (wp_get_loop K B m s HS HI Hfree kb Hb F F HF Hl 0 MAIN); [lia| |].
  { split; [lia|]. exists nr. done. }
  intros o [Ho1 Ho2]. destruct o as [h|].
  - destruct (reaches_val K B s HI kb MAIN 0 h Hb (p_main _ _) (Ho1 h eq_refl)) as (v & V1 & V2).
    apply wp_bind. eapply wp_atomic; [rewrite (st_vals _ _ HS), V1; done|]. apply wp_ret. split; [done|]. split; [congruence|].
    intros Hs. destruct (Hex Hs) as (X1 & X2 & X3). symmetry. apply X2; [done|]. exists h. split; [by apply Ho1|done].
  - apply wp_ret. split; [done|]. split; [done|]. intros Hs. destruct (Hex Hs) as (X1 & X2 & X3).
    destruct (mu !! kb) as [w|] eqn:E; [|done]. apply X2 in E as (h & H1 & H2); [|done]. by specialize (Ho2 X1 h H1).
Qed.
Lemma wp_insert (fx : bool) (K : bytes -> N -> Prop) (B : N) (F : nat) (kb : bytes) (v : N) (m : mem) (mu : gmap bytes N) (c : N) : 300 <= F -> length kb <= 256 -> is_bytes kb -> K kb v -> (B + N.of_nat (length kb) < U32_MAX)%N -> Rel fx K B m mu c ->
  wp (insert_gen fx F kb v) m (fun r m' => exists old, r = IOk old /\ Rel fx K (B + N.of_nat (length kb)) m' (<[kb := v]> mu) (bump c (AIns old)) /\
     (forall w, old = Some w -> K kb w) /\ (split_fine fx K -> old = mu !! kb)).
Proof.
  intros HF Hl Hb HK HBu (HB & s & Hc & HS & HI & Hfree & Hfv & Hfn & Hor & Hex). unfold insert_gen. rewrite key_new_ok by done.
  destruct (si_root _ _ _ _ (iv_s _ _ _ _ _ HI)) as (n & N1 & N2 & N3 & _ & N4). apply skels_some in N1 as (nr & HR & ->). cbn in N2.
  apply wp_bind. eapply wp_atomic; [done|]. rewrite (st_root _ _ HS).
  eapply (wp_insert_loop fx K F HF kb v Hb Hl HK B HB HBu F 0 (sR s) nr m s); [done|done|done|done|done|lia|done|rewrite N2; constructor|right; lia|].
  intros old m' s' HS' [P1 P2 P3 P4 P5 P6 Pn P7]. exists old. split; [done|].
  assert (Hold : split_fine fx K -> old = mu !! kb).
  { intros Hs. destruct (Hex Hs) as (X1 & X2 & X3). destruct (P7 Hs X1) as (Y1 & Y2 & Y3).
    destruct (mu !! kb) as [w|] eqn:E.
    - apply Y3, X2; done.
    - destruct old as [w|]; [|done]. destruct (Y3 w) as [_ Y4]. specialize (Y4 eq_refl). apply (X2 kb w Hb) in Y4.
      rewrite E in Y4. done. }
  split; [|done]. split; [lia|]. exists s'. split; [rewrite P5, Hc; by destruct old|]. split; [done|]. split; [done|]. split; [done|]. split; [done|]. split; [done|].
  split; [left; split; [done|apply insert_non_empty]|].
  intros Hs. destruct (Hex Hs) as (X1 & X2 & X3). destruct (P7 Hs X1) as (Y1 & Y2 & Y3). split; [done|]. split.
  - intros k w Hk. rewrite (Y2 k w Hk). destruct (decide (k = kb)) as [->|Hne].
    + rewrite lookup_insert. naive_solver.
    + rewrite lookup_insert_ne by done. rewrite <- (X2 k w Hk). naive_solver.
  - rewrite P5, X3, (Hold Hs). destruct (mu !! kb) as [w|] eqn:E.
    + rewrite map_size_insert_Some by done. done.
    + rewrite map_size_insert_None by done. lia.
Qed.

Lemma call_ok fx K B F o m mu c : 300 <= F -> op_ok o -> K_ok K o -> (B + cost o < U32_MAX)%N -> Rel fx K B m mu c ->
  wp (call (insert_gen fx) F o) m (fun a m' => Rel fx K (B + cost o) m' (snd (map_step mu o)) (bump c a) /\ weak K mu c o a /\ (split_fine fx K -> a = fst (map_step mu o))).
Proof.
  intros HF Ho HK HB HR. destruct o as [k v|k|k| |]; cbn [call cost map_step fst snd weak] in *; rewrite ?N.add_0_r in *.
  - destruct Ho as [Hl Hb]. apply wp_bind. eapply wp_mono; [by apply (wp_insert fx K B F k v m mu c)|].
    intros r m' (old & -> & H1 & H2 & H3). apply wp_ret. split; [done|]. split; [eauto|]. intros Hs. by rewrite (H3 Hs).
  - destruct Ho as [Hl Hb]. apply wp_bind. eapply wp_mono; [by apply (wp_get fx K B F k m mu c)|].
    intros r m' (-> & H2 & H3). apply wp_ret. split; [done|]. split; [eauto|]. intros Hs. by rewrite (H3 Hs).
  - destruct Ho as [Hl Hb]. apply wp_bind. unfold wp at 1. rewrite get_ref_run. fold (wp (get F k) m).
    pose proof (wp_get fx K B F k m mu c HF Hl Hb HR) as HG. unfold wp in HG |- *. destruct (run (get F k) m) as [[r m']|]; [|done].
    destruct HG as (-> & H2 & H3). cbn. split; [done|]. split; [eauto|]. intros Hs. by rewrite (H3 Hs).
  - apply wp_bind. eapply wp_atomic; [done|]. apply wp_ret. split; [done|]. destruct HR as (_ & s & Hc & HS & _ & _ & _ & _ & _ & Hex). split; [by rewrite (st_cnt _ _ HS), Hc|].
    intros Hs. destruct (Hex Hs) as (_ & _ & X3). by rewrite (st_cnt _ _ HS), X3.
  - pose proof HR as (_ & s & Hc & HS & HI & _ & _ & _ & Hor & _). apply wp_bind.
    eapply wp_mono; [eapply (wp_is_empty K B m s); [done|done|naive_solver]|].
    intros b m' (-> & Hb). apply wp_ret. split; [done|].
    assert (Eb : b = bool_decide (mu = ∅)).
    { destruct Hor as [[(e & He) Hm]|[Hm1 Hm2]].
      - rewrite bool_decide_false by done. destruct b; [|done]. destruct Hb as [Hb _]. specialize (Hb eq_refl). rewrite Hb in He. by apply new_entry in He.
      - rewrite bool_decide_true by done. by apply Hb. }
    split; [by rewrite Eb|]. intros _. by rewrite Eb.
Qed.

(** ** histories *)
Definition costs (ops : list op) : N := foldr (fun o n => (cost o + n)%N) 0%N ops.
Lemma run_ok fx K F ops : 300 <= F -> forall B m mu c, Forall op_ok ops -> Forall (K_ok K) ops -> (B + costs ops < U32_MAX)%N -> Rel fx K B m mu c ->
  exists l m', run_calls (insert_gen fx) F ops m = Ok (l, m') /\ Rel fx K (B + costs ops) m' (snd (map_run mu ops)) (fold_left bump l c) /\ length l = length ops /\
  (split_fine fx K -> l = fst (map_run mu ops)).
Proof.
  intros HF. induction ops as [|o ops IH]; intros B m mu c Hok HK HB HR.
  - exists [], m. cbn. rewrite N.add_0_r. done.
  - inversion Hok; subst. inversion HK; subst. cbn [costs foldr] in HB. fold (costs ops) in HB.
    destruct (wp_run _ _ _ (call_ok fx K B F o m mu c HF ltac:(done) ltac:(done) ltac:(lia) HR)) as (a & m1 & E1 & R1 & W1 & X1).
    destruct (map_step mu o) as [a' mu1] eqn:Es. cbn [fst snd] in R1, X1.
    destruct (IH (B + cost o)%N m1 mu1 (bump c a)) as (l & m2 & E2 & R2 & L2 & X2); [done|done|lia|done|].
    exists (a :: l), m2. cbn [run_calls]. rewrite E1. cbn [res_bind]. rewrite E2. cbn [res_bind]. split; [done|].
    cbn [map_run]. rewrite Es. destruct (map_run mu1 ops) as [l' mu2] eqn:Er. cbn [fst snd fold_left] in *.
    split; [cbn [costs foldr]; fold (costs ops); by rewrite N.add_assoc|]. split; [cbn; by rewrite L2|]. intros Hs. by rewrite (X1 Hs), (X2 Hs).
Qed.
