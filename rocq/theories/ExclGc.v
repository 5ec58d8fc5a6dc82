(** Freeing a retired object commutes with everything the code does. *)
From Verif Require Import Base Perm Key Suffix Prog Version Mem Tree SpecTree Solo.

Definition gaddr (g : garbage) : N := match g with GVal h => h | GBag b => b end.
Definition gin (g : garbage) (m : mem) : Prop :=
  match g with GVal h => is_Some (vals m !! h) | GBag b => is_Some (bags m !! b) end.
Definition gdel (g : garbage) (m : mem) : mem :=
  match g with GVal h => mwith_vals (delete h (vals m)) m | GBag b => mwith_bags (delete b (bags m)) m end.
Lemma reclaim1_del g m m' : reclaim1 g m = Ok m' <-> gin g m /\ m' = gdel g m.
Proof.
  destruct g as [h|b]; cbn.
  - destruct (vals m !! h); [|split; [done|intros [[? ?] _]; done]]. split; [intros [= <-]; eauto|]. by intros [_ ->].
  - destruct (bags m !! b); [|split; [done|intros [[? ?] _]; done]]. split; [intros [= <-]; eauto|]. by intros [_ ->].
Qed.

(** [m'] is [m] without its retired object number [k], counted from the oldest *)
Definition gc (k : nat) (m m' : mem) : Prop := exists l1 g l2, retired m = l1 ++ g :: l2 /\ length l2 = k /\
  gin g m /\ (gaddr g < nxt m)%N /\ m' = gdel g (mwith_retired (l1 ++ l2) m).
Lemma gc_fun k m m1 m2 : gc k m m1 -> gc k m m2 -> m1 = m2.
Proof.
  intros (a & g & b & E & L & _ & _ & ->) (a' & g' & b' & E' & L' & _ & _ & ->). rewrite E in E'.
  assert (length (g :: b) = length (g' :: b')) as Hl by (cbn; lia). apply app_inj_2 in E' as [-> [= -> ->]]; done.
Qed.

(** an access commutes with freeing, and only adds to what is retired *)
Definition cmf {R} (f : mem -> res (R * mem)) : Prop :=
  (forall m r m1, f m = Ok (r, m1) -> exists x, retired m1 = x ++ retired m) /\
  forall k m m' r m1 r' m1', gc k m m' -> f m = Ok (r, m1) -> f m' = Ok (r', m1') -> r = r' /\ gc k m1 m1'.
Inductive cm {A} : prog mem A -> Prop :=
| cm_ret a : cm (Ret a)
| cm_fail e : cm (Fail e)
| cm_step {R} (f : mem -> res (R * mem)) k : cmf f -> (forall r, cm (k r)) -> cm (Step f k).
Lemma cm_bind {A B} (p : prog mem A) (f : A -> prog mem B) : cm p -> (forall a, cm (f a)) -> cm (bind p f).
Proof. induction 1; intros H'; cbn; [done|constructor|constructor; auto]. Qed.
Lemma cm_atomic {R} (f : mem -> res (R * mem)) : cmf f -> cm (atomic f).
Proof. intros H. constructor; [done|]. intros. constructor. Qed.

Lemma gc_steps {A} n : forall (p : prog mem A) k m m' m1 q, cm p -> gc k m m' -> (forall j e, (steps j (m', p)).2 <> Fail e) ->
  steps n (m, p) = (m1, q) -> (forall e, q <> Fail e) -> exists m1', steps n (m', p) = (m1', q) /\ gc k m1 m1'.
Proof.
  induction n as [|n IH]; intros p k m m' m1 q Hp Hg Hj Hs Hq.
  - cbn in *. injection Hs as <- <-. eauto.
  - cbn [steps] in *. destruct Hp as [a|e|R f kk Hf Hk]; unfold step1 in Hs |- *; cbn [fst snd] in *.
    + rewrite steps_ret in Hs. injection Hs as <- <-. exists m'. by rewrite steps_ret.
    + exfalso. by apply (Hj 0 e).
    + destruct (f m') as [[r' m2']|e'] eqn:E'.
      2:{ exfalso. apply (Hj 1 e'). cbn. by rewrite E'. }
      destruct (f m) as [[r m2]|e] eqn:E.
      2:{ exfalso. assert (forall j, steps j (m, Fail e : prog mem A) = (m, Fail e)) as HF by (induction j; done). rewrite HF in Hs. injection Hs as <- <-. by eapply Hq. }
      destruct Hf as [_ Hf]. destruct (Hf _ _ _ _ _ _ _ Hg E E') as [<- Hg']. eapply (IH _ k); [apply Hk|exact Hg'| |exact Hs|done].
      intros j e He. apply (Hj (S j) e). cbn [steps]. unfold step1. cbn [fst snd]. by rewrite E'.
Qed.
Lemma steps_retired {A} n : forall (p : prog mem A) m m1 q, cm p -> steps n (m, p) = (m1, q) -> exists x, retired m1 = x ++ retired m.
Proof.
  induction n as [|n IH]; intros p m m1 q Hp Hs.
  - cbn in Hs. injection Hs as <- <-. by exists [].
  - cbn [steps] in *. destruct Hp as [a|e|R f kk Hf Hk]; unfold step1 in Hs; cbn [fst snd] in *.
    + rewrite steps_ret in Hs. injection Hs as <- <-. by exists [].
    + assert (forall j, steps j (m, Fail e : prog mem A) = (m, Fail e)) as HF by (induction j; done). rewrite HF in Hs. injection Hs as <- <-. by exists [].
    + destruct (f m) as [[r m2]|e] eqn:E.
      * destruct Hf as [Hf _]. destruct (Hf _ _ _ E) as [x Hx]. destruct (IH _ _ _ _ (Hk r) Hs) as [y Hy]. exists (y ++ x). by rewrite Hy, Hx, app_assoc.
      * assert (forall j, steps j (m, Fail e : prog mem A) = (m, Fail e)) as HF by (induction j; done). rewrite HF in Hs. injection Hs as <- <-. by exists [].
Qed.

(** ** the accesses *)
Ltac cmf0 := apply cm_atomic; split; [intros [] ? ?; cbn; repeat case_match; intros; simplify_eq; by exists []|
  intros ? [] ? ? ? ? ? (? & g & ? & ? & ? & ? & ? & ->); cbn in *; destruct g; cbn in *; repeat case_match; intros; simplify_eq; (split; [done|]); eexists _, _, _; cbn; (split; [done|]); (split; [done|]); cbn; (split; [done|]); (split; [done || lia|]); done].
Lemma cm_leaf_ld {R} p (f : leaf -> option R) : cm (leaf_ld p f).
Proof. unfold leaf_ld. cmf0. Qed.
Lemma cm_leaf_up {R} p (f : leaf -> option (R * leaf)) : cm (leaf_up p f).
Proof. unfold leaf_up. cmf0. Qed.
Lemma cm_inode_ld {R} p (f : inode -> option R) : cm (inode_ld p f).
Proof. unfold inode_ld. cmf0. Qed.
Lemma cm_inode_up {R} p (f : inode -> option (R * inode)) : cm (inode_up p f).
Proof. unfold inode_up. cmf0. Qed.
Lemma cm_ver_load p : cm (ver_load (rd_ver p)).
Proof. unfold ver_load, rd_ver. cmf0. Qed.
Lemma cm_ver_store p v : cm (ver_store (rd_ver p) (wr_ver p) v).
Proof. unfold ver_store, rd_ver, wr_ver. cmf0. Qed.
Lemma cm_ver_update p f : cm (ver_update (rd_ver p) (wr_ver p) f).
Proof. unfold ver_update, rd_ver, wr_ver. cmf0. Qed.
Lemma cm_ver_cas p a b : cm (ver_cas (rd_ver p) (wr_ver p) a b).
Proof. unfold ver_cas, rd_ver, wr_ver. cmf0. Qed.
Lemma cm_load_root : cm load_root.
Proof. unfold load_root. cmf0. Qed.
Lemma cm_cas_root a b : cm (cas_root a b).
Proof. unfold cas_root. cmf0. Qed.
Lemma cm_inc_count : cm inc_count.
Proof. unfold inc_count. cmf0. Qed.
Lemma cm_load_count : cm load_count.
Proof. unfold load_count. cmf0. Qed.
Lemma cm_track p : cm (track p).
Proof. unfold track. cmf0. Qed.
Lemma cm_alloc_node n : cm (alloc_node n).
Proof. unfold alloc_node. cmf0. Qed.

Lemma cm_alloc_bag b : cm (alloc_bag b).
Proof.
  apply cm_atomic. split; [intros m r m1 [= <- <-]; by exists []|].
  intros k m m' r m1 r' m1' (l1 & g & l2 & E & L & Hi & Ha & ->) H H'. destruct m as [H0 B0 V0 r0 c0 n0 R0 t0]. destruct g as [h|b']; cbn in *; simplify_eq; (split; [done|]).
  - exists l1, (GVal h), l2. cbn. split; [done|]. split; [done|]. split; [done|]. split; [lia|done].
  - exists l1, (GBag b'), l2. cbn. split; [done|]. split; [done|]. split; [rewrite lookup_insert_ne by lia; done|]. split; [lia|].
    unfold mwith_nxt, mwith_bags; cbn. f_equal. rewrite delete_insert_ne by lia. done.
Qed.
Lemma cm_to_raw v : cm (output_to_raw v).
Proof.
  apply cm_atomic. split; [intros m r m1 [= <- <-]; by exists []|].
  intros k m m' r m1 r' m1' (l1 & g & l2 & E & L & Hi & Ha & ->) H H'. destruct m as [H0 B0 V0 r0 c0 n0 R0 t0]. destruct g as [h|b']; cbn in *; simplify_eq; (split; [done|]).
  - exists l1, (GVal h), l2. cbn. split; [done|]. split; [done|]. split; [rewrite lookup_insert_ne by lia; done|]. split; [lia|].
    unfold mwith_nxt, mwith_vals; cbn. f_equal. rewrite delete_insert_ne by lia. done.
  - exists l1, (GBag b'), l2. cbn. split; [done|]. split; [done|]. split; [done|]. split; [lia|done].
Qed.
Lemma cm_from_raw h : cm (output_from_raw h).
Proof.
  apply cm_atomic. split; [intros m r m1; destruct (vals m !! h); [intros [= <- <-]; by exists []|done]|].
  intros k m m' r m1 r' m1' (l1 & g & l2 & E & L & Hi & Ha & ->) H H'. destruct (vals m !! h) as [v|] eqn:Ev; [|done]. injection H as <- <-.
  destruct (vals (gdel g (mwith_retired (l1 ++ l2) m)) !! h) as [v'|] eqn:Ev'; [|done]. injection H' as <- <-.
  split; [|by exists l1, g, l2]. destruct g as [h'|b']; cbn in Ev'; [|congruence]. apply lookup_delete_Some in Ev' as [_ Ev']. congruence.
Qed.
Lemma cm_retire g0 : cm (retire g0).
Proof.
  apply cm_atomic. split; [intros m r m1 [= <- <-]; by exists [g0]|].
  intros k m m' r m1 r' m1' (l1 & g & l2 & E & L & Hi & Ha & ->) [= <- <-] [= <- <-]. split; [done|]. exists (g0 :: l1), g, l2. cbn. rewrite E.
  split; [done|]. split; [done|]. split; [by destruct g|]. split; [done|]. by destruct g.
Qed.
Lemma cm_bag_at {R} b (f : bag -> res (R * bag)) : cm (bag_at b f).
Proof.
  apply cm_atomic. split; [intros m r m1; destruct (bags m !! b) as [bg|]; [destruct (f bg) as [[? ?]|]; [intros [= <- <-]; by exists []|done]|done]|].
  intros k m m' r m1 r' m1' (l1 & g & l2 & E & L & Hi & Ha & ->) H H'. destruct (bags m !! b) as [bg|] eqn:Ev; [|done].
  destruct (bags (gdel g (mwith_retired (l1 ++ l2) m)) !! b) as [bg'|] eqn:Ev'; [|done].
  assert (bg' = bg /\ g <> GBag b) as [-> Hne].
  { destruct g as [h'|b']; cbn in Ev'; [split; [congruence|done]|]. apply lookup_delete_Some in Ev' as [? Ev']. split; congruence. }
  destruct (f bg) as [[x bg2]|]; [|done]. injection H as <- <-. injection H' as <- <-. split; [done|].
  exists l1, g, l2. cbn. split; [done|]. split; [done|]. destruct g as [h'|b']; cbn in *.
  - done.
  - rewrite lookup_insert_ne by congruence. split; [done|]. split; [done|]. unfold mwith_bags; cbn. f_equal. rewrite delete_insert_ne by congruence. done.
Qed.
Lemma cm_bag_ld {R} b (f : bag -> res R) : cm (bag_ld b f).
Proof.
  apply cm_atomic. split; [intros m r m1; destruct (bags m !! b) as [bg|]; [destruct (f bg); [intros [= <- <-]; by exists []|done]|done]|].
  intros k m m' r m1 r' m1' (l1 & g & l2 & E & L & Hi & Ha & ->) H H'. destruct (bags m !! b) as [bg|] eqn:Ev; [|done].
  destruct (bags (gdel g (mwith_retired (l1 ++ l2) m)) !! b) as [bg'|] eqn:Ev'; [|done].
  assert (bg' = bg) as ->.
  { destruct g as [h'|b']; cbn in Ev'; [congruence|]. apply lookup_delete_Some in Ev' as [? Ev']. congruence. }
  destruct (f bg) as [x|]; [|done]. injection H as <- <-. injection H' as <- <-. split; [done|]. by exists l1, g, l2.
Qed.

(** ** the programs *)
Create HintDb cm.
Global Hint Resolve cm_leaf_ld cm_leaf_up cm_inode_ld cm_inode_up cm_ver_load cm_ver_store cm_ver_update cm_ver_cas cm_load_root cm_cas_root cm_inc_count
  cm_load_count cm_track cm_alloc_node cm_alloc_bag cm_to_raw cm_from_raw cm_retire cm_bag_at cm_bag_ld : cm.
Ltac cms := repeat match goal with
  | |- cm (Ret _) => constructor
  | |- cm (Fail _) => constructor
  | |- cm (bind _ _) => apply cm_bind; [|intros ?]
  | |- cm _ => solve [auto 1 with cm nocore]
  | H : forall _, cm _ |- cm _ => apply H
  | H : forall _ _, cm _ |- cm _ => apply H
  | H : forall _ _ _, cm _ |- cm _ => apply H
  | H : forall _ _ _ _, cm _ |- cm _ => apply H
  | H : forall _ _ _ _ _, cm _ |- cm _ => apply H
  | H : forall _ _ _ _ _ _ _ _ _, cm _ |- cm _ => apply H
  | |- cm (match ?x with _ => _ end) => destruct x
  | |- cm (if ?x then _ else _) => destruct x
  | |- cm _ => progress cbv zeta
  end.
Ltac cmu f := intros; unfold f; cms.
Lemma cm_for_each {X} (l : list X) f : (forall x, cm (f x)) -> cm (for_each l f).
Proof. intros H. induction l; cbn; cms. Qed.
Lemma cm_version p : cm (version p). Proof. cmu version. Qed.
Lemma cm_stable F p : cm (stable F p). Proof. unfold stable. induction F; cbn [ver_stable]; cms. Qed.
Lemma cm_lock F p : cm (lock F p). Proof. unfold lock. induction F; cbn [ver_lock]; cms. Qed.
Lemma cm_mark_insert p lv : cm (mark_insert p lv). Proof. unfold mark_insert. cmu @guard_mark_insert. Qed.
Lemma cm_mark_split p lv : cm (mark_split p lv). Proof. unfold mark_split. cmu @guard_mark_split. Qed.
Lemma cm_unlock p lv : cm (unlock p lv). Proof. unfold unlock. cmu @guard_drop. Qed.
Lemma cm_mark_nonroot p : cm (mark_nonroot p). Proof. unfold mark_nonroot. cmu @ver_mark_nonroot. Qed.
Lemma cm_mark_root p : cm (mark_root p). Proof. unfold mark_root. cmu @ver_mark_root. Qed.
Lemma cm_unlock_for_split p : cm (unlock_for_split p). Proof. unfold unlock_for_split. cmu @ver_unlock_for_split. Qed.
Global Hint Resolve cm_version cm_stable cm_lock cm_mark_insert cm_mark_split cm_unlock cm_mark_nonroot cm_mark_root cm_unlock_for_split : cm.
Lemma cm_has_changed p v : cm (has_changed p v). Proof. unfold has_changed. cmu @ver_has_changed. Qed.
Lemma cm_has_split p v : cm (has_split p v). Proof. unfold has_split. cmu @ver_has_split. Qed.
Lemma cm_flag p f : cm (flag p f). Proof. cmu flag. Qed.
Lemma cm_ikey p s : cm (ikey p s). Proof. cmu ikey. Qed.
Lemma cm_set_ikey p s v : cm (set_ikey p s v). Proof. cmu set_ikey. Qed.
Lemma cm_keylenx p s : cm (keylenx p s). Proof. cmu keylenx. Qed.
Lemma cm_set_keylenx p s v : cm (set_keylenx p s v). Proof. cmu set_keylenx. Qed.
Lemma cm_val_ptr p s : cm (val_ptr p s). Proof. cmu val_ptr. Qed.
Lemma cm_set_val_ptr p s v : cm (set_val_ptr p s v). Proof. cmu set_val_ptr. Qed.
Lemma cm_take_val_ptr p s : cm (take_val_ptr p s). Proof. cmu take_val_ptr. Qed.
Lemma cm_permutation p : cm (permutation p). Proof. cmu permutation. Qed.
Lemma cm_set_permutation p v : cm (set_permutation p v). Proof. cmu set_permutation. Qed.
Lemma cm_cas_permutation p a b : cm (cas_permutation p a b). Proof. cmu cas_permutation. Qed.
Lemma cm_ksuf_ptr p : cm (ksuf_ptr p). Proof. cmu ksuf_ptr. Qed.
Lemma cm_set_ksuf_ptr p v : cm (set_ksuf_ptr p v). Proof. cmu set_ksuf_ptr. Qed.
Lemma cm_next_raw p : cm (next_raw p). Proof. cmu next_raw. Qed.
Lemma cm_set_next p v : cm (set_next p v). Proof. cmu set_next. Qed.
Lemma cm_cas_next p a b : cm (cas_next p a b). Proof. cmu cas_next. Qed.
Lemma cm_prev p : cm (prev p). Proof. cmu prev. Qed.
Lemma cm_set_prev p v : cm (set_prev p v). Proof. cmu set_prev. Qed.
Lemma cm_leaf_parent p : cm (leaf_parent p). Proof. cmu leaf_parent. Qed.
Lemma cm_set_leaf_parent p v : cm (set_leaf_parent p v). Proof. cmu set_leaf_parent. Qed.
Lemma cm_nkeys p : cm (nkeys p). Proof. cmu nkeys. Qed.
Lemma cm_set_nkeys p v : cm (set_nkeys p v). Proof. cmu set_nkeys. Qed.
Lemma cm_inode_ikey p s : cm (inode_ikey p s). Proof. cmu inode_ikey. Qed.
Lemma cm_set_inode_ikey p s v : cm (set_inode_ikey p s v). Proof. cmu set_inode_ikey. Qed.
Lemma cm_child p s : cm (child p s). Proof. cmu child. Qed.
Lemma cm_set_child p s v : cm (set_child p s v). Proof. cmu set_child. Qed.
Lemma cm_height p : cm (height p). Proof. cmu height. Qed.
Lemma cm_set_height p v : cm (set_height p v). Proof. cmu set_height. Qed.
Lemma cm_inode_parent p : cm (inode_parent p). Proof. cmu inode_parent. Qed.
Lemma cm_set_inode_parent p v : cm (set_inode_parent p v). Proof. cmu set_inode_parent. Qed.
Global Hint Resolve cm_has_changed cm_has_split cm_flag cm_ikey cm_set_ikey cm_keylenx cm_set_keylenx cm_val_ptr cm_set_val_ptr cm_take_val_ptr cm_permutation
  cm_set_permutation cm_cas_permutation cm_ksuf_ptr cm_set_ksuf_ptr cm_next_raw cm_set_next cm_cas_next cm_prev cm_set_prev cm_leaf_parent cm_set_leaf_parent
  cm_nkeys cm_set_nkeys cm_inode_ikey cm_set_inode_ikey cm_child cm_set_child cm_height cm_set_height cm_inode_parent cm_set_inode_parent : cm.
Lemma cm_ikey_bound p : cm (ikey_bound p). Proof. cmu ikey_bound. Qed.
Global Hint Resolve cm_ikey_bound : cm.
Lemma cm_reuse0 p ik : cm (can_reuse_slot0 p ik). Proof. cmu can_reuse_slot0. Qed.
Lemma cm_ksuf p s : cm (ksuf p s). Proof. cmu ksuf. Qed.
Lemma cm_ksuf_equals p s x : cm (ksuf_equals p s x). Proof. cmu ksuf_equals. Qed.
Lemma cm_assign_ksuf p s x : cm (assign_ksuf p s x). Proof. cmu assign_ksuf. Qed.
Lemma cm_clear_ksuf p s : cm (clear_ksuf p s). Proof. cmu clear_ksuf. Qed.
Lemma cm_next_marked p : cm (next_is_marked p). Proof. cmu next_is_marked. Qed.
Global Hint Resolve cm_reuse0 cm_ksuf cm_ksuf_equals cm_assign_ksuf cm_clear_ksuf cm_next_marked : cm.
Lemma cm_poll k p : cm (poll_unmarked k p). Proof. induction k; cbn [poll_unmarked]; cms. Qed.
Global Hint Resolve cm_poll : cm.
Lemma cm_wait_rounds F k p : cm (wait_rounds F k p). Proof. induction k; cbn [wait_rounds]; cms. Qed.
Lemma cm_wait F p : cm (wait_for_split F p). Proof. apply cm_wait_rounds. Qed.
Global Hint Resolve cm_wait : cm.
Lemma cm_lock_next F n p : cm (lock_next F n p). Proof. induction n; cbn [lock_next]; cms. Qed.
Global Hint Resolve cm_lock_next : cm.
Lemma cm_link F p q : cm (link_sibling F p q). Proof. cmu link_sibling. Qed.
Lemma cm_maybe_parent F : forall n, cm (maybe_parent F n). Proof. induction F; intros; cbn [maybe_parent]; cms. Qed.
Lemma cm_ub_loop fuel p ik : forall l r, cm (ub_loop fuel p ik l r). Proof. induction fuel; intros; cbn [ub_loop]; cms. Qed.
Global Hint Resolve cm_link cm_maybe_parent cm_ub_loop : cm.
Lemma cm_ub p ik : cm (upper_bound_internode p ik). Proof. cmu upper_bound_internode. Qed.
Global Hint Resolve cm_ub : cm.
Lemma cm_reach F n st ik : forall p, cm (reach_leaf F n st p ik). Proof. induction n; intros; cbn [reach_leaf]; cms. Qed.
Lemma cm_adv_loop F n ik : forall p v, cm (advance_loop F n p v ik). Proof. induction n; intros; cbn [advance_loop]; cms. Qed.
Global Hint Resolve cm_reach cm_adv_loop : cm.
Lemma cm_advance F p ik v : cm (advance_to_key F p ik v). Proof. cmu advance_to_key. Qed.
Lemma cm_by_bound_loop F n ik : forall p h, cm (by_bound_loop F n p ik h). Proof. induction n; intros; cbn [by_bound_loop]; cms. Qed.
Global Hint Resolve cm_advance cm_by_bound_loop : cm.
Lemma cm_by_bound F p ik : cm (advance_by_bound F p ik). Proof. cmu advance_by_bound. Qed.
Lemma cm_scan p k l : cm (scan_leaf p k l). Proof. induction l; cbn [scan_leaf]; cms. Qed.
Lemma cm_scan_ref p k l : cm (scan_leaf_ref p k l). Proof. induction l; cbn [scan_leaf_ref]; cms. Qed.
Global Hint Resolve cm_by_bound cm_scan cm_scan_ref : cm.
Lemma cm_get_loop F n : forall k st, cm (get_loop F n k st). Proof. induction n; intros; cbn [get_loop]; cms. Qed.
Lemma cm_get_ref_loop F n : forall k st, cm (get_ref_loop F n k st). Proof. induction n; intros; cbn [get_ref_loop]; cms. Qed.
Global Hint Resolve cm_get_loop cm_get_ref_loop : cm.
Lemma cm_get F k : cm (get F k). Proof. cmu get. Qed.
Lemma cm_get_ref F k : cm (get_ref F k). Proof. cmu get_ref. Qed.
Lemma cm_adjust fx n p pm ik sz : forall pos, cm (adjust_split fx n p pm ik sz pos). Proof. induction n; intros; cbn [adjust_split]; cms. Qed.
Global Hint Resolve cm_get cm_get_ref cm_adjust : cm.
Lemma cm_calc fx p ik : cm (calculate_split_point fx p ik). Proof. cmu calculate_split_point. Qed.
Lemma cm_freeze_loop F p : cm (freeze_loop F p). Proof. induction F; cbn [freeze_loop]; cms. Qed.
Global Hint Resolve cm_calc cm_freeze_loop : cm.
Lemma cm_freeze F p : cm (freeze_permutation F p). Proof. cmu freeze_permutation. Qed.
Lemma cm_move p q pm sp i : cm (move_entry p q pm sp i). Proof. cmu move_entry. Qed.
Global Hint Resolve cm_freeze cm_move : cm.
Lemma cm_split_pre F p q sp : cm (split_into_preallocated F p q sp).
Proof. unfold split_into_preallocated. cms. apply cm_for_each. intros. cms. Qed.
Lemma cm_shift1 p i : cm (shift_right1 p i). Proof. cmu shift_right1. Qed.
Global Hint Resolve cm_split_pre cm_shift1 : cm.
Lemma cm_ins_kc p pos k c : cm (insert_key_and_child p pos k c).
Proof. unfold insert_key_and_child. cms. apply cm_for_each. intros. cms. Qed.
Lemma cm_shift_from d dp s sp c : cm (shift_from d dp s sp c).
Proof. unfold shift_from. apply cm_for_each. intros. cms. Qed.
Lemma cm_reparent q f : (forall a b, cm (f a b)) -> cm (reparent_children q f).
Proof. intros H. unfold reparent_children. cms. apply cm_for_each. intros. cms. Qed.
Global Hint Resolve cm_ins_kc cm_shift_from : cm.
Lemma cm_split_into p q pos ik c : cm (split_into p q pos ik c).
Proof. unfold split_into. cms. apply cm_reparent. intros. cms. Qed.
Lemma cm_get_parent p b : cm (get_parent p b). Proof. cmu get_parent. Qed.
Lemma cm_set_parent p q b : cm (set_parent p q b). Proof. cmu set_parent. Qed.
Lemma cm_find_child p c l : cm (find_child p c l). Proof. induction l; cbn [find_child]; cms. Qed.
Global Hint Resolve cm_split_into cm_get_parent cm_set_parent cm_find_child : cm.
Lemma cm_find_index p c : cm (find_child_index p c). Proof. cmu find_child_index. Qed.
Lemma cm_main_root l r sk b : cm (create_main_root l r sk b). Proof. cmu create_main_root. Qed.
Lemma cm_promote l r sk b : cm (promote_layer_root l r sk b). Proof. cmu promote_layer_root. Qed.
Global Hint Resolve cm_find_index cm_main_root cm_promote : cm.
Lemma cm_propagate F n : forall st l lv r sk a b c, cm (propagate F n st l lv r sk a b c).
Proof.
  induction n as [|n IH]; intros; cbn [propagate]; [constructor|]. cms; try apply IH.
  apply cm_reparent. intros x y. match goal with |- cm ((if ?b then _ else _) _ _) => destruct b end; cms.
Qed.
Global Hint Resolve cm_propagate : cm.
Lemma cm_handle fx F p lv ik : cm (handle_leaf_split fx F p lv ik). Proof. cmu handle_leaf_split. Qed.
Lemma cm_clone p s : cm (try_clone_output p s). Proof. cmu try_clone_output. Qed.
Lemma cm_afk p s k o : cm (assign_from_key p s k o). Proof. cmu assign_from_key. Qed.
Global Hint Resolve cm_handle cm_clone cm_afk : cm.
Lemma cm_final p a b c d e : cm (assign_final p a b c d e). Proof. cmu assign_final. Qed.
Lemma cm_new_layer : cm new_layer_leaf. Proof. cmu new_layer_leaf. Qed.
Global Hint Resolve cm_final cm_new_layer : cm.
Lemma cm_twig n : forall h t a b, cm (twig_loop n h t a b). Proof. induction n; intros; cbn [twig_loop]; cms. Qed.
Global Hint Resolve cm_twig : cm.
Lemma cm_create_layer F p s k v : cm (create_layer F p s k v). Proof. cmu create_layer. Qed.
Lemma cm_search p k l : forall i, cm (search_slots p k i l). Proof. induction l; intros; cbn [search_slots]; cms. Qed.
Global Hint Resolve cm_create_layer cm_search : cm.
Lemma cm_search_ins p pm k : cm (search_for_insert p pm k). Proof. cmu search_for_insert. Qed.
Lemma cm_assign_slot p lv s k v : cm (assign_slot p lv s k v). Proof. cmu assign_slot. Qed.
Global Hint Resolve cm_search_ins cm_assign_slot : cm.
Lemma cm_insert_loop fx F n : forall k v r, cm (insert_loop fx F n k v r).
Proof. induction n; intros; cbn [insert_loop]; cms. Qed.
Global Hint Resolve cm_insert_loop : cm.
Lemma cm_insert fx F k v : cm (insert_gen fx F k v). Proof. cmu insert_gen. Qed.
Lemma cm_is_empty : cm is_empty. Proof. cmu is_empty. Qed.
Global Hint Resolve cm_insert cm_is_empty : cm.
Lemma cm_call F o : cm (call insert F o).
Proof. destruct o; cbn [call]; unfold insert, len; cms. Qed.
