(** Where values go in concurrent executions: which accesses bring a value into the tree,
    read a value pointer, read a value, and give one up. *)
From Verif Require Import Base Perm Key Suffix Prog Version Mem Tree SpecTree SpecLin SpecConc ConcVar.

(** ** kinds of accesses *)
Definition quietly {R} (f : mem -> res (R * mem)) : Prop := forall m r m', f m = Ok (r, m') ->
  vals m' = vals m /\ (forall h, GVal h ∈ retired m' <-> GVal h ∈ retired m) /\ (nxt m <= nxt m')%N.
Definition reads_slot {R} (f : mem -> res (R * mem)) (out : R -> N) : Prop := forall m r m', f m = Ok (r, m') ->
  m' = m /\ exists p l s, heap m !! p = Some (NLeaf l) /\ l_val l !! s = Some (out r).
Definition reads_val {R} (f : mem -> res (R * mem)) (h : N) (out : R -> N) : Prop := forall m r m', f m = Ok (r, m') ->
  m' = m /\ vals m !! h = Some (out r).
Definition brings {R} (f : mem -> res (R * mem)) (x : N) : Prop := forall m r m', f m = Ok (r, m') ->
  vals m' = <[nxt m := x]> (vals m) /\ retired m' = retired m /\ (nxt m < nxt m')%N.
Definition gives_up {R} (f : mem -> res (R * mem)) (h : N) : Prop := forall m r m', f m = Ok (r, m') ->
  vals m' = vals m /\ retired m' = GVal h :: retired m /\ nxt m' = nxt m.

(** what a call has done so far: pointers read from slots, values read, whether its own
    value is in the memory, the value it has given up *)
Record deeds := D { seen : list N; rd : list (N * N); mine : bool; gone : option (N * N) }.
Definition see (h : N) (d : deeds) : deeds := D (h :: seen d) (rd d) (mine d) (gone d).
Fixpoint go {A} (v : option N) (d : deeds) (p : P A) (Q : deeds -> A -> Prop) : Prop :=
  match p with
  | Ret a => Q d a
  | Fail _ => True
  | @Step _ _ R f k =>
      (quietly f /\ forall r, go v d (k r) Q) \/
      (exists out : R -> N, reads_slot f out /\ forall r, go v (see (out r) d) (k r) Q) \/
      (exists h out, reads_val f h out /\ h ∈ seen d /\ h <> 0%N /\ mine d = false /\
         forall r, go v (D (seen d) ((h, out r) :: rd d) (mine d) (gone d)) (k r) Q) \/
      (exists x, v = Some x /\ mine d = false /\ brings f x /\ forall r, go v (D (seen d) (rd d) true (gone d)) (k r) Q) \/
      (exists h x, (h, x) ∈ rd d /\ gone d = None /\ gives_up f h /\ forall r, go v (D (seen d) (rd d) (mine d) (Some (h, x))) (k r) Q)
  end.
Fixpoint still {A} (p : P A) : Prop :=
  match p with
  | Step f k => quietly f /\ forall r, still (k r)
  | _ => True
  end.
Lemma go_bind {A B} v d (p : P A) (f : A -> P B) Q : go v d p (fun d a => go v d (f a) Q) -> go v d (bind p f) Q.
Proof.
  revert d. induction p as [a|e|R g k IH]; intros d; [done|done|]. cbn [go bind].
  intros [[H1 H2]|[(o & H1 & H2)|[(h & o & H1 & H2 & H3 & H4 & H5)|[(x & H1 & H2 & H3 & H4)|(h & x & H1 & H2 & H3 & H4)]]]].
  - left. split; [done|]. intros r. by apply IH.
  - right. left. exists o. split; [done|]. intros r. by apply IH.
  - right. right. left. exists h, o. repeat (split; [done|]). intros r. by apply IH.
  - right. right. right. left. exists x. repeat (split; [done|]). intros r. by apply IH.
  - right. right. right. right. exists h, x. repeat (split; [done|]). intros r. by apply IH.
Qed.
Lemma go_still {A} v d (p : P A) (Q : deeds -> A -> Prop) : still p -> (forall a, Q d a) -> go v d p Q.
Proof.
  intros H HQ. induction p as [a|e|R g k IH]; [by apply HQ|done|]. destruct H as [H1 H2]. left. split; [done|].
  intros r. by apply IH.
Qed.
Lemma still_bind {A B} (p : P A) (f : A -> P B) : still p -> (forall a, still (f a)) -> still (bind p f).
Proof. induction p as [a|e|R h k IH]; cbn; [auto|done|]. intros [H1 H2] Hf. split; [done|]. intros r. by apply IH. Qed.
Lemma still_for {X} (l : list X) (f : X -> P unit) : (forall x, still (f x)) -> still (for_each l f).
Proof. intros H. induction l as [|x l IH]; cbn; [done|]. by apply still_bind. Qed.

Create HintDb st.
Ltac sstep := intros ? ? ? ?; cbn in *; unfold rd_ver, wr_ver in *; repeat case_match; simplify_eq; (split; [done|split; [done|cbn; lia]]).
Lemma still_leaf_ld {R} p (f : leaf -> option R) : still (leaf_ld p f). Proof. split; [sstep|done]. Qed.
Lemma still_leaf_up {R} p (f : leaf -> option (R * leaf)) : still (leaf_up p f). Proof. split; [sstep|done]. Qed.
Lemma still_inode_ld {R} p (f : inode -> option R) : still (inode_ld p f). Proof. split; [sstep|done]. Qed.
Lemma still_inode_up {R} p (f : inode -> option (R * inode)) : still (inode_up p f). Proof. split; [sstep|done]. Qed.
Lemma still_bag_at {R} b (f : bag -> res (R * bag)) : still (bag_at b f). Proof. split; [sstep|done]. Qed.
Lemma still_bag_ld {R} b (f : bag -> res R) : still (bag_ld b f). Proof. split; [sstep|done]. Qed.
Lemma still_load_root : still load_root. Proof. split; [sstep|done]. Qed.
Lemma still_cas_root a b : still (cas_root a b). Proof. split; [sstep|done]. Qed.
Lemma still_load_count : still load_count. Proof. split; [sstep|done]. Qed.
Lemma still_alloc_node n : still (alloc_node n). Proof. split; [sstep|done]. Qed.
Lemma still_alloc_bag n : still (alloc_bag n). Proof. split; [sstep|done]. Qed.
Lemma still_track n : still (track n). Proof. split; [sstep|done]. Qed.
Lemma still_from_raw v : still (output_from_raw v). Proof. split; [sstep|done]. Qed.
Lemma still_retire g : still (retire (GBag g)).
Proof. split; [|done]. intros m r m' [= <- <-]. split; [done|]. split; [|cbn; lia]. intros h. cbn. rewrite elem_of_cons. naive_solver. Qed.
Lemma still_ver_load p : still (ver_load (rd_ver p)). Proof. split; [sstep|done]. Qed.
Lemma still_ver_store p v : still (ver_store (rd_ver p) (wr_ver p) v). Proof. split; [sstep|done]. Qed.
Lemma still_ver_update p v : still (ver_update (rd_ver p) (wr_ver p) v). Proof. split; [sstep|done]. Qed.
Lemma still_ver_cas p v v' : still (ver_cas (rd_ver p) (wr_ver p) v v'). Proof. split; [sstep|done]. Qed.
#[export] Hint Resolve still_leaf_ld still_leaf_up still_inode_ld still_inode_up still_bag_at still_bag_ld still_load_root still_cas_root
  still_load_count still_alloc_node still_alloc_bag still_track still_from_raw still_retire still_ver_load still_ver_store
  still_ver_update still_ver_cas : st.
Ltac st1 := match goal with
  | |- forall _, _ => intros
  | |- still (bind _ _) => apply still_bind
  | |- still (for_each _ _) => apply still_for
  | |- still (Ret _) => exact I
  | |- still (Fail _) => exact I
  | |- still (match ?x with _ => _ end) => destruct x
  | |- still ((if ?x then _ else _) _ _) => destruct x
  | |- still (let _ := _ in _) => cbv zeta
  | |- still ?p => first [solve [auto with st] | let h := head_of' p in unfold h]
  end
with head_of' p := match p with ?f _ => head_of' f | _ => p end.
Ltac stl := repeat st1.
Lemma still_stable F p : still (stable F p).
Proof. unfold stable. induction F; cbn [ver_stable]; stl. Qed.
Lemma still_lock F p : still (lock F p).
Proof. unfold lock. induction F; cbn [ver_lock]; stl. Qed.
#[export] Hint Resolve still_stable still_lock : st.
Lemma still_mark_insert p lv : still (mark_insert p lv). Proof. stl. Qed.
Lemma still_mark_split p lv : still (mark_split p lv). Proof. stl. Qed.
Lemma still_assign_ksuf p s x : still (assign_ksuf p s x). Proof. stl. Qed.
Lemma still_clear_ksuf p s : still (clear_ksuf p s). Proof. stl. Qed.
Lemma still_ksuf p s : still (ksuf p s). Proof. stl. Qed.
Lemma still_ksuf_equals p s x : still (ksuf_equals p s x). Proof. stl. Qed.
#[export] Hint Resolve still_mark_insert still_mark_split still_assign_ksuf still_clear_ksuf still_ksuf still_ksuf_equals : st.
Lemma still_poll k p : still (poll_unmarked k p).
Proof. induction k; cbn [poll_unmarked]; stl. Qed.
#[export] Hint Resolve still_poll : st.
Lemma still_wait F k p : still (wait_rounds F k p).
Proof. induction k; cbn [wait_rounds]; stl. Qed.
#[export] Hint Resolve still_wait : st.
Lemma still_wait_split F p : still (wait_for_split F p).
Proof. apply still_wait. Qed.
#[export] Hint Resolve still_wait_split : st.
Lemma still_lock_next F n p : still (lock_next F n p).
Proof. induction n; cbn [lock_next]; stl. Qed.
#[export] Hint Resolve still_lock_next : st.
Lemma still_link F p q : still (link_sibling F p q).
Proof. stl. Qed.
Lemma still_maybe_parent F p : still (maybe_parent F p).
Proof. revert p. induction F; intros p; cbn [maybe_parent]; stl. Qed.
#[export] Hint Resolve still_link still_maybe_parent : st.
Lemma still_ub n p ik l r : still (ub_loop n p ik l r).
Proof. revert l r. induction n; intros l r; cbn [ub_loop]; stl. Qed.
#[export] Hint Resolve still_ub : st.
Lemma still_reach F n s p ik : still (reach_leaf F n s p ik).
Proof. revert p. induction n; intros p; cbn [reach_leaf]; stl. Qed.
Lemma still_advance F n p v ik : still (advance_loop F n p v ik).
Proof. revert p v. induction n; intros p v; cbn [advance_loop]; stl. Qed.
#[export] Hint Resolve still_reach still_advance : st.
Lemma still_advance_to F p ik v : still (advance_to_key F p ik v).
Proof. stl. Qed.
Lemma still_by_bound F n p ik h : still (by_bound_loop F n p ik h).
Proof. revert p h. induction n; intros p h; cbn [by_bound_loop]; stl. Qed.
#[export] Hint Resolve still_advance_to still_by_bound : st.
Lemma still_advance_by F p ik : still (advance_by_bound F p ik).
Proof. stl. Qed.
Lemma still_scan p k l : still (scan_leaf p k l).
Proof. induction l; cbn [scan_leaf]; stl. Qed.
Lemma still_scan_ref p k l : still (scan_leaf_ref p k l).
Proof. induction l; cbn [scan_leaf_ref]; stl. Qed.
#[export] Hint Resolve still_advance_by still_scan still_scan_ref : st.
Lemma still_get_loop F n k st : still (get_loop F n k st).
Proof. revert k st. induction n; intros k st; cbn [get_loop]; stl. Qed.
Lemma still_get_ref_loop F n k st : still (get_ref_loop F n k st).
Proof. revert k st. induction n; intros k st; cbn [get_ref_loop]; stl. Qed.
#[export] Hint Resolve still_get_loop still_get_ref_loop : st.
Lemma still_get F k : still (get F k). Proof. stl. Qed.
Lemma still_get_ref F k : still (get_ref F k). Proof. stl. Qed.
Lemma still_is_empty : still is_empty. Proof. stl. Qed.
#[export] Hint Resolve still_get still_get_ref still_is_empty : st.
Lemma still_adjust fx n p pm ik sz pos : still (adjust_split fx n p pm ik sz pos).
Proof. revert pos. induction n; intros pos; cbn [adjust_split]; stl. Qed.
Lemma still_freeze F p : still (freeze_loop F p).
Proof. induction F; cbn [freeze_loop]; stl. Qed.
#[export] Hint Resolve still_adjust still_freeze : st.
Lemma still_split_into_pre F p q pos : still (split_into_preallocated F p q pos). Proof. stl. Qed.
Lemma still_insert_kc p pos k c : still (insert_key_and_child p pos k c). Proof. stl. Qed.
Lemma still_split_into p q pos k c : still (split_into p q pos k c). Proof. stl. Qed.
Lemma still_find p c l : still (find_child p c l).
Proof. induction l; cbn [find_child]; stl. Qed.
#[export] Hint Resolve still_split_into_pre still_insert_kc still_split_into still_find : st.
Lemma still_create_root l r sk b : still (create_main_root l r sk b). Proof. stl. Qed.
Lemma still_promote l r sk b : still (promote_layer_root l r sk b). Proof. stl. Qed.
#[export] Hint Resolve still_create_root still_promote : st.
Lemma still_propagate F n st l lv r sk a b c : still (propagate F n st l lv r sk a b c).
Proof. revert st l lv r sk a b c. induction n; intros; cbn [propagate]; stl. Qed.
#[export] Hint Resolve still_propagate : st.
Lemma still_handle fx F p lv ik : still (handle_leaf_split fx F p lv ik). Proof. stl. Qed.
#[export] Hint Resolve still_handle : st.
Lemma still_search p k i l : still (search_slots p k i l).
Proof. revert i. induction l; intros i; cbn [search_slots]; stl. Qed.
#[export] Hint Resolve still_search : st.

Lemma still_inc : still inc_count. Proof. split; [sstep|done]. Qed.
#[export] Hint Resolve still_inc : st.

(** ** lookups *)
Definition sees (l : list N) (d : deeds) : deeds := D (l ++ seen d) (rd d) (mine d) (gone d).
Lemma sees_nil d : sees [] d = d. Proof. by destruct d. Qed.
Lemma sees_app l l' d : sees l (sees l' d) = sees (l ++ l') d. Proof. unfold sees. cbn. by rewrite app_assoc. Qed.
Lemma go_val_ptr v d p s (Q : deeds -> N -> Prop) : (forall h, Q (sees [h] d) h) -> go v d (val_ptr p s) Q.
Proof.
  intros H. right. left. exists (fun h => h). split; [|done]. intros m r m'. cbn. repeat case_match; try done. intros [= <- <-].
  split; [done|]. eexists _, _, _. done.
Qed.
Ltac gs := repeat lazymatch goal with
  | |- go _ _ (bind (scan_leaf _ _ _) _) _ => fail
  | |- go _ _ (bind (scan_leaf_ref _ _ _) _) _ => fail
  | |- go _ _ (bind (get_loop _ _ _ _) _) _ => fail
  | |- go _ _ (bind (get_ref_loop _ _ _ _) _) _ => fail
  | |- go _ _ (bind (output_from_raw _) _) _ => fail
  | |- go _ _ (bind (search_for_insert _ _ _) _) _ => fail
  | |- forall _, _ => intros
  | |- go _ _ (bind (val_ptr _ _) _) _ => apply go_bind, go_val_ptr
  | |- go _ _ (bind _ _) _ => apply go_bind, go_still; [solve [stl]|]
  | |- go _ _ (Fail _) _ => exact I
  | |- go _ _ (if ?x then _ else _) _ => destruct x eqn:?
  end.
Definition from_seen {X} (l : list N) (r : option (X * N)) : Prop := forall x h, r = Some (x, h) -> h ∈ l /\ h <> 0%N.
Lemma go_scan v p k slots : forall d (Q : deeds -> option (N * N) -> Prop),
  (forall l r, from_seen (l ++ seen d) r -> Q (sees l d) r) -> go v d (scan_leaf p k slots) Q.
Proof.
  assert (forall d (Q : deeds -> option (N * N) -> Prop) h,
    (forall l r, from_seen (l ++ seen d) r -> Q (sees l d) r) -> forall l r, from_seen (l ++ seen (sees [h] d)) r -> Q (sees l (sees [h] d)) r) as Hw.
  { intros d Q h H l r Hf. rewrite sees_app. apply H. by rewrite <- app_assoc. }
  assert (forall d (Q : deeds -> option (N * N) -> Prop) h x, (h =? 0)%N = false ->
    (forall l r, from_seen (l ++ seen d) r -> Q (sees l d) r) -> go v (sees [h] d) (Ret (Some (x, h))) Q) as Hr.
  { intros d Q h x Hz H. apply H. intros y h' [= <- <-]. split; [by left|]. by apply N.eqb_neq. }
  assert (forall d (Q : deeds -> option (N * N) -> Prop), (forall l r, from_seen (l ++ seen d) r -> Q (sees l d) r) -> go v d (Ret None) Q) as Hn.
  { intros d Q H. cbn. rewrite <- (sees_nil d) at 1. by apply H. }
  induction slots as [|s slots IH]; intros d Q H; cbn [scan_leaf]; [by apply Hn|]. gs.
  all: try (apply IH; [done|by apply Hw]); try (by apply Hr). all: apply IH; try done; by apply Hw.
Qed.
Lemma go_scan_ref v p k slots : forall d (Q : deeds -> option (N * N) -> Prop),
  (forall l r, from_seen (l ++ seen d) r -> Q (sees l d) r) -> go v d (scan_leaf_ref p k slots) Q.
Proof.
  assert (forall d (Q : deeds -> option (N * N) -> Prop) h,
    (forall l r, from_seen (l ++ seen d) r -> Q (sees l d) r) -> forall l r, from_seen (l ++ seen (sees [h] d)) r -> Q (sees l (sees [h] d)) r) as Hw.
  { intros d Q h H l r Hf. rewrite sees_app. apply H. by rewrite <- app_assoc. }
  assert (forall d (Q : deeds -> option (N * N) -> Prop) h x, (h =? 0)%N = false ->
    (forall l r, from_seen (l ++ seen d) r -> Q (sees l d) r) -> go v (sees [h] d) (Ret (Some (x, h))) Q) as Hr.
  { intros d Q h x Hz H. apply H. intros y h' [= <- <-]. split; [by left|]. by apply N.eqb_neq. }
  assert (forall d (Q : deeds -> option (N * N) -> Prop), (forall l r, from_seen (l ++ seen d) r -> Q (sees l d) r) -> go v d (Ret None) Q) as Hn.
  { intros d Q H. cbn. rewrite <- (sees_nil d) at 1. by apply H. }
  induction slots as [|s slots IH]; intros d Q H; cbn [scan_leaf_ref]; [by apply Hn|]. gs.
  all: try (apply IH; [done|by apply Hw]); try (by apply Hr). all: apply IH; try done; by apply Hw.
Qed.
Definition one_seen (l : list N) (r : option N) : Prop := forall h, r = Some h -> h ∈ l /\ h <> 0%N.
Lemma go_get_loop v F n : forall k st d (Q : deeds -> option N -> Prop),
  (forall l r, one_seen (l ++ seen d) r -> Q (sees l d) r) -> go v d (get_loop F n k st) Q.
Proof.
  induction n as [|n IH]; intros k st d Q H; cbn [get_loop]; [done|].
  assert (forall l, (forall l' r, one_seen (l' ++ seen (sees l d)) r -> Q (sees l' (sees l d)) r)) as Hw.
  { intros l l' r Hf. rewrite sees_app. apply H. by rewrite <- app_assoc. }
  assert (forall l, Q (sees l d) None) as Hn by (intros l; by apply H).
  destruct st as [r|r p|r p ver]; gs; try (by apply IH).
  apply go_bind, go_scan. intros l snap Hsn. gs.
  - match goal with |- context [let (_, _) := ?a in _] => destruct a as [q v'] end. gs; (apply IH; by apply Hw).
  - destruct snap as [[kx ptr]|]; gs; try (apply IH; by apply Hw); try (by apply Hn).
    apply H. intros h [= <-]. by apply (Hsn kx ptr).
Qed.
Lemma go_get_ref_loop v F n : forall k st d (Q : deeds -> option N -> Prop),
  (forall l r, one_seen (l ++ seen d) r -> Q (sees l d) r) -> go v d (get_ref_loop F n k st) Q.
Proof.
  induction n as [|n IH]; intros k st d Q H; cbn [get_ref_loop]; [done|].
  assert (forall l, (forall l' r, one_seen (l' ++ seen (sees l d)) r -> Q (sees l' (sees l d)) r)) as Hw.
  { intros l l' r Hf. rewrite sees_app. apply H. by rewrite <- app_assoc. }
  assert (forall l, Q (sees l d) None) as Hn by (intros l; by apply H).
  destruct st as [r|r p|r p ver]; gs; try (by apply IH).
  apply go_bind, go_scan_ref. intros l snap Hsn. gs.
  - match goal with |- context [let (_, _) := ?a in _] => destruct a as [q v'] end. gs; (apply IH; by apply Hw).
  - destruct snap as [[kx ptr]|]; gs; try (apply IH; by apply Hw); try (by apply Hn).
    apply H. intros h [= <-]. by apply (Hsn kx ptr).
Qed.
Lemma go_from_raw v d h (Q : deeds -> N -> Prop) : h ∈ seen d -> h <> 0%N -> mine d = false ->
  (forall x, Q (D (seen d) ((h, x) :: rd d) (mine d) (gone d)) x) -> go v d (output_from_raw h) Q.
Proof.
  intros H1 H2 H3 HQ. right. right. left. exists h, (fun x => x). split; [|done]. intros m r m'. cbn. case_match; [|done]. by intros [= <- <-].
Qed.
(** what the answer of a call says of its deeds *)
Definition told (d : deeds) (a : ans) : Prop := match a with
  | AGet (Some x) => (exists h, (h, x) ∈ rd d) /\ gone d = None
  | AIns r => mine d = true /\ snd <$> gone d = r
  | _ => gone d = None
  end.
Lemma go_get v F k : go v (D [] [] false None) (get F k) (fun d r => told d (AGet r)).
Proof.
  unfold get. destruct (key_new k); [|done]. gs. apply go_bind, go_get_loop. intros l [h|] Hs; [|done].
  destruct (Hs h eq_refl). apply go_bind, go_from_raw; [done..|]. intros x. split; [|done]. exists h. by left.
Qed.
Lemma go_get_ref v F k : go v (D [] [] false None) (get_ref F k) (fun d r => told d (AGet r)).
Proof.
  unfold get_ref. destruct (key_new k); [|done]. gs. apply go_bind, go_get_ref_loop. intros l [h|] Hs; [|done].
  destruct (Hs h eq_refl). apply go_bind, go_from_raw; [done..|]. intros x. split; [|done]. exists h. by left.
Qed.

(** ** insertion *)
Lemma go_brings v d x (Q : deeds -> N -> Prop) : v = Some x -> mine d = false ->
  (forall h, Q (D (seen d) (rd d) true (gone d)) h) -> go v d (output_to_raw x) Q.
Proof.
  intros H1 H2 HQ. right. right. right. left. exists x. split; [done|]. split; [done|]. split; [|done].
  intros m r m' [= <- <-]. cbn. split; [done|]. split; [done|]. lia.
Qed.
Lemma go_gives_up v d h x (Q : deeds -> unit -> Prop) : (h, x) ∈ rd d -> gone d = None ->
  (forall a, Q (D (seen d) (rd d) (mine d) (Some (h, x))) a) -> go v d (retire (GVal h)) Q.
Proof.
  intros H1 H2 HQ. right. right. right. right. exists h, x. split; [done|]. split; [done|]. split; [|done]. by intros m r m' [= <- <-].
Qed.
Lemma go_assign_slot d p lv s k x (Q : deeds -> N -> Prop) : mine d = false ->
  (forall a, Q (D (seen d) (rd d) true (gone d)) a) -> go (Some x) d (assign_slot p lv s k x) Q.
Proof.
  intros H HQ. unfold assign_slot. apply go_bind, go_brings; [done..|]. intros h. gs. apply HQ.
Qed.
Definition told_ins (d : deeds) (r : ins_res) : Prop := match r with IOk r => mine d = true /\ snd <$> gone d = r | IErr => gone d = None end.
Lemma go_insert_loop F n x : forall k r d, mine d = false -> gone d = None ->
  go (Some x) d (insert_loop_v F n k x r) told_ins.
Proof.
  induction n as [|n IH]; intros k r d Hm Hg; cbn [insert_loop_v]; [done|]. gs.
  match goal with |- context [let (_, _) := ?a in _] => destruct a as [p ex] end. gs; try (by apply IH). cbv zeta. gs; try (by apply IH).
  apply go_bind, go_still; [apply still_search|]. intros [s|pos| |]; try done.
  - gs; [by apply IH|]. apply go_bind, go_from_raw; [by left|by apply N.eqb_neq|done|]. intros ov.
    apply go_bind, go_brings; [done..|]. intros h'. gs. apply go_bind, go_gives_up with ov; [by left|done|]. intros _. done.
  - assert (go (Some x) d (ok <- handle_leaf_split false F p a1 (k_ikey k);; if ok : bool then insert_loop_v F n k x a else Ret IErr) told_ins) as Hsplit.
    { gs; [by apply IH|done]. }
    destruct (Nat.leb WIDTH _); [exact Hsplit|]. apply go_bind, go_still; [stl|]. intros [].
    + apply go_bind, go_assign_slot; [done..|]. intros lv'. destruct (perm_insert_from_back _ _). gs. cbn. by rewrite Hg.
    + destruct (find_alt _ _) as [[alt off]|]; [|exact Hsplit]. apply go_bind, go_assign_slot; [done..|]. intros lv'.
      destruct (perm_insert_from_back _ _). gs. cbn. by rewrite Hg.
Qed.
Definition own (o : op) : option N := match o with Insert _ x => Some x | _ => None end.
Lemma go_mono {A} v d (p : P A) (Q Q' : deeds -> A -> Prop) : go v d p Q -> (forall d a, Q d a -> Q' d a) -> go v d p Q'.
Proof.
  intros H HQ. revert d H. induction p as [a|e|R g k IH]; intros d; [apply HQ|done|]. cbn [go].
  intros [[H1 H2]|[(o & H1 & H2)|[(h & o & H1 & H2 & H3 & H4 & H5)|[(x & H1 & H2 & H3 & H4)|(h & x & H1 & H2 & H3 & H4)]]]].
  - left. split; [done|]. intros r. by apply IH.
  - right. left. exists o. split; [done|]. intros r. by apply IH.
  - right. right. left. exists h, o. repeat (split; [done|]). intros r. by apply IH.
  - right. right. right. left. exists x. repeat (split; [done|]). intros r. by apply IH.
  - right. right. right. right. exists h, x. repeat (split; [done|]). intros r. by apply IH.
Qed.
Lemma go_call F o : conc_op o -> go (own o) (D [] [] false None) (call insert_v F o) told.
Proof.
  intros [Ho Hk]. destruct o as [k x|k|k| |]; cbn [call own].
  - apply go_bind, go_mono with told_ins; [|by intros d [[]|]].
    unfold insert_v. destruct (key_new k) as [kk|] eqn:E; [|done].
    apply go_bind, go_still; [stl|]. intros r. by apply go_insert_loop.
  - apply go_bind, (go_mono _ _ _ _ _ (go_get None F k)). done.
  - apply go_bind, (go_mono _ _ _ _ _ (go_get_ref None F k)). done.
  - unfold len. gs. done.
  - done.
Qed.
