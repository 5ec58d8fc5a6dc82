(** Weakest preconditions for single-threaded runs, and the abstract view of the memory
    used by the sequential proofs: nodes with decoded version flags, slots with their
    suffixes, ghost spans; ownership of values, bags and nodes. *)
From Verif Require Import Base Perm Key Suffix SpecSuffix SuffixFacts Prog Version VersionFacts Mem Tree.
From Verif Require VersionLaws.

Ltac ands := repeat match goal with |- _ /\ _ => split end.
(** permutations of lists of numbers, by counting *)
Lemma perm_count (l l' : list N) : l ≡ₚ l' <-> forall x, count_occ N.eq_dec l x = count_occ N.eq_dec l' x.
Proof. apply (Permutation_count_occ N.eq_dec). Qed.
Ltac perm_tac := apply perm_count;
  let x := fresh "x" in intros x;
  repeat match goal with H : (_ : list N) ≡ₚ _ |- _ => rewrite perm_count in H; specialize (H x) end;
  repeat match goal with H : context [count_occ N.eq_dec (_ ++ _) _] |- _ => rewrite count_occ_app in H end;
  repeat match goal with H : context [count_occ N.eq_dec [] _] |- _ => rewrite count_occ_nil in H end;
  rewrite ?count_occ_app, ?count_occ_nil; try lia.

(** ** weakest preconditions *)
Definition wp {A} (p : P A) (m : mem) (Q : A -> mem -> Prop) : Prop :=
  match run p m with Ok (r, m') => Q r m' | Er _ => False end.
Lemma wp_ret {A} (a : A) m (Q : A -> mem -> Prop) : Q a m -> wp (Ret a) m Q.
Proof. done. Qed.
Lemma wp_bind {A B} (p : P A) (f : A -> P B) m Q :
  wp p m (fun r m' => wp (f r) m' Q) -> wp (bind p f) m Q.
Proof.
  unfold wp. rewrite VersionLaws.run_bind. destruct (run p m) as [[r m']|]; done.
Qed.
Lemma wp_mono {A} (p : P A) m (Q Q' : A -> mem -> Prop) :
  wp p m Q -> (forall r m', Q r m' -> Q' r m') -> wp p m Q'.
Proof. unfold wp. destruct (run p m) as [[r m']|]; auto. Qed.
Lemma wp_atomic {R} (f : mem -> res (R * mem)) m r m' (Q : R -> mem -> Prop) :
  f m = Ok (r, m') -> Q r m' -> wp (atomic f) m Q.
Proof. intros H. unfold wp. cbn. by rewrite H. Qed.
Lemma wp_run {A} (p : P A) m Q : wp p m Q -> exists r m', run p m = Ok (r, m') /\ Q r m'.
Proof. unfold wp. destruct (run p m) as [[r m']|]; [eauto|done]. Qed.

(** ** abstract nodes *)
(** one slot of a leaf; [s_sf]: what the suffix bag has for it *)
Record slot := mk_slot { s_ik : N; s_kx : N; s_ptr : N; s_sf : option bytes }.
(** [lb_bud]: bound on the bytes of the leaf's bag *)
Record lbody := mk_lbody {
  lb_perm : N; lb_sl : list slot; lb_bg : N; lb_bud : N; lb_nx : N; lb_pv : N }.
Record ibody := mk_ibody { ib_nk : nat; ib_ht : nat; ib_ks : list N; ib_cs : list N }.
Inductive body := BLeaf (L : lbody) | BInode (J : ibody).
Inductive vmode := MFree | MIns | MSpl.
(** ghost data: layer identity (address of the layer's first leaf), the bytes above the
    layer, the span [lo, hi), and the upper end the parent still believes in ([xh]
    differs from [hi] only while a split is not yet known to the parent) *)
Record ghost := mk_gh { g_lid : N; g_pre : bytes; g_lo : N; g_hi : N; g_xh : N }.
Record anode := mk_anode { a_gh : ghost; a_md : vmode; a_rt : bool; a_pa : N; a_bd : body }.

Definition is_leafb (b : body) : bool := match b with BLeaf _ => true | BInode _ => false end.
(** version words *)
Definition vbits (w : N) (md : vmode) (rt lf : bool) : Prop :=
  vok w /\ bit w 29 = false /\ bit w 30 = rt /\ bit w 31 = lf /\
  match md with
  | MFree => bit w 0 = false /\ bit w 1 = false /\ bit w 2 = false
  | MIns => bit w 0 = true /\ bit w 1 = true /\ bit w 2 = false
  | MSpl => bit w 0 = true /\ bit w 2 = true
  end.

Definition bag_rel (bgs : gmap N bag) (b bud : N) (sl : list slot) : Prop :=
  if decide (b = 0%N) then forall i x, sl !! i = Some x -> s_sf x = None
  else exists bg mm, bgs !! b = Some bg /\ bag_inv 24 bud bg mm /\
         forall i x, sl !! i = Some x -> s_sf x = mm i.
Record leaf_rel (bgs : gmap N bag) (l : leaf) (L : lbody) : Prop := {
  lr_perm : l_perm l = lb_perm L;
  lr_ik : l_ikey l = map s_ik (lb_sl L);
  lr_kx : l_klx l = map s_kx (lb_sl L);
  lr_val : l_val l = map s_ptr (lb_sl L);
  lr_len : length (lb_sl L) = 24;
  lr_bg : l_ksuf l = lb_bg L;
  lr_nx : l_next l = lb_nx L;
  lr_pv : l_prev l = lb_pv L;
  lr_bag : bag_rel bgs (lb_bg L) (lb_bud L) (lb_sl L) }.
Record inode_rel (i : inode) (J : ibody) : Prop := {
  ir_nk : i_nkeys i = ib_nk J;
  ir_ht : i_height i = ib_ht J;
  ir_ks : i_keys i = ib_ks J;
  ir_cs : i_child i = ib_cs J;
  ir_lk : length (ib_ks J) = 15;
  ir_lc : length (ib_cs J) = 16 }.
Definition node_rel (bgs : gmap N bag) (x : node) (n : anode) : Prop :=
  match x, a_bd n with
  | NLeaf l, BLeaf L => vbits (l_ver l) (a_md n) (a_rt n) true /\ l_parent l = a_pa n /\ leaf_rel bgs l L
  | NInode i, BInode J => vbits (i_ver i) (a_md n) (a_rt n) false /\ i_parent i = a_pa n /\ inode_rel i J
  | _, _ => False
  end.

(** owned handles and bags of a node *)
Definition srefs (x : slot) : list N :=
  if negb (s_ptr x =? 0)%N && (s_kx x <? LAYER_KEYLENX)%N then [s_ptr x] else [].
Definition nrefs (n : anode) : list N :=
  match a_bd n with BLeaf L => concat (map srefs (lb_sl L)) | BInode _ => [] end.
Definition nbags (n : anode) : list N :=
  match a_bd n with BLeaf L => if (lb_bg L =? 0)%N then [] else [lb_bg L] | BInode _ => [] end.
Definition big (f : anode -> list N) (A : gmap N anode) : list N :=
  concat (map (fun '(_, n) => f n) (map_to_list A)).
Notation vrefs := (big nrefs).
Notation brefs := (big nbags).
Definition retv (l : list garbage) : list N := omap (fun g => match g with GVal h => Some h | _ => None end) l.
Definition retb (l : list garbage) : list N := omap (fun g => match g with GBag h => Some h | _ => None end) l.
(** the list names exactly the live objects, each once *)
Definition own {X} (L : list N) (mp : gmap N X) : Prop :=
  NoDup L /\ forall x, x ∈ L <-> is_Some (mp !! x).

(** abstract state: nodes, root, count, values; [sfv]: handles held by local variables,
    [sfn]: nodes not yet given to the allocator's list *)
Record ast := mk_ast { sA : gmap N anode; sR : N; sC : N; sV : gmap N N; sfv : list N; sfn : list N }.
Definition setA (p : N) (n : anode) (s : ast) : ast :=
  mk_ast (<[p := n]> (sA s)) (sR s) (sC s) (sV s) (sfv s) (sfn s).
Definition setfv (v : list N) (s : ast) : ast := mk_ast (sA s) (sR s) (sC s) (sV s) v (sfn s).
Definition setfn (v : list N) (s : ast) : ast := mk_ast (sA s) (sR s) (sC s) (sV s) (sfv s) v.
Definition setV (v : gmap N N) (s : ast) : ast := mk_ast (sA s) (sR s) (sC s) v (sfv s) (sfn s).
Definition setR (v : N) (s : ast) : ast := mk_ast (sA s) v (sC s) (sV s) (sfv s) (sfn s).
Definition setC (v : N) (s : ast) : ast := mk_ast (sA s) (sR s) v (sV s) (sfv s) (sfn s).

Definition addr_ok (nx a : N) : Prop := (0 < a < nx)%N /\ N.even a = true.
Record St (m : mem) (s : ast) : Prop := {
  st_heap : forall p, match heap m !! p, sA s !! p with
                      | Some x, Some n => node_rel (bags m) x n
                      | None, None => True
                      | _, _ => False end;
  st_root : root m = sR s;
  st_cnt : cnt m = sC s;
  st_vals : vals m = sV s;
  st_nxt : (0 < nxt m)%N /\ N.even (nxt m) = true;
  st_an : forall p, is_Some (heap m !! p) -> addr_ok (nxt m) p;
  st_ab : forall p, is_Some (bags m !! p) -> addr_ok (nxt m) p;
  st_av : forall p, is_Some (vals m !! p) -> addr_ok (nxt m) p;
  st_ov : own (vrefs (sA s) ++ retv (retired m) ++ sfv s) (vals m);
  st_ob : own (brefs (sA s) ++ retb (retired m)) (bags m);
  st_on : own (tracked m ++ sfn s) (heap m) }.

(** ** ownership lists *)
Lemma own_perm {X} (L L' : list N) (mp : gmap N X) : L ≡ₚ L' -> own L mp -> own L' mp.
Proof. intros HP [H1 H2]. split; [by rewrite <- HP|]. intros x. by rewrite <- HP. Qed.
Lemma own_add {X} (L : list N) (mp : gmap N X) a v : mp !! a = None -> own L mp -> own (a :: L) (<[a := v]> mp).
Proof.
  intros Ha [H1 H2]. split.
  - constructor; [|done]. intros Hin%H2. destruct Hin; congruence.
  - intros x. rewrite elem_of_cons, H2. destruct (decide (x = a)) as [->|].
    + rewrite lookup_insert. split; [eauto|by left].
    + rewrite lookup_insert_ne by done. naive_solver.
Qed.
Lemma own_upd {X} (L : list N) (mp : gmap N X) a v : is_Some (mp !! a) -> own L mp -> own L (<[a := v]> mp).
Proof.
  intros Ha [H1 H2]. split; [done|]. intros x. rewrite H2. destruct (decide (x = a)) as [->|].
  - rewrite lookup_insert. split; eauto.
  - by rewrite lookup_insert_ne by done.
Qed.

Section BigRefs.
Context (f : anode -> list N).
Local Notation big := (big f).
Lemma concat_map_perm {X Y} (g : X -> list Y) l l' : l ≡ₚ l' -> concat (map g l) ≡ₚ concat (map g l').
Proof.
  induction 1; cbn; [done|by apply Permutation_app| |by etrans].
  rewrite !app_assoc. apply Permutation_app_tail, Permutation_app_comm.
Qed.
Lemma big_fresh A p n : A !! p = None -> big (<[p := n]> A) ≡ₚ f n ++ big A.
Proof. intros H. unfold big. rewrite (concat_map_perm _ _ _ (map_to_list_insert A p n H)). done. Qed.
Lemma big_set A p n n' : A !! p = Some n -> f n ++ big (<[p := n']> A) ≡ₚ f n' ++ big A.
Proof.
  intros H. assert (Hd : delete p A !! p = None) by apply lookup_delete.
  pose proof (big_fresh (delete p A) p n' Hd) as H1. pose proof (big_fresh (delete p A) p n Hd) as H2.
  rewrite insert_delete_insert in H1. rewrite insert_delete in H2 by done.
  rewrite H1, H2, !app_assoc. apply Permutation_app_tail, Permutation_app_comm.
Qed.
Lemma big_elem A x : x ∈ big A <-> exists p n, A !! p = Some n /\ x ∈ f n.
Proof.
  unfold big. rewrite elem_of_list_In, in_concat. split.
  - intros (l & Hl & Hx). apply in_map_iff in Hl as [[p n] [<- Hin]].
    exists p, n. apply elem_of_list_In in Hin. apply elem_of_map_to_list in Hin. split; [done|by apply elem_of_list_In].
  - intros (p & n & H & Hx). exists (f n). split; [|by apply elem_of_list_In].
    apply in_map_iff. exists (p, n). split; [done|]. apply elem_of_list_In, elem_of_map_to_list. done.
Qed.
End BigRefs.
(** two nodes do not share an owned object *)
Lemma big_disjoint f A p q n n' x : NoDup (big f A) -> A !! p = Some n -> A !! q = Some n' -> p <> q ->
  x ∈ f n -> x ∈ f n' -> False.
Proof.
  intros Hnd Hp Hq Hpq H1 H2.
  assert (Hd : delete p A !! p = None) by apply lookup_delete.
  pose proof (big_fresh f (delete p A) p n Hd) as HP. rewrite insert_delete in HP by done.
  rewrite HP in Hnd. apply NoDup_app in Hnd as (_ & Hdis & _). apply (Hdis x H1).
  apply big_elem. exists q, n'. split; [|done]. by rewrite lookup_delete_ne.
Qed.

Lemma srefs_set sl i x y : sl !! i = Some x ->
  srefs x ++ concat (map srefs (<[i := y]> sl)) ≡ₚ srefs y ++ concat (map srefs sl).
Proof.
  revert i. induction sl as [|a sl IH]; intros [|i] H; try done.
  - injection H as ->. cbn. rewrite !app_assoc. apply Permutation_app_tail, Permutation_app_comm.
  - cbn in *. specialize (IH i H). rewrite app_assoc, (Permutation_app_comm (srefs x)), <- app_assoc, IH.
    rewrite !app_assoc. apply Permutation_app_tail, Permutation_app_comm.
Qed.

(** ** general state updates *)
Lemma node_rel_bags bgs bgs' x n : (forall b, b ∈ nbags n -> bgs' !! b = bgs !! b) ->
  node_rel bgs x n -> node_rel bgs' x n.
Proof.
  unfold node_rel, nbags. destruct x as [l|i], (a_bd n) as [L|J]; try done.
  intros Hb (H1 & H2 & H3). split; [done|]. split; [done|]. destruct H3 as [? ? ? ? ? ? ? ? HB].
  split; try done. unfold bag_rel in *. destruct (decide (lb_bg L = 0%N)); [done|].
  destruct HB as (bg & mm & H4 & H5). exists bg, mm. split; [|done]. rewrite Hb; [done|].
  destruct (N.eqb_spec (lb_bg L) 0); [done|]. by apply elem_of_list_singleton.
Qed.

Lemma St_lookup m s p n : St m s -> sA s !! p = Some n -> exists x, heap m !! p = Some x /\ node_rel (bags m) x n.
Proof. intros H Hp. pose proof (st_heap _ _ H p) as Hh. rewrite Hp in Hh. destruct (heap m !! p); [eauto|done]. Qed.
Lemma St_leaf m s p g md rt pa L : St m s -> sA s !! p = Some (mk_anode g md rt pa (BLeaf L)) ->
  exists l, heap m !! p = Some (NLeaf l) /\ vbits (l_ver l) md rt true /\ l_parent l = pa /\ leaf_rel (bags m) l L.
Proof.
  intros H Hp. destruct (St_lookup _ _ _ _ H Hp) as ([l|i] & Hx & Hr); [|done]. exists l. done.
Qed.
Lemma St_inode m s p g md rt pa J : St m s -> sA s !! p = Some (mk_anode g md rt pa (BInode J)) ->
  exists i, heap m !! p = Some (NInode i) /\ vbits (i_ver i) md rt false /\ i_parent i = pa /\ inode_rel i J.
Proof.
  intros H Hp. destruct (St_lookup _ _ _ _ H Hp) as ([l|i] & Hx & Hr); [done|]. exists i. done.
Qed.
Lemma St_addr m s p n : St m s -> sA s !! p = Some n -> (p <> 0)%N /\ N.even p = true.
Proof.
  intros H Hp. destruct (St_lookup _ _ _ _ H Hp) as (x & Hx & _).
  destruct (st_an _ _ H p) as [H1 H2]; [by eexists|]. split; [lia|done].
Qed.
Lemma St_none m s p : St m s -> sA s !! p = None <-> heap m !! p = None.
Proof.
  intros H. pose proof (st_heap _ _ H p). destruct (heap m !! p), (sA s !! p); naive_solver.
Qed.

(** one node changes, bags and values stay *)
Lemma St_node m s p n x' n' fv' : St m s -> sA s !! p = Some n ->
  node_rel (bags m) x' n' -> nbags n' = nbags n ->
  nrefs n' ++ fv' ≡ₚ nrefs n ++ sfv s ->
  St (mwith_heap (<[p := x']> (heap m)) m) (setfv fv' (setA p n' s)).
Proof.
  intros H Hp Hx Hb Hv. destruct (St_lookup _ _ _ _ H Hp) as (x & Hh & Hr). destruct H.
  split; cbn [heap bags vals root cnt nxt retired tracked mwith_heap sA sR sC sV sfv sfn setfv setA]; try done.
  - intros q. destruct (decide (q = p)) as [->|Hq]; [by rewrite !lookup_insert|].
    rewrite !lookup_insert_ne by done. apply st_heap0.
  - intros q. destruct (decide (q = p)) as [->|Hq]; [intros _; apply st_an0; by eexists|].
    rewrite lookup_insert_ne by done. apply st_an0.
  - eapply own_perm; [|exact st_ov0].
    pose proof (big_set nrefs (sA s) p n n' Hp) as HS. perm_tac.
  - eapply own_perm; [|exact st_ob0].
    pose proof (big_set nbags (sA s) p n n' Hp) as HS. rewrite Hb in HS. perm_tac.
  - apply own_upd; [by eexists|done].
Qed.

(** ** version words *)
Lemma vbits_free_load w rt lf : vbits w MFree rt lf -> v_is_dirty w = false.
Proof. intros (_ & _ & _ & _ & H0 & H1 & H2). by rewrite is_dirty_bits, H1, H2. Qed.
Lemma vbits_can_lock w rt lf : vbits w MFree rt lf -> v_can_lock w = true.
Proof. intros (_ & _ & _ & _ & H0 & H1 & H2). by rewrite can_lock_bits, H0, H1, H2. Qed.
Lemma vbits_locked w rt lf : vbits w MFree rt lf -> vbits (v_locked w) MIns rt lf.
Proof.
  intros (H & H29 & H30 & H31 & H0 & H1 & H2). unfold v_locked.
  split; [apply vok_lor; [apply vok_lor; [done|]|]; by apply vok_const|].
  rewrite !bit_lor, H29, H30, H31, H0, H1, H2. cbn. rewrite ?orb_false_r. done.
Qed.
Lemma vbits_spl w md rt lf : md <> MFree -> vbits w md rt lf -> vbits (N.lor w SPLITTING_BIT) MSpl rt lf.
Proof.
  intros Hm (H & H29 & H30 & H31 & Hmd).
  split; [apply vok_lor; [done|by apply vok_const]|].
  rewrite !bit_lor, H29, H30, H31. cbn. rewrite ?orb_false_r, ?orb_true_r.
  destruct md; [done|..]; destruct Hmd as (-> & _); done.
Qed.
Definition unlocked_rt (md : vmode) (rt : bool) : bool := match md with MSpl => false | _ => rt end.
Lemma vbits_unlock w md rt lf : vbits w md rt lf -> vbits (v_unlock w) MFree (unlocked_rt md rt) lf.
Proof.
  intros (H & H29 & H30 & H31 & Hmd).
  destruct (unlock_fields w H) as (U & U0 & U1 & U2 & _ & U29 & U30 & U31).
  split; [done|]. rewrite U29, U30, U31, H29, H30, H31, U0, U1, U2.
  split; [done|]. split; [|done]. destruct md; [destruct Hmd as (_ & _ & ->)|destruct Hmd as (_ & _ & ->)|destruct Hmd as (_ & ->)]; done.
Qed.
Lemma vbits_nonroot w md rt lf : vbits w md rt lf -> vbits (v_mark_nonroot w) md false lf.
Proof.
  intros (H & H29 & H30 & H31 & Hmd).
  split; [by apply vok_mark_nonroot|]. unfold v_mark_nonroot.
  rewrite !bit_land, H29, H30, H31. cbn. rewrite ?andb_true_r, ?andb_false_r. done.
Qed.
Lemma vbits_root w md rt lf : vbits w md rt lf -> vbits (v_mark_root w) md true lf.
Proof.
  intros (H & H29 & H30 & H31 & Hmd).
  split; [by apply vok_lor; [done|apply vok_const]|]. unfold v_mark_root.
  rewrite !bit_lor, H29, H30, H31. cbn. rewrite ?orb_true_r, ?orb_false_r. done.
Qed.
Lemma vbits_new lf : vbits (v_new lf) MFree false lf.
Proof. destruct lf; split; try (by apply vok_const); done. Qed.
Lemma vbits_new_split w md rt lf : vbits w md rt lf -> vbits (v_new_for_split w) MSpl false lf.
Proof.
  intros (H & H29 & H30 & H31 & _). unfold v_new_for_split.
  split; [apply vok_lor; [apply vok_lor; [|by apply vok_const]|by apply vok_const]|].
  - split; [by apply land_lt|]. rewrite bit_land. cbn. by rewrite andb_false_r.
  - rewrite !bit_lor, !bit_land, H31. cbn. rewrite ?andb_false_r, ?andb_true_r, ?orb_false_r. done.
Qed.
Lemma vbits_leaf w md rt lf : vbits w md rt lf -> v_is_leaf w = lf.
Proof. intros (_ & _ & _ & H & _). by rewrite is_leaf_bit. Qed.
Lemma vbits_rootf w md rt lf : vbits w md rt lf -> v_is_root w = rt.
Proof. intros (_ & _ & H & _). by rewrite is_root_bit. Qed.
Lemma vbits_deleted w md rt lf : vbits w md rt lf -> v_is_deleted w = false.
Proof. intros (_ & H & _). by rewrite is_deleted_bit. Qed.
Lemma vbits_splitting w md rt lf : vbits w md rt lf -> v_is_splitting w = match md with MSpl => true | _ => false end.
Proof.
  intros (_ & _ & _ & _ & H). rewrite is_splitting_bit. by destruct md; destruct_and?.
Qed.
Lemma vbits_lockedf w md rt lf : vbits w md rt lf -> v_is_locked w = match md with MFree => false | _ => true end.
Proof.
  intros (_ & _ & _ & _ & H). rewrite is_locked_bit. by destruct md; destruct_and?.
Qed.
Lemma vbits_inserting w rt lf : vbits w MIns rt lf -> v_is_inserting w = true.
Proof. intros (_ & _ & _ & _ & H). rewrite is_inserting_bit. by destruct_and?. Qed.

(** the version word of a node of the abstract state *)
Lemma St_ver m s p n : St m s -> sA s !! p = Some n ->
  exists w, rd_ver p m = Some w /\ vbits w (a_md n) (a_rt n) (is_leafb (a_bd n)) /\
  forall w' md' rt', vbits w' md' rt' (is_leafb (a_bd n)) ->
    St (wr_ver p w' m) (setA p (mk_anode (a_gh n) md' rt' (a_pa n) (a_bd n)) s).
Proof.
  intros H Hp. destruct (St_lookup _ _ _ _ H Hp) as (x & Hx & Hr).
  unfold rd_ver, wr_ver. rewrite Hx. unfold node_rel in Hr.
  destruct x as [l|i], (a_bd n) as [L|J] eqn:EB; try done; destruct Hr as (H1 & H2 & H3);
    (eexists; split; [done|]; split; [done|]); intros w' md' rt' Hw;
    replace (setA p _ s) with (setfv (sfv s) (setA p (mk_anode (a_gh n) md' rt' (a_pa n) (a_bd n)) s)) by (by rewrite EB);
    (eapply St_node; [done|done|..]).
  - unfold node_rel. cbn. rewrite EB. cbn. ands; try done. by destruct H3.
  - unfold nbags. cbn. done.
  - unfold nrefs. cbn. done.
  - unfold node_rel. cbn. rewrite EB. cbn. ands; try done. by destruct H3.
  - unfold nbags. cbn. done.
  - unfold nrefs. cbn. done.
Qed.
