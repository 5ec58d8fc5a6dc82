(** Concurrent executions on the whole tree, without deeper layers: worlds (the memory
    and what is known about it), the invariant, what the other threads may do, and weakest
    preconditions under interference. *)
From Verif Require Import Base Perm PermFacts PermList PermLaws SpecPerm Key SpecKey KeyFacts Prog Version VersionFacts Mem Tree
  SpecTree TreeState SpecLin Suffix SpecSuffix SuffixFacts.
From Verif Require Lin.
Notation kik := Lin.kik.
(** length code of a key's slice: more than 8 bytes have a suffix *)
Definition kklx (k : bytes) : N := if Nat.leb (length k) 8 then N.of_nat (length k) else KSUF_KEYLENX.
(** slot [s] has the slice and length code of key [k] *)
Definition has_key (l : leaf) (s : nat) (k : bytes) : Prop :=
  l_ikey l !! s = Some (kik k) /\ l_klx l !! s = Some (kklx k).

(** where a value or suffix bag is: in a slot of a leaf (slot 24 is the leaf's bag), in the
    hands of a thread, or retired, with the threads that may still use it *)
Inductive vplace := VSlot (p : N) (s : nat) | VHold (i : nat) | VRet (B : list nat).

(** [wown]: holder of a node's lock; [wpub]: nodes other threads can reach; [wnas]: a new
    root whose children do not all point to it yet; [wseq]: how often a leaf changed (the
    version counter without its wraparound); [wvl], [wtag]: place, key and contents of each
    value; [wbh]: the leaf a bag was made for; [wunt]: nodes not yet in the allocator's list; [wcalled]: the insertions asked
    for; [wclk]: steps so far; [wrun]: threads inside a call; [wblk]: for each retired object
    the threads that may still use it *)
Record world := mk_w {
  wm : mem; wown : gmap N nat; wpub : gset N; wnas : gset N; wseq : N -> N;
  wvl : gmap N vplace; wtag : gmap N (bytes * N); wbh : gmap N N; wunt : gmap N nat;
  wcalled : list (bytes * N); wclk : N; wrun : list nat; wblk : list (list nat) }.

(** ** nodes *)
Definition nver (n : node) : N := match n with NLeaf l => l_ver l | NInode i => i_ver i end.
Definition npar (n : node) : N := match n with NLeaf l => l_parent l | NInode i => i_parent i end.
Definition nlev (n : node) : nat := match n with NLeaf l => 0 | NInode i => S (i_height i) end.
Definition nleaf (n : node) : bool := match n with NLeaf _ => true | NInode _ => false end.
(** without the fields others may change while the node is locked *)
Definition strip (n : node) : node := match n with
  | NLeaf l => NLeaf (with_prev 0 (with_parent 0 l))
  | NInode i => NInode (iwith_parent 0 i) end.
Definition hp (w : world) : gmap N node := heap (wm w).
Definition lev (w : world) (p : N) : option nat := nlev <$> hp w !! p.
Definition ptr_ok (w : world) (n : nat) (x : N) : Prop := x = 0%N \/ (x ∈ wpub w /\ lev w x = Some n).
Definition kids (i : inode) : list N := take (S (i_nkeys i)) (i_child i).
Definition actv (l : leaf) : list nat := active_slots (l_perm l).
Definition spl (l : leaf) : bool := v_is_splitting (l_ver l).

(** the pointers of a leaf: value slots, and its suffix bag as number 24 *)
Definition lptrs (l : leaf) : list N := l_val l ++ [l_ksuf l].
(** the suffix a bag has for a slot *)
Definition bsfx (bg : bag) (s : nat) : option bytes := match bag_get bg s with Ok o => o | Er _ => None end.
Definition sfx (w : world) (l : leaf) (s : nat) : option bytes :=
  match bags (wm w) !! l_ksuf l with Some bg => bsfx bg s | None => None end.
(** slot [s] holds a value under the key it was inserted for *)
Definition slot_ok (w : world) (l : leaf) (s : nat) : Prop := exists k v h,
  has_key l s k /\ l_val l !! s = Some h /\ h <> 0%N /\ wtag w !! h = Some (k, v) /\
  (8 < length k -> sfx w l s = Some (drop 8 k)).
(** what holds of a leaf even while it is being changed *)
Record leaf_ok (w : world) (p : N) (l : leaf) : Prop := {
  lo_len : length (l_ikey l) = 24 /\ length (l_klx l) = 24 /\ length (l_val l) = 24;
  lo_klx : forall s x, l_klx l !! s = Some x -> (x <= 8)%N \/ x = KSUF_KEYLENX;
  lo_ksuf : l_ksuf l <> 0%N -> wbh w !! l_ksuf l = Some p;
  lo_next : ptr_ok w 0 (unmark_ptr (l_next l));
  lo_ver : exists md rt, vbits (l_ver l) md rt true;
  lo_seq : vcnt (l_ver l) = (wseq w p mod 2 ^ 25)%N;
  lo_perm : is_frozen (l_perm l) = false -> p_wf P24 (l_perm l);
  lo_val : forall s h, lptrs l !! s = Some h -> h <> 0%N -> wvl w !! h = Some (VSlot p s);
  lo_isval : forall s h, l_val l !! s = Some h -> h <> 0%N -> is_Some (wtag w !! h);
  lo_frz : spl l = false -> is_frozen (l_perm l) = false;
  lo_tag : is_frozen (l_perm l) = false -> forall s, s ∈ actv l -> slot_ok w l s }.
Record inode_ok (w : world) (i : inode) : Prop := {
  io_len : length (i_keys i) = 15 /\ length (i_child i) = 16;
  io_nk : i_nkeys i <= 15;
  io_ver : exists md rt, vbits (i_ver i) md rt false;
  io_child : forall c, c ∈ i_child i -> ptr_ok w (i_height i) c }.
Definition node_ok (w : world) (p : N) (n : node) : Prop :=
  ptr_ok w (S (nlev n)) (npar n) /\
  match n with NLeaf l => leaf_ok w p l | NInode i => inode_ok w i end.

(** what holds besides of a node that is not locked *)
Definition leaf_sorted (l : leaf) : Prop := forall i j s s' x x', i < j -> actv l !! i = Some s ->
  actv l !! j = Some s' -> l_ikey l !! s = Some x -> l_ikey l !! s' = Some x' -> (x <= x')%N.
Definition leaf_uniq (l : leaf) : Prop := forall s s' k, s ∈ actv l -> s' ∈ actv l ->
  has_key l s k -> has_key l s' k -> s = s'.
Record leaf_good (l : leaf) : Prop := {
  lg_perm : p_wf P24 (l_perm l);
  lg_next : is_marked (l_next l) = false;
  lg_free : forall s, s < 24 -> s ∉ actv l -> l_val l !! s = Some 0%N;
  lg_sort : leaf_sorted l; lg_uniq : leaf_uniq l }.
(** the nodes whose parent pointer is [p] are those of [l] *)
Definition pareq (w : world) (p : N) (l : list N) : Prop :=
  forall c n, hp w !! c = Some n -> npar n = p <-> c ∈ l.
Definition inode_good (w : world) (p : N) (i : inode) : Prop :=
  NoDup (kids i) /\ 0%N ∉ kids i /\ pareq w p (kids i).
Definition node_good (w : world) (p : N) (n : node) : Prop :=
  match n with NLeaf l => leaf_good l | NInode i => inode_good w p i end /\
  (npar n = 0%N -> root (wm w) = p).

(** bound on the bytes of a bag: what one split may write, and one suffix for each value *)
Definition bnd (w : world) : N := (6000 + 256 * N.of_nat (size (wtag w)))%N.
(** some key has a suffix *)
Definition longs (w : world) : Prop := exists k v, (k, v) ∈ wcalled w /\ 8 < length k.
(** the offsets in bags do not overflow yet *)
Definition room (w : world) : Prop := longs w -> (bnd w + 300 < U32_MAX)%N.
Definition gaddr (g : garbage) : N := match g with GVal h => h | GBag b => b end.
Definition gkind (w : world) (g : garbage) : Prop := match g with GVal h => is_Some (wtag w !! h) | GBag b => is_Some (wbh w !! b) end.

Record Inv (w : world) : Prop := {
  iv_nxt : (0 < nxt (wm w))%N /\ N.even (nxt (wm w)) = true;
  iv_addr : forall p n, hp w !! p = Some n -> (0 < p < nxt (wm w))%N /\ N.even p = true;
  iv_node : forall p n, hp w !! p = Some n -> node_ok w p n;
  iv_good : forall p n, hp w !! p = Some n -> wown w !! p = None -> node_good w p n;
  iv_own : forall p j, wown w !! p = Some j -> is_Some (hp w !! p);
  iv_pub : forall p, p ∈ wpub w -> is_Some (hp w !! p);
  iv_lock : forall p n, hp w !! p = Some n -> p ∈ wpub w -> p ∉ wnas w ->
    wown w !! p = None <-> v_is_locked (nver n) = false;
  iv_priv : forall p n, hp w !! p = Some n -> p ∉ wpub w -> wown w !! p <> None;
  iv_nas : forall q, q ∈ wnas w -> exists j i, wown w !! q = Some j /\ hp w !! q = Some (NInode i) /\
    forall c n, hp w !! c = Some n -> npar n = q -> wown w !! c = Some j;
  iv_root : exists n, hp w !! root (wm w) = Some n /\ root (wm w) ∈ wpub w /\ v_is_root (nver n) = true /\ npar n = 0%N;
  iv_vals : forall h, is_Some (wvl w !! h) <-> is_Some (vals (wm w) !! h) \/ is_Some (bags (wm w) !! h);
  iv_hdl : forall h x, wvl w !! h = Some x -> h <> 0%N;
  iv_tag : forall h v, vals (wm w) !! h = Some v -> exists k, wtag w !! h = Some (k, v);
  iv_fresh : forall h x, wtag w !! h = Some x -> (h < nxt (wm w))%N;
  iv_called : forall h x, wtag w !! h = Some x -> x ∈ wcalled w;
  iv_keys : forall k v, (k, v) ∈ wcalled w -> length k <= 256 /\ is_bytes k;
  iv_same : forall k v k' v', (k, v) ∈ wcalled w -> (k', v') ∈ wcalled w -> kik k = kik k' -> kklx k = kklx k' -> k = k';
  iv_slot : forall h p s, wvl w !! h = Some (VSlot p s) -> exists l, hp w !! p = Some (NLeaf l) /\ lptrs l !! s = Some h;
  iv_ret : NoDup (gaddr <$> retired (wm w)) /\ length (wblk w) = length (retired (wm w)) /\
    (forall g, g ∈ retired (wm w) -> gkind w g) /\
    forall h B, wvl w !! h = Some (VRet B) <-> exists j, (gaddr <$> retired (wm w)) !! j = Some h /\ wblk w !! j = Some B;
  iv_bags : forall b bg, bags (wm w) !! b = Some bg -> is_Some (wbh w !! b) /\ exists mm, bag_inv 24 (bnd w) bg mm;
  iv_bnew : forall b p, wbh w !! b = Some p -> (b < nxt (wm w))%N /\ wtag w !! b = None;
  iv_trk : NoDup (tracked (wm w)) /\ (forall p, p ∈ tracked (wm w) <-> is_Some (hp w !! p) /\ wunt w !! p = None) /\
    forall p j, wunt w !! p = Some j -> is_Some (hp w !! p) }.

(** ** what may happen *)
(** what no thread ever undoes *)
Record Mono (w w' : world) : Prop := {
  mo_lev : forall p n, lev w p = Some n -> lev w' p = Some n;
  mo_pub : forall p, p ∈ wpub w -> p ∈ wpub w';
  mo_nas : forall p, p ∈ wpub w -> p ∉ wnas w -> p ∉ wnas w';
  mo_tag : forall h x, wtag w !! h = Some x -> wtag w' !! h = Some x;
  mo_called : forall x, x ∈ wcalled w -> x ∈ wcalled w';
  mo_clk : (wclk w <= wclk w')%N;
  mo_home : forall b p, wbh w !! b = Some p -> wbh w' !! b = Some p;
  mo_bdom : forall b p, wbh w !! b = Some p -> is_Some (bags (wm w') !! b) -> is_Some (bags (wm w) !! b);
  mo_par : forall p n n', hp w !! p = Some n -> hp w' !! p = Some n' -> npar n <> 0%N -> npar n' <> 0%N;
  mo_leaf : forall p l, hp w !! p = Some (NLeaf l) -> exists l', hp w' !! p = Some (NLeaf l') /\
    (wseq w p <= wseq w' p <= wseq w p + 64 * (wclk w' - wclk w))%N /\
    (wseq w' p = wseq w p -> spl l' = false -> spl l = false /\ forall s, s ∈ actv l -> s ∈ actv l' /\
       l_ikey l' !! s = l_ikey l !! s /\ l_klx l' !! s = l_klx l !! s);
  mo_bag : forall b p bg bg' l l', wbh w !! b = Some p -> bags (wm w) !! b = Some bg -> bags (wm w') !! b = Some bg' ->
    hp w !! p = Some (NLeaf l) -> hp w' !! p = Some (NLeaf l') -> wseq w' p = wseq w p -> spl l' = false ->
    forall s, s ∈ actv l -> bsfx bg' s = bsfx bg s }.
Definition guarded (i : nat) (w : world) (h : N) : Prop :=
  match wvl w !! h with
  | Some (VRet B) => i ∈ B
  | Some _ => True
  | None => False
  end.
Record Rely (i : nat) (w w' : world) : Prop := {
  rl_mono : Mono w w';
  rl_run : i ∈ wrun w -> i ∈ wrun w';
  rl_own : forall p, wown w !! p = Some i <-> wown w' !! p = Some i;
  rl_prot : forall p, wown w !! p = Some i -> strip <$> hp w' !! p = strip <$> hp w !! p;
  rl_par : forall c n n', hp w !! c = Some n -> hp w' !! c = Some n' -> npar n' <> npar n ->
    (npar n = 0%N -> wown w !! c <> Some i) /\ wown w !! npar n <> Some i /\ wown w !! npar n' <> Some i;
  rl_new : forall c n', hp w !! c = None -> hp w' !! c = Some n' -> wown w !! npar n' <> Some i;
  rl_root : root (wm w') <> root (wm w) -> wown w !! root (wm w) <> Some i /\ wown w !! root (wm w') <> Some i;
  rl_nas : forall q, wown w !! q = Some i -> q ∈ wnas w <-> q ∈ wnas w';
  rl_pub : forall q, wown w !! q = Some i -> q ∈ wpub w' -> q ∈ wpub w;
  rl_hold : forall h, wvl w !! h = Some (VHold i) <-> wvl w' !! h = Some (VHold i);
  rl_grd : i ∈ wrun w -> forall h, guarded i w h -> guarded i w' h;
  rl_unt : forall p, wunt w !! p = Some i <-> wunt w' !! p = Some i;
  rl_bag : forall b p bg bg', wbh w !! b = Some p -> wown w !! p = Some i ->
    bags (wm w) !! b = Some bg -> bags (wm w') !! b = Some bg' -> bg' = bg }.
Record Guar (i : nat) (w w' : world) : Prop := {
  gu_rely : forall j, j <> i -> Rely j w w';
  gu_clk : wclk w' = (wclk w + 1)%N;
  gu_called : wcalled w' = wcalled w;
  gu_run : wrun w' = wrun w;
  gu_tag : forall h, is_Some (wtag w' !! h) -> is_Some (wtag w !! h) \/ (vals (wm w) !! h = None /\ is_Some (vals (wm w') !! h));
  gu_blk : wblk w' = replicate (length (retired (wm w')) - length (wblk w)) (wrun w) ++ wblk w }.

Lemma mono_hp w w' p n : Mono w w' -> hp w !! p = Some n -> exists n', hp w' !! p = Some n' /\ nlev n' = nlev n.
Proof.
  intros M H. pose proof (mo_lev _ _ M p (nlev n)) as L. unfold lev in L. rewrite H in L. specialize (L eq_refl).
  destruct (hp w' !! p) as [n'|] eqn:E; [|done]. exists n'. split; [done|]. cbn in L. congruence.
Qed.
Lemma mono_refl w : Mono w w.
Proof.
  split; try done.
  - intros. congruence.
  - intros p l H. exists l. split; [done|]. split; [lia|]. intros _ H'. split; [done|]. intros s Hs. done.
  - intros. congruence.
Qed.
Lemma mono_trans w1 w2 w3 : Mono w1 w2 -> Mono w2 w3 -> Mono w1 w3.
Proof.
  intros M N. split.
  - intros p n H. by apply N, M.
  - intros p H. by apply N, M.
  - intros p H H'. apply N; by apply M.
  - intros h x H. by apply N, M.
  - intros x H. by apply N, M.
  - etrans; [apply M|apply N].
  - intros b p H. by apply N, M.
  - intros b p H Hs. apply (mo_bdom _ _ M b p H). apply (mo_bdom _ _ N b p); [by apply M|done].
  - intros p n n3 H H3 Hp. destruct (mono_hp _ _ _ _ M H) as (n2 & H2 & _).
    eapply (mo_par _ _ N); [done|done|]. by eapply (mo_par _ _ M).
  - intros p l H. destruct (mo_leaf _ _ M p l H) as (l2 & H2 & S2 & A2).
    destruct (mo_leaf _ _ N p l2 H2) as (l3 & H3 & S3 & A3). exists l3. split; [done|].
    pose proof (mo_clk _ _ M). pose proof (mo_clk _ _ N). split; [lia|].
    intros E Hs. destruct A3 as [B1 B2]; [lia|done|]. destruct A2 as [C1 C2]; [lia|done|]. split; [done|].
    intros s Hs'. destruct (C2 s Hs') as (D1 & D2 & D3). destruct (B2 s D1) as (E1 & E2 & E3). split; [done|]. split; congruence.
  - intros b p bg bg3 l l3 Hb Hg Hg3 Hl Hl3 E Hs s Hin.
    destruct (mo_leaf _ _ M p l Hl) as (l2 & H2 & S2 & A2). destruct (mo_leaf _ _ N p l2 H2) as (l3' & H3' & S3 & A3).
    assert (l3' = l3) as -> by congruence. destruct A3 as [B1 B2]; [lia|done|]. destruct A2 as [C1 C2]; [lia|done|].
    pose proof (mo_home _ _ M b p Hb) as Hb2. destruct (mo_bdom _ _ N b p Hb2) as [bg2 Hg2]; [by eexists|].
    assert (wseq w3 p = wseq w2 p) as E3 by lia. assert (wseq w2 p = wseq w1 p) as E2 by lia. destruct (C2 s Hin) as (D1 & _).
    rewrite (mo_bag _ _ N b p bg2 bg3 l2 l3) by done. by rewrite (mo_bag _ _ M b p bg bg2 l l2) by done.
Qed.
Lemma rely_refl i w : Rely i w w.
Proof.
  split; try done; [apply mono_refl|..].
  - intros c n n' H H'. congruence.
  - intros c n' H H'. congruence.
  - intros. congruence.
Qed.
Lemma rely_trans i w1 w2 w3 : Rely i w1 w2 -> Rely i w2 w3 -> Rely i w1 w3.
Proof.
  intros A B. split.
  - eapply mono_trans; [apply A|apply B].
  - intros H. by apply B, A.
  - intros p. rewrite (rl_own _ _ _ A). apply B.
  - intros p H. rewrite (rl_prot _ _ _ B p) by (by apply A). by apply A.
  - intros c n n3 H1 H3 Hne. destruct (mono_hp _ _ _ _ (rl_mono _ _ _ A) H1) as (n2 & H2 & _).
    destruct (decide (npar n2 = npar n)) as [E|E].
    + destruct (rl_par _ _ _ B c n2 n3 H2 H3 ltac:(congruence)) as (C1 & C2 & C3).
      rewrite E in *. split; [intros H H'; apply C1; [done|by apply A]|]. split; intros H'; [apply C2|apply C3]; by apply A.
    + destruct (rl_par _ _ _ A c n n2 H1 H2 E) as (C1 & C2 & C3). split; [done|]. split; [done|].
      destruct (decide (npar n3 = npar n2)) as [E'|E']; [congruence|].
      destruct (rl_par _ _ _ B c n2 n3 H2 H3 E') as (_ & _ & D3). intros H'. apply D3. by apply A.
  - intros c n3 H1 H3. destruct (hp w2 !! c) as [n2|] eqn:H2.
    + pose proof (rl_new _ _ _ A c n2 H1 H2) as C. destruct (decide (npar n3 = npar n2)) as [E|E]; [congruence|].
      destruct (rl_par _ _ _ B c n2 n3 H2 H3 E) as (_ & _ & D). intros H'. apply D. by apply A.
    + intros H'. apply (rl_new _ _ _ B c n3 H2 H3). by apply A.
  - intros H. destruct (decide (root (wm w2) = root (wm w1))) as [E|E].
    + rewrite <- E in *. destruct (rl_root _ _ _ B H) as [C1 C2]. split; intros H'; [apply C1|apply C2]; by apply A.
    + destruct (rl_root _ _ _ A E) as [C1 C2]. split; [done|].
      destruct (decide (root (wm w3) = root (wm w2))) as [E'|E']; [congruence|].
      destruct (rl_root _ _ _ B E') as [_ D]. intros H'. apply D. by apply A.
  - intros q H. rewrite (rl_nas _ _ _ A q H). apply B. by apply A.
  - intros q H H'. apply (rl_pub _ _ _ A q H). apply (rl_pub _ _ _ B q); [by apply A|done].
  - intros h. rewrite (rl_hold _ _ _ A). apply B.
  - intros H h Hg. apply B; [by apply A|]. by apply A.
  - intros p. rewrite (rl_unt _ _ _ A). apply B.
  - intros b p bg bg3 Hb Ho Hg Hg3. pose proof (mo_home _ _ (rl_mono _ _ _ A) b p Hb) as Hb2.
    destruct (mo_bdom _ _ (rl_mono _ _ _ B) b p Hb2) as [bg2 Hg2]; [by eexists|].
    pose proof (rl_bag _ _ _ A b p bg bg2 Hb Ho Hg Hg2) as ->. eapply (rl_bag _ _ _ B b p); [done|by apply A|done|done].
Qed.
Lemma guar_mono i w w' : Guar i w w' -> Mono w w'.
Proof. intros G. apply (rl_mono (S i)). apply G. lia. Qed.

(** ** weakest preconditions under interference *)
Fixpoint cwp {A} (i : nat) (p : P A) (w : world) (Q : A -> world -> Prop) : Prop :=
  match p with
  | Ret a => Q a w
  | Fail e => e = Fuel \/ e = Limit
  | Step f k => forall w1, Rely i w w1 -> Inv w1 -> room w1 -> exists r w2,
      f (wm w1) = Ok (r, wm w2) /\ Inv w2 /\ Guar i w1 w2 /\ cwp i (k r) w2 Q
  end.
Lemma cwp_bind {A B} i (p : P A) (f : A -> P B) w Q :
  cwp i p w (fun a w => cwp i (f a) w Q) -> cwp i (bind p f) w Q.
Proof.
  revert w. induction p as [a|e|R g k IH]; intros w; cbn; [done..|].
  intros H w1 HR HI Hm. destruct (H w1 HR HI Hm) as (r & w2 & H1 & H2 & H3 & H4).
  exists r, w2. split; [done|]. split; [done|]. split; [done|]. by apply IH.
Qed.
Lemma cwp_mono {A} i (p : P A) w (Q Q' : A -> world -> Prop) :
  cwp i p w Q -> (forall a w, Q a w -> Q' a w) -> cwp i p w Q'.
Proof.
  intros H HQ. revert w H. induction p as [a|e|R g k IH]; intros w; cbn; [by apply HQ|done|].
  intros H w1 HR HI Hm. destruct (H w1 HR HI Hm) as (r & w2 & H1 & H2 & H3 & H4).
  exists r, w2. split; [done|]. split; [done|]. split; [done|]. by apply IH.
Qed.
Lemma cwp_ret {A} i (a : A) w (Q : A -> world -> Prop) : Q a w -> cwp i (Ret a) w Q.
Proof. done. Qed.
Lemma cwp_step {A} i (f : mem -> res (A * mem)) w (Q : A -> world -> Prop) :
  (forall w1, Rely i w w1 -> Inv w1 -> exists r w2,
      f (wm w1) = Ok (r, wm w2) /\ Inv w2 /\ Guar i w1 w2 /\ Q r w2) -> cwp i (atomic f) w Q.
Proof. intros H w1 HR HI _. by apply H. Qed.
Lemma cwp_step_room {A} i (f : mem -> res (A * mem)) w (Q : A -> world -> Prop) :
  (forall w1, Rely i w w1 -> Inv w1 -> room w1 -> exists r w2,
      f (wm w1) = Ok (r, wm w2) /\ Inv w2 /\ Guar i w1 w2 /\ Q r w2) -> cwp i (atomic f) w Q.
Proof. done. Qed.
(** accesses that leave the bags alone keep the contents of bags of locked leaves *)
Lemma cwp_keep {A} i (f : mem -> res (A * mem)) w (Q : A -> world -> Prop) b p bg :
  (forall m r m', f m = Ok (r, m') -> bags m' = bags m) -> i ∈ wrun w ->
  Inv w -> bags (wm w) !! b = Some bg -> wbh w !! b = Some p -> wown w !! p = Some i -> guarded i w b ->
  cwp i (atomic f) w (fun r w' => bags (wm w') !! b = Some bg -> Q r w') -> cwp i (atomic f) w Q.
Proof.
  intros Hf Hr I Hb Hh Ho Hg H. cbn in *. intros w1 HR HI Hm. destruct (H w1 HR HI Hm) as (r & w2 & H1 & H2 & H3 & H4).
  exists r, w2. split; [done|]. split; [done|]. split; [done|]. apply H4. rewrite (Hf _ _ _ H1).
  pose proof (mo_home _ _ (rl_mono _ _ _ HR) b p Hh) as Hh1.
  destruct (bags (wm w1) !! b) as [bg1|] eqn:E; [by rewrite (rl_bag _ _ _ HR b p bg bg1)|].
  apply (rl_grd _ _ _ HR) in Hg; [|done]. unfold guarded in Hg.
  assert (is_Some (wvl w1 !! b)) as [[v Hv]|[y Hy]]%(iv_vals _ HI) by (destruct (wvl w1 !! b); [by eexists|done]); [|congruence].
  apply (iv_tag _ HI) in Hv as [k Hk]. apply (iv_bnew _ HI) in Hh1 as [_ Hh1]. congruence.
Qed.

(** a step that only reads *)
Definition tick (w : world) : world :=
  mk_w (wm w) (wown w) (wpub w) (wnas w) (wseq w) (wvl w) (wtag w) (wbh w) (wunt w) (wcalled w) (wclk w + 1) (wrun w) (wblk w).
Lemma tick_inv w : Inv w -> Inv (tick w).
Proof.
  intros I. split; try apply I. intros p n H. destruct (iv_node _ I p n H) as [H1 H2].
  split; [done|]. destruct n as [l|x]; by destruct H2.
Qed.
Lemma tick_rely i w : Rely i w (tick w).
Proof.
  split; try done; [split; try done|..].
  - cbn. lia.
  - intros p n n' H H'. unfold hp in *. cbn in *. congruence.
  - intros p l H. exists l. split; [done|]. cbn. split; [lia|]. done.
  - intros b p bg bg' l l' H H1 H2. cbn in H2. congruence.
  - intros c n n' H H'. unfold hp in *. cbn in *. congruence.
  - intros c n' H H'. unfold hp in *. cbn in *. congruence.
  - intros b p bg bg' H H' H1 H2. cbn in H2. congruence.
Qed.
Lemma tick_guar i w : Inv w -> Guar i w (tick w).
Proof.
  intros I. split; try done; [intros; apply tick_rely|by left|]. cbn. destruct (iv_ret _ I) as (_ & -> & _).
  by rewrite Nat.sub_diag.
Qed.

(** values and bags are told apart by the ghost maps *)
Lemma val_there w h : Inv w -> is_Some (wvl w !! h) -> is_Some (wtag w !! h) -> is_Some (vals (wm w) !! h).
Proof.
  intros I Hv [x Hx]. apply (iv_vals _ I) in Hv as [H|[bg Hb]]; [done|].
  destruct (iv_bags _ I h bg Hb) as [[p Hp] _]. destruct (iv_bnew _ I h p Hp). congruence.
Qed.
Lemma bag_there w h p : Inv w -> is_Some (wvl w !! h) -> wbh w !! h = Some p -> is_Some (bags (wm w) !! h).
Proof.
  intros I Hv Hp. apply (iv_vals _ I) in Hv as [[v H]|H]; [|done].
  apply (iv_tag _ I) in H as [k Hk]. destruct (iv_bnew _ I h p Hp). congruence.
Qed.
Lemma guarded_some i w h : guarded i w h -> is_Some (wvl w !! h).
Proof. unfold guarded. destruct (wvl w !! h); [by eexists|done]. Qed.
Lemma lptrs_val l s h : l_val l !! s = Some h -> lptrs l !! s = Some h.
Proof. apply lookup_app_l_Some. Qed.
Lemma lptrs_lt l s : length (l_val l) = 24 -> s < 24 -> lptrs l !! s = l_val l !! s.
Proof. intros E H. apply lookup_app_l. lia. Qed.
Lemma lptrs_24 l : length (l_val l) = 24 -> lptrs l !! 24 = Some (l_ksuf l).
Proof. intros E. unfold lptrs. rewrite lookup_app_r by lia. by rewrite E. Qed.
Lemma lptrs_len l : length (l_val l) = 24 -> length (lptrs l) = 25.
Proof. intros E. unfold lptrs. rewrite app_length, E. done. Qed.

(** programs that only read *)
Definition reads {A} (i : nat) (p : P A) (w : world) (Φ : A -> world -> Prop) : Prop :=
  forall Q : A -> world -> Prop, (forall r w', Rely i w w' -> Inv w' -> Φ r w' -> Q r w') -> cwp i p w Q.
Lemma reads_load {A} i (f : mem -> res (A * mem)) w (Φ : A -> world -> Prop) :
  (forall w', Rely i w w' -> Inv w' -> exists r, f (wm w') = Ok (r, wm w') /\ Φ r w') -> reads i (atomic f) w Φ.
Proof.
  intros H Q HQ. apply cwp_step. intros w1 HR HI.
  assert (Rely i w (tick w1)) as HR' by (eapply rely_trans; [done|apply tick_rely]).
  destruct (H (tick w1) HR' (tick_inv _ HI)) as (r & Hr & HP). exists r, (tick w1). split; [done|].
  split; [by apply tick_inv|]. split; [by apply tick_guar|]. apply HQ; [done|by apply tick_inv|done].
Qed.
Lemma reads_bind {A B} i (p : P A) (f : A -> P B) w Φ Ψ :
  reads i p w Φ -> (forall r w', Rely i w w' -> Inv w' -> Φ r w' -> reads i (f r) w' Ψ) -> reads i (bind p f) w Ψ.
Proof.
  intros Hp Hf Q HQ. apply cwp_bind, Hp. intros r w' HR HI HP. apply (Hf r w' HR HI HP).
  intros r2 w2 HR2 HI2 HP2. apply HQ; [by eapply rely_trans|done|done].
Qed.
Lemma reads_ret {A} i (a : A) w (Φ : A -> world -> Prop) : Inv w -> Φ a w -> reads i (Ret a) w Φ.
Proof. intros HI H Q HQ. apply (HQ a w); [apply rely_refl|done..]. Qed.
Lemma reads_weaken {A} i (p : P A) w (Φ Ψ : A -> world -> Prop) :
  reads i p w Φ -> (forall r w', Rely i w w' -> Inv w' -> Φ r w' -> Ψ r w') -> reads i p w Ψ.
Proof. intros Hp H Q HQ. apply Hp. intros. eapply HQ; eauto. Qed.
Lemma reads_fuel {A} i w (Φ : A -> world -> Prop) : reads i (Fail Fuel) w Φ.
Proof. intros Q _. by left. Qed.

(** ** what a thread knows of its own *)
(** [nl]: the nodes it has locked; [hs]: the values it holds; [un]: nodes it has not yet
    registered; [ns]: the new root it is completing; [pr]: nodes only it can reach;
    [pe]: the children by parent pointer of nodes it has locked; [tp]: locked nodes that are
    the root if they have no parent; [zs]: locked nodes without a parent *)
Record ls := L { nl : gmap N node; hs : gset N; un : gset N; ns : gset N; pr : gset N;
  pe : gmap N (list N); tp : gset N; zs : gset N }.
Record At (i : nat) (σ : ls) (w : world) : Prop := {
  at_inv : Inv w;
  at_run : i ∈ wrun w;
  at_own : forall p, wown w !! p = Some i <-> is_Some (nl σ !! p);
  at_nl : forall p n, nl σ !! p = Some n -> exists n', hp w !! p = Some n' /\ strip n' = strip n;
  at_hold : forall h, wvl w !! h = Some (VHold i) <-> h ∈ hs σ;
  at_unt : forall p, wunt w !! p = Some i <-> p ∈ un σ;
  at_nas : forall q, q ∈ wnas w /\ wown w !! q = Some i <-> q ∈ ns σ;
  at_pr : forall q, q ∈ pr σ -> wown w !! q = Some i /\ q ∉ wpub w;
  at_pe : forall q l, pe σ !! q = Some l -> wown w !! q = Some i /\ pareq w q l /\ forall c, c ∈ l -> is_Some (hp w !! c);
  at_tp : forall q, q ∈ tp σ -> wown w !! q = Some i /\ forall n, hp w !! q = Some n -> npar n = 0%N -> root (wm w) = q;
  at_zs : forall q, q ∈ zs σ -> wown w !! q = Some i /\ forall n, hp w !! q = Some n -> npar n = 0%N }.
Lemma pareq_rely i w w' q l : Rely i w w' -> wown w !! q = Some i -> pareq w q l -> (forall c, c ∈ l -> is_Some (hp w !! c)) ->
  pareq w' q l.
Proof.
  intros R Ho Hq Hd c n' Hc. destruct (hp w !! c) as [n|] eqn:E.
  - rewrite <- (Hq c n E). destruct (decide (npar n' = npar n)) as [->|Hne]; [done|].
    destruct (rl_par _ _ _ R c n n' E Hc Hne) as (_ & H1 & H2). split; intros E'; congruence.
  - pose proof (rl_new _ _ _ R c n' E Hc) as H. split; [congruence|]. intros Hc'. destruct (Hd c Hc') as [? ?]. congruence.
Qed.
Lemma at_rely i σ w w' : Rely i w w' -> Inv w' -> At i σ w -> At i σ w'.
Proof.
  intros R I A. split; [done|..].
  - by apply R, A.
  - intros p. rewrite <- (rl_own _ _ _ R). apply A.
  - intros p n H. destruct (at_nl _ _ _ A p n H) as (n' & H1 & H2).
    assert (wown w !! p = Some i) as Ho by (apply (at_own _ _ _ A); by eexists).
    pose proof (rl_prot _ _ _ R p Ho) as E. rewrite H1 in E. destruct (hp w' !! p) as [n2|]; [|done].
    exists n2. split; [done|]. cbn in E. congruence.
  - intros h. rewrite <- (rl_hold _ _ _ R). apply A.
  - intros p. rewrite <- (rl_unt _ _ _ R). apply A.
  - intros q. rewrite <- (at_nas _ _ _ A). split; intros [H1 H2].
    + assert (wown w !! q = Some i) as H3 by (by apply (rl_own _ _ _ R)). split; [|done]. by apply (rl_nas _ _ _ R q H3).
    + split; [by apply (rl_nas _ _ _ R q H2)|by apply (rl_own _ _ _ R)].
  - intros q H. destruct (at_pr _ _ _ A q H) as [H1 H2]. split; [by apply R|]. intros H3. by apply H2, (rl_pub _ _ _ R q).
  - intros q l H. destruct (at_pe _ _ _ A q l H) as (H1 & H2 & H3). split; [by apply R|]. split; [by eapply pareq_rely|].
    intros c Hc. destruct (H3 c Hc) as [n Hn]. destruct (mono_hp _ _ _ _ (rl_mono _ _ _ R) Hn) as (n' & Hn' & _). by eexists.
  - intros q H. destruct (at_tp _ _ _ A q H) as [H1 H2]. split; [by apply R|]. intros n' Hn' Hz.
    pose proof H1 as [n Hn]%(iv_own _ (at_inv _ _ _ A)).
    assert (npar n = 0%N) as Hz0.
    { destruct (decide (npar n = 0%N)) as [|Hd]; [done|]. by destruct (mo_par _ _ (rl_mono _ _ _ R) _ _ _ Hn Hn' Hd). }
    pose proof (H2 n Hn Hz0) as Hr. destruct (decide (root (wm w') = root (wm w))) as [|Hd]; [congruence|].
    destruct (rl_root _ _ _ R Hd) as [H3 _]. congruence.
  - intros q H. destruct (at_zs _ _ _ A q H) as [H1 H2]. split; [by apply R|]. intros n' Hn'.
    pose proof H1 as [n Hn]%(iv_own _ (at_inv _ _ _ A)). pose proof (H2 n Hn) as Hz.
    destruct (decide (npar n' = npar n)) as [|Hd]; [congruence|]. by destruct (rl_par _ _ _ R q n n' Hn Hn' Hd) as (H3 & _); destruct H3.
Qed.

(** ** the fields others may change *)
Definition rep (pv pa : N) (n : node) : node := match n with
  | NLeaf l => NLeaf (with_prev pv (with_parent pa l))
  | NInode i => NInode (iwith_parent pa i) end.
Lemma strip_rep n n' : strip n' = strip n -> exists pv, n' = rep pv (npar n') n.
Proof.
  destruct n as [l|x], n' as [l'|x']; cbn; intros [=]; [exists (l_prev l')|exists 0%N]; f_equal; [destruct l, l'|destruct x, x']; cbn in *; by subst.
Qed.
Lemma rep_strip pv pa n : strip (rep pv pa n) = strip n. Proof. by destruct n. Qed.
Lemma rep_par pv pa n : npar (rep pv pa n) = pa. Proof. by destruct n. Qed.
Lemma rep_ver pv pa n : nver (rep pv pa n) = nver n. Proof. by destruct n. Qed.
Lemma rep_lev pv pa n : nlev (rep pv pa n) = nlev n. Proof. by destruct n. Qed.
Lemma at_here i σ w p n : At i σ w -> nl σ !! p = Some n ->
  wown w !! p = Some i /\ exists pv pa, hp w !! p = Some (rep pv pa n).
Proof.
  intros A H. split; [apply (at_own _ _ _ A); by eexists|]. destruct (at_nl _ _ _ A p n H) as (n' & H1 & H2).
  destruct (strip_rep _ _ H2) as [pv E]. exists pv, (npar n'). by rewrite <- E.
Qed.
