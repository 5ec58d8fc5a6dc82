(** Lock-free insertions running at the same time: the invariant and its steps. *)
From Verif Require Import Base Perm PermFacts PermList SpecPerm PermLaws Key SpecKey KeyFacts Suffix SpecSuffix SuffixFacts Prog Version VersionFacts VersionTry Mem Tree SpecTree SpecHist TreeState TreePrim TreeInv TreeRead TreeSplit TreeSkel TreeInode TreeProp TreeLeaf TreeContent TreeInsert TreeLayer TreeConv TreeLoop TreeTop TreeLaws Freeze CasInsert CasFacts.

(** ** growth of the tree *)
Record lgrow (L L' : lbody) : Prop := {
  lg_nx : lb_nx L' = lb_nx L; lg_pv : lb_pv L' = lb_pv L; lg_bg : lb_bg L' = lb_bg L;
  lg_in : forall j, j ∈ ids L -> j ∈ ids L' /\ lb_sl L' !! j = lb_sl L !! j }.
Definition ngrow (n n' : anode) : Prop :=
  a_gh n' = a_gh n /\ a_md n' = a_md n /\ a_rt n' = a_rt n /\ a_pa n' = a_pa n /\
  match a_bd n, a_bd n' with BLeaf L, BLeaf L' => lgrow L L' | BInode J, BInode J' => J' = J | _, _ => False end.
Definition grown (A A' : gmap N anode) : Prop := forall p n, A !! p = Some n -> exists n', A' !! p = Some n' /\ ngrow n n'.
Lemma lgrow_refl L : lgrow L L. Proof. by split. Qed.
Lemma lgrow_trans a b c : lgrow a b -> lgrow b c -> lgrow a c.
Proof.
  intros [A1 A2 A4 A3] [B1 B2 B4 B3]. split; [congruence|congruence|congruence|]. intros j Hj. destruct (A3 j Hj) as [H1 H2]. destruct (B3 j H1) as [H3 H4]. split; [done|congruence].
Qed.
Lemma ngrow_refl n : ngrow n n. Proof. repeat (split; [done|]). destruct (a_bd n); [apply lgrow_refl|done]. Qed.
Lemma ngrow_trans a b c : ngrow a b -> ngrow b c -> ngrow a c.
Proof.
  intros (A1 & A2 & A3 & A4 & A5) (B1 & B2 & B3 & B4 & B5). split; [congruence|]. split; [congruence|]. split; [congruence|]. split; [congruence|].
  destruct (a_bd a), (a_bd b), (a_bd c); try done; [by eapply lgrow_trans|congruence].
Qed.
Lemma grown_refl A : grown A A. Proof. intros p n H. exists n. split; [done|apply ngrow_refl]. Qed.
Lemma grown_trans a b c : grown a b -> grown b c -> grown a c.
Proof. intros H1 H2 p n H. destruct (H1 p n H) as (n1 & E1 & G1). destruct (H2 p n1 E1) as (n2 & E2 & G2). exists n2. split; [done|by eapply ngrow_trans]. Qed.
Lemma grown_set A p n n' : A !! p = Some n -> ngrow n n' -> grown A (<[p := n']> A).
Proof.
  intros Hp Hn q x Hq. destruct (decide (q = p)) as [->|Hne].
  - rewrite lookup_insert. exists n'. split; [done|]. congruence.
  - rewrite lookup_insert_ne by done. exists x. split; [done|apply ngrow_refl].
Qed.
Lemma grown_leaf A A' p g md rt pa L : grown A A' -> A !! p = Some (LF g md rt pa L) -> exists L', A' !! p = Some (LF g md rt pa L') /\ lgrow L L'.
Proof.
  intros HG Hp. destruct (HG p _ Hp) as ([g' md' rt' pa' [L'|J]] & H1 & H2 & H3 & H4 & H5 & H6); cbn in *; [|done]. subst. eauto.
Qed.
Lemma grown_inode A A' p g md rt pa J : grown A A' -> A !! p = Some (ND g md rt pa J) -> A' !! p = Some (ND g md rt pa J).
Proof.
  intros HG Hp. destruct (HG p _ Hp) as ([g' md' rt' pa' [L'|J']] & H1 & H2 & H3 & H4 & H5 & H6); cbn in *; [done|]. subst. done.
Qed.
(** the same permutation: the same entries *)
Lemma lgrow_same L L' : length (lb_sl L) = length (lb_sl L') -> lgrow L L' -> lb_perm L' = lb_perm L -> ids L' = ids L /\ es L' = es L.
Proof.
  intros Hlen [_ _ _ HG] E. assert (Ei : ids L' = ids L) by (unfold ids; by rewrite E). split; [done|]. unfold es. rewrite Ei.
  apply map_ext_in. intros j Hj%elem_of_list_In. destruct (HG j Hj) as [_ H]. unfold ent. by rewrite !nth_lookup, H.
Qed.

(** ** worlds *)
(** where a thread is: slot [j] of leaf [p] reserved, holding [x], with the stored slice and length
    and the new handle; or about to drop its handle; or its key visible; or counted *)
Inductive phase := Claimed (p : N) (j : nat) (ik kx : option N) (x : N) (h : option N) | Dropping (h : N) | Published | Counted.
(** [wt]: the memory without the reservations *)
Record cw := mk_cw { wm : mem; wt : mem; ws : ast; wph : gmap nat phase; wmu : gmap bytes N; wpub : list nat; wcn : list nat }.
Definition handle (c : phase) : option N := match c with Claimed _ _ _ _ _ h => h | Dropping h => Some h | _ => None end.
Definition is_pub (c : option phase) : bool := match c with Some Published | Some Counted => true | _ => false end.
Notation claimed ph p j := (exists i ik kx x h, ph !! i = Some (Claimed p j ik kx x h)).

Record lov (ph : gmap nat phase) (p : N) (l l' : leaf) : Prop := {
  lo_rest : l' = with_val (l_val l') l;
  lo_len : length (l_val l) = 24;
  lo_eq : forall j, ~ claimed ph p j -> l_val l !! j = l_val l' !! j;
  lo_cl : forall i j ik kx x h, ph !! i = Some (Claimed p j ik kx x h) -> l_val l !! j = Some x }.

Lemma ts_stay {M A} i (m : M) (ps : list (prog M A)) x : ps !! i = x -> match x with Some (Step _ _) => False | _ => True end -> thread_step i (m, ps) = (m, ps).
Proof. intros Hx H. unfold thread_step. cbn [fst snd]. rewrite Hx. by destruct x as [[]|]. Qed.
Lemma ts_step {M A R} i (m : M) (ps : list (prog M A)) (f : M -> res (R * M)) k r m' : ps !! i = Some (Step f k) -> f m = Ok (r, m') -> thread_step i (m, ps) = (m', <[i := k r]> ps).
Proof. intros Hx H. unfold thread_step. cbn [fst snd]. by rewrite Hx, H. Qed.
(** some slot is reserved, or some key was inserted *)
Definition busy (w : cw) : Prop := (exists i p j ik kx x h, wph w !! i = Some (Claimed p j ik kx x h)) \/ wpub w <> [].
Section S.
Context (K : bytes -> N -> Prop) (B : N) (mb : mem) (sb : ast) (mu0 : gmap bytes N) (calls : list (bytes * N)).

Record TInv (t : mem) (s : ast) (mu : gmap bytes N) : Prop := {
  ti_st : St t s; ti_inv : Inv K B s 0 0; ti_free : free_but [] (sA s); ti_fv : sfv s = []; ti_fn : sfn s = [];
  ti_dead : NoDead (sA s);
  ti_mu : forall k v, is_bytes k -> maps s k v <-> mu !! k = Some v;
  ti_grow : grown (sA sb) (sA s); ti_R : sR s = sR sb }.
Record MInv (m t : mem) (ph : gmap nat phase) : Prop := {
  mi_ver : forall p, rd_ver p m = rd_ver p mb;
  mi_heap : forall p, match heap m !! p, heap t !! p with Some (NLeaf l), Some (NLeaf l') => lov ph p l l' | x, y => x = y end;
  mi_bags : bags m = bags t; mi_root : root m = root t; mi_cnt : cnt m = cnt t; mi_nxt : nxt m = nxt t;
  mi_ret : retired m = retired t; mi_trk : tracked m = tracked t }.
Record PInv (s : ast) (ph : gmap nat phase) : Prop := {
  pi_cl : forall i p j ik kx x h, ph !! i = Some (Claimed p j ik kx x h) -> x <> 0%N /\
    exists g rt pa L y, sA s !! p = Some (LF g MFree rt pa L) /\ j ∉ ids L /\ lb_sl L !! j = Some y /\
      (forall a, ik = Some a -> s_ik y = a) /\ (forall a, kx = Some a -> s_kx y = a);
  pi_sep : forall i i' p j ik kx x h ik' kx' x' h', ph !! i = Some (Claimed p j ik kx x h) -> ph !! i' = Some (Claimed p j ik' kx' x' h') -> i = i' }.
Record VInv (m t : mem) (ph : gmap nat phase) : Prop := {
  vi_1 : forall h v, vals t !! h = Some v -> vals m !! h = Some v;
  vi_2 : forall h, is_Some (vals m !! h) -> is_Some (vals t !! h) \/ exists i c, ph !! i = Some c /\ handle c = Some h;
  vi_3 : forall i c h, ph !! i = Some c -> handle c = Some h -> vals t !! h = None /\ addr_ok (nxt m) h /\
    exists k v, calls !! i = Some (k, v) /\ vals m !! h = Some v;
  vi_4 : forall i i' c c' h, ph !! i = Some c -> ph !! i' = Some c' -> handle c = Some h -> handle c' = Some h -> i = i' }.
(** an empty tree is a new one, reservations apart *)
Definition EInv (s : ast) (ph : gmap nat phase) (mu : gmap bytes N) : Prop :=
  ((exists e, entry (sA s) MAIN e) /\ mu <> ∅) \/ (mu = ∅ /\ (sA s = sA s0 \/ exists i p j ik kx x h, ph !! i = Some (Claimed p j ik kx x h))).
Record GInv (s : ast) (ph : gmap nat phase) (mu : gmap bytes N) (pub cn : list nat) : Prop := {
  gi_pub : NoDup pub /\ forall i, i ∈ pub <-> is_pub (ph !! i) = true;
  gi_cn : NoDup cn /\ forall i, i ∈ cn <-> ph !! i = Some Counted;
  gi_cnt : sC s = (sC sb + N.of_nat (length cn))%N;
  gi_size : size mu = size mu0 + length pub;
  gi_mu0 : mu0 ⊆ mu;
  gi_perm : pub = [] -> forall p g g' md md' rt rt' pa pa' L L', sA sb !! p = Some (LF g md rt pa L) -> sA s !! p = Some (LF g' md' rt' pa' L') -> lb_perm L' = lb_perm L;
  gi_new : forall i, i ∈ pub -> exists k v, calls !! i = Some (k, v) /\ mu !! k = Some v /\ mu0 !! k = None;
  gi_old : forall k v, mu !! k = Some v -> mu0 !! k = Some v \/ exists i, i ∈ pub /\ calls !! i = Some (k, v);
  gi_uniq : forall i j k v v', i ∈ pub -> j ∈ pub -> calls !! i = Some (k, v) -> calls !! j = Some (k, v') -> i = j }.
Record CInv (w : cw) : Prop := {
  ci_t : TInv (wt w) (ws w) (wmu w); ci_m : MInv (wm w) (wt w) (wph w); ci_p : PInv (ws w) (wph w);
  ci_v : VInv (wm w) (wt w) (wph w); ci_g : GInv (ws w) (wph w) (wmu w) (wpub w) (wcn w); ci_e : EInv (ws w) (wph w) (wmu w) }.
Record Rely (i : nat) (w w' : cw) : Prop := {
  rl_ph : wph w' !! i = wph w !! i; rl_grow : grown (sA (ws w)) (sA (ws w')); rl_mu : wmu w ⊆ wmu w';
  rl_pub : wpub w' = [] -> wpub w = []; rl_busy : busy w -> busy w' }.
Lemma rely_refl i w : Rely i w w. Proof. split; [done|apply grown_refl|done|done|done]. Qed.
Lemma rely_trans i a b c : Rely i a b -> Rely i b c -> Rely i a c.
Proof. intros [A1 A2 A3 A4 A5] [B1 B2 B3 B4 B5]. split; [congruence|by eapply grown_trans|by etrans|auto|auto]. Qed.
Fixpoint cwp {A} (i : nat) (pr : P A) (w : cw) (Q : A -> cw -> Prop) : Prop :=
  match pr with
  | Ret a => Q a w
  | Fail e => False
  | Step f k => forall w1, Rely i w w1 -> CInv w1 -> exists r w2, f (wm w1) = Ok (r, wm w2) /\ CInv w2 /\
      (forall j, j <> i -> Rely j w1 w2) /\ cwp i (k r) w2 Q
  end.
Lemma cwp_bind {A C} i (pr : P A) (f : A -> P C) : forall w Q, cwp i pr w (fun a w' => cwp i (f a) w' Q) -> cwp i (bind pr f) w Q.
Proof.
  induction pr as [a|e|R g k IH]; intros w Q H; cbn in *; [done|done|].
  intros w1 H1 H2. destruct (H w1 H1 H2) as (r & w2 & E1 & E2 & E3 & E4). exists r, w2. repeat (split; [done|]). by apply IH.
Qed.
Lemma cwp_mono {A} i (pr : P A) : forall w (Q Q' : A -> cw -> Prop), (forall a w', Q a w' -> Q' a w') -> cwp i pr w Q -> cwp i pr w Q'.
Proof.
  induction pr as [a|e|R g k IH]; intros w Q Q' HQ H; cbn in *; [by apply HQ|done|].
  intros w1 H1 H2. destruct (H w1 H1 H2) as (r & w2 & E1 & E2 & E3 & E4). exists r, w2. repeat (split; [done|]). eapply IH; [done|done].
Qed.

(** ** the whole system *)
Lemma sys_exec {A} (Q : nat -> A -> cw -> Prop) sched : forall w (c : mem * list (prog mem A)), CInv w -> wm w = c.1 ->
  (forall i pr, c.2 !! i = Some pr -> exists w0, Rely i w0 w /\ cwp i pr w0 (Q i)) ->
  exists w', CInv w' /\ wm w' = (exec sched c).1 /\ (forall i, length c.2 <= i \/ i ∉ sched -> Rely i w w') /\ length (exec sched c).2 = length c.2 /\
    forall i pr, (exec sched c).2 !! i = Some pr -> exists w0, Rely i w0 w' /\ cwp i pr w0 (Q i).
Proof.
  induction sched as [|i sched IH]; intros w [m ps] HI Hm Hall; [exists w; split; [done|]; split; [done|]; split; [intros; apply rely_refl|]; done|].
  change (exec (i :: sched) (m, ps)) with (exec sched (thread_step i (m, ps))). cbn [fst snd] in *.
  destruct (ps !! i) as [[a|e|R f k]|] eqn:Ei.
  1,2,4: pose proof (ts_stay i m ps _ Ei Logic.I) as Hts; rewrite Hts; destruct (IH w (m, ps) HI Hm Hall) as (w' & H1 & H2 & H3 & H4);
    exists w'; split; [done|]; split; [done|]; split; [|done]; intros j [Hj|Hj]; apply H3; [by left|right; set_solver].
  destruct (Hall i _ Ei) as (w0 & HR & HC). destruct (HC w HR HI) as (r & w2 & E & HI2 & HG & HC2).
  subst m. pose proof (ts_step i (wm w) ps f k r (wm w2) Ei E) as Hts. rewrite Hts.
  destruct (IH w2 (wm w2, <[i := k r]> ps) HI2 eq_refl) as (w' & H1 & H2 & H3 & H4 & H5).
  { cbn [snd]. intros j pr Hj. destruct (decide (j = i)) as [->|Hne].
    - rewrite list_lookup_insert in Hj by (by eapply lookup_lt_Some). injection Hj as <-. exists w2. split; [apply rely_refl|done].
    - rewrite list_lookup_insert_ne in Hj by done. destruct (Hall j pr Hj) as (w1 & HR1 & HC1). exists w1. split; [|done].
      eapply rely_trans; [exact HR1|]. by apply HG. }
  cbn [snd] in H3, H4. rewrite insert_length in H3, H4. exists w'. split; [done|]. split; [done|]. split; [|done].
  intros j Hj. eapply rely_trans; [apply HG|apply H3]; destruct Hj as [Hj|Hj]; [apply lookup_lt_Some in Ei; lia|set_solver|by left|right; set_solver].
Qed.

(** ** what a world shows of a leaf *)
Lemma leaf_at w p g md rt pa L : CInv w -> sA (ws w) !! p = Some (LF g md rt pa L) -> exists l l',
  heap (wm w) !! p = Some (NLeaf l) /\ heap (wt w) !! p = Some (NLeaf l') /\ lov (wph w) p l l' /\ leaf_rel (bags (wt w)) l' L /\
  l_perm l = lb_perm L /\ l_next l = lb_nx L /\ l_prev l = lb_pv L /\ l_ikey l = map s_ik (lb_sl L) /\ l_klx l = map s_kx (lb_sl L) /\
  vbits (l_ver l) md rt true.
Proof.
  intros HI Hp. destruct (St_leaf _ _ _ _ _ _ _ _ (ti_st _ _ _ (ci_t _ HI)) Hp) as (l' & H1 & H2 & H3 & H4).
  pose proof (mi_heap _ _ _ (ci_m _ HI) p) as Hh. rewrite H1 in Hh. destruct (heap (wm w) !! p) as [[l|?]|]; try done. exists l, l'.
  split; [done|]. split; [done|]. split; [done|]. split; [done|]. pose proof (lo_rest _ _ _ _ Hh) as E.
  rewrite <- (lr_perm _ _ _ H4), <- (lr_nx _ _ _ H4), <- (lr_pv _ _ _ H4), <- (lr_ik _ _ _ H4), <- (lr_kx _ _ _ H4).
  split; [by rewrite E|]. split; [by rewrite E|]. split; [by rewrite E|]. split; [by rewrite E|]. split; [by rewrite E|]. by rewrite E in H2.
Qed.
Lemma free_md w p g md rt pa b : CInv w -> sA (ws w) !! p = Some (mk_anode g md rt pa b) -> md = MFree.
Proof. intros HI Hp. eapply (ti_free _ _ _ (ci_t _ HI) _ _ Hp). by intros ?%elem_of_nil. Qed.
(** an entry in use is not reserved and shows its pointer *)
Lemma act_val w p g md rt pa L j x l : CInv w -> sA (ws w) !! p = Some (LF g md rt pa L) -> j ∈ ids L -> lb_sl L !! j = Some x ->
  heap (wm w) !! p = Some (NLeaf l) -> l_val l !! j = Some (s_ptr x).
Proof.
  intros HI Hp Hj Hx Hl. destruct (leaf_at _ _ _ _ _ _ _ HI Hp) as (l0 & l' & H1 & H2 & H3 & H4 & _). assert (l0 = l) as -> by congruence.
  rewrite (lo_eq _ _ _ _ H3), (lr_val _ _ _ H4), list_lookup_fmap, Hx; [done|].
  intros (i & ik & kx & y & h & Hc). destruct (pi_cl _ _ (ci_p _ HI) _ _ _ _ _ _ _ Hc) as (_ & g' & rt' & pa' & L' & z & Q1 & Q2 & _). rewrite Hp in Q1. by simplify_eq.
Qed.

(** ** reading *)
Section R.
Context (i : nat).
Definition rd {X} (pr : P X) (w : cw) (Φ : X -> cw -> Prop) : Prop :=
  CInv w -> cwp i pr w (fun r w' => Rely i w w' /\ CInv w' /\ Φ r w').
Lemma rd_at {X} (f : mem -> res (X * mem)) w (Φ : X -> cw -> Prop) :
  (forall w', Rely i w w' -> CInv w' -> exists r, f (wm w') = Ok (r, wm w') /\ Φ r w') -> rd (atomic f) w Φ.
Proof.
  intros H _ w1 HR HI. destruct (H w1 HR HI) as (r & E & HP). exists r, w1. split; [done|]. split; [done|]. split; [intros; apply rely_refl|]. done.
Qed.
Lemma rd_bind {X Y} (pr : P X) (f : X -> P Y) w (Φ : X -> cw -> Prop) (Ψ : Y -> cw -> Prop) :
  rd pr w Φ -> (forall r w', Rely i w w' -> CInv w' -> Φ r w' -> rd (f r) w' Ψ) -> rd (bind pr f) w Ψ.
Proof.
  intros Hp Hf HI. apply cwp_bind. eapply cwp_mono; [|by apply Hp]. intros r w' (H1 & H2 & H3). cbn beta.
  eapply cwp_mono; [|by apply (Hf r w')]. intros r2 w2 (H4 & H5 & H6). split; [by eapply rely_trans|]. done.
Qed.
Lemma rd_ret {X} (a : X) w (Φ : X -> cw -> Prop) : Φ a w -> rd (Ret a) w Φ.
Proof. intros H HI. split; [apply rely_refl|]. done. Qed.
Lemma rd_weaken {X} (pr : P X) w (Φ Ψ : X -> cw -> Prop) : rd pr w Φ -> (forall r w', Rely i w w' -> CInv w' -> Φ r w' -> Ψ r w') -> rd pr w Ψ.
Proof. intros Hp H HI. eapply cwp_mono; [|by apply Hp]. intros r w' (H1 & H2 & H3). auto. Qed.
(** using a reading program inside a writing one *)
Lemma rd_use {X Y} (pr : P X) (f : X -> P Y) w (Φ : X -> cw -> Prop) (Q : Y -> cw -> Prop) :
  rd pr w Φ -> CInv w -> (forall r w', Rely i w w' -> CInv w' -> Φ r w' -> cwp i (f r) w' Q) -> cwp i (bind pr f) w Q.
Proof. intros Hp HI Hf. apply cwp_bind. eapply cwp_mono; [|by apply Hp]. intros r w' (H1 & H2 & H3). by apply Hf. Qed.

(** a leaf as it was when first looked at *)
Section Leaf.
Context (p : N) (g : ghost) (rt : bool) (pa : N) (L : lbody) (w : cw) (Hp : grown (<[p := LF g MFree rt pa L]> ∅) (sA (ws w))).
Lemma old_leaf w' : Rely i w w' -> exists L', sA (ws w') !! p = Some (LF g MFree rt pa L') /\ lgrow L L'.
Proof. intros HR. eapply grown_leaf; [eapply grown_trans; [exact Hp|apply HR]|apply lookup_insert]. Qed.
Lemma rd_leaf {X} (f : leaf -> option X) (Φ : X -> cw -> Prop) :
  (forall w' l L', Rely i w w' -> CInv w' -> sA (ws w') !! p = Some (LF g MFree rt pa L') -> lgrow L L' ->
     heap (wm w') !! p = Some (NLeaf l) -> l_perm l = lb_perm L' -> l_next l = lb_nx L' -> l_prev l = lb_pv L' ->
     l_ikey l = map s_ik (lb_sl L') -> l_klx l = map s_kx (lb_sl L') -> length (l_val l) = 24 -> exists r, f l = Some r /\ Φ r w') -> rd (leaf_ld p f) w Φ.
Proof.
  intros H. apply rd_at. intros w' HR HI. destruct (old_leaf w' HR) as (L' & HL & HG).
  destruct (leaf_at _ _ _ _ _ _ _ HI HL) as (l & l' & H1 & _ & H2 & _ & H3 & H4 & H5 & H6 & H7 & _).
  destruct (H w' l L') as (r & E & HP); try done; [apply H2|]. exists r. by rewrite H1, E.
Qed.
Lemma rd_ikey j x : j ∈ ids L -> lb_sl L !! j = Some x -> rd (ikey p j) w (fun r _ => r = s_ik x).
Proof.
  intros Hj Hx. apply rd_leaf. intros w' l L' HR HI HL HG Hl E1 E2 E3 E4 E5 E6. exists (s_ik x). split; [|done].
  rewrite E4, list_lookup_fmap. destruct (lg_in _ _ HG j Hj) as [_ ->]. by rewrite Hx.
Qed.
Lemma rd_keylenx j x : j ∈ ids L -> lb_sl L !! j = Some x -> rd (keylenx p j) w (fun r _ => r = s_kx x).
Proof.
  intros Hj Hx. apply rd_leaf. intros w' l L' HR HI HL HG Hl E1 E2 E3 E4 E5 E6. exists (s_kx x). split; [|done].
  rewrite E5, list_lookup_fmap. destruct (lg_in _ _ HG j Hj) as [_ ->]. by rewrite Hx.
Qed.
Lemma rd_val_act j x : j ∈ ids L -> lb_sl L !! j = Some x -> rd (val_ptr p j) w (fun r _ => r = s_ptr x).
Proof.
  intros Hj Hx. apply rd_leaf. intros w' l L' HR HI HL HG Hl E1 E2 E3 E4 E5 E6. exists (s_ptr x). split; [|done].
  destruct (lg_in _ _ HG j Hj) as [G1 G2]. eapply act_val; [exact HI|exact HL|exact G1|congruence|done].
Qed.
Lemma rd_val_any j : j < 24 -> rd (val_ptr p j) w (fun r _ => True).
Proof.
  intros Hj. apply rd_leaf. intros w' l L' HR HI HL HG Hl E1 E2 E3 E4 E5 E6.
  destruct (lookup_lt_is_Some_2 (l_val l) j) as [x Hx]; [lia|]. by exists x.
Qed.
Lemma rd_next : rd (next_raw p) w (fun r _ => r = lb_nx L).
Proof. apply rd_leaf. intros w' l L' HR HI HL HG Hl E1 E2 E3 E4 E5 E6. eexists. split; [done|]. rewrite E2. apply HG. Qed.
Lemma rd_prev : rd (prev p) w (fun r _ => r = lb_pv L).
Proof. apply rd_leaf. intros w' l L' HR HI HL HG Hl E1 E2 E3 E4 E5 E6. eexists. split; [done|]. rewrite E3. apply HG. Qed.
Lemma rd_permutation : rd (permutation p) w (fun r w' => exists L', sA (ws w') !! p = Some (LF g MFree rt pa L') /\ lgrow L L' /\ r = lb_perm L').
Proof. apply rd_leaf. intros w' l L' HR HI HL HG Hl E1 E2 E3 E4 E5 E6. eexists. split; [done|]. exists L'. done. Qed.
End Leaf.

Section Ver.
Context (p : N) (n : anode) (Hp : sA sb !! p = Some n).
Lemma cur_node w : CInv w -> exists n', sA (ws w) !! p = Some n' /\ ngrow n n'.
Proof. intros HI. by apply (ti_grow _ _ _ (ci_t _ HI)). Qed.
Lemma rd_version w : rd (version p) w (fun r _ => rd_ver p mb = Some r /\ vbits r MFree (a_rt n) (is_leafb (a_bd n))).
Proof.
  apply rd_at. intros w' HR HI. destruct (cur_node w' HI) as ([g md rt pa b] & Hq & G). pose proof (free_md _ _ _ _ _ _ _ HI Hq) as ->.
  destruct G as (G1 & G2 & G3 & G4 & G5). cbn in *.
  assert (Hv : exists v, rd_ver p (wm w') = Some v /\ vbits v MFree rt (is_leafb b)).
  { destruct b as [L|J].
    - destruct (leaf_at _ _ _ _ _ _ _ HI Hq) as (l & l' & H1 & _ & _ & _ & _ & _ & _ & _ & _ & H2). exists (l_ver l). unfold rd_ver. by rewrite H1.
    - destruct (St_lookup _ _ _ _ (ti_st _ _ _ (ci_t _ HI)) Hq) as (x & Hx & Hr). pose proof (mi_heap _ _ _ (ci_m _ HI) p) as Hh. rewrite Hx in Hh.
      destruct x as [l|y]; [done|]. exists (i_ver y). unfold rd_ver. destruct (heap (wm w') !! p) as [[l|?]|]; try done. injection Hh as ->. split; [done|]. apply Hr. }
  destruct Hv as (v & E & Hb). exists v. rewrite E. split; [done|]. split; [by rewrite <- (mi_ver _ _ _ (ci_m _ HI) p)|]. rewrite <- G3.
  destruct (a_bd n), b; done.
Qed.
Lemma rd_flag f r w : (forall v, vbits v MFree (a_rt n) (is_leafb (a_bd n)) -> f v = r) -> rd (flag p f) w (fun r' _ => r' = r).
Proof. intros Hf. unfold flag. eapply rd_bind; [apply rd_version|]. intros v w1 _ _ (_ & H). apply rd_ret. auto. Qed.
Lemma rd_stable F w : 0 < F -> rd (stable F p) w (fun r _ => rd_ver p mb = Some r).
Proof.
  intros HF. destruct F as [|F]; [lia|]. unfold stable. cbn [ver_stable]. eapply rd_bind; [apply rd_version|]. intros v w1 _ _ (H1 & H2).
  rewrite (vbits_free_load _ _ _ H2). by apply rd_ret.
Qed.
Lemma rd_has_changed v w : rd_ver p mb = Some v -> rd (has_changed p v) w (fun r _ => r = false).
Proof.
  intros Hv. eapply rd_bind; [apply rd_version|]. intros v' w1 _ _ (H1 & H2). assert (v' = v) as -> by congruence. apply rd_ret.
  unfold v_has_changed. by rewrite N.lxor_nilpotent.
Qed.
Lemma rd_hcol v w : rd_ver p mb = Some v -> rd (has_changed_or_locked p v) w (fun r _ => r = false).
Proof.
  intros Hv. eapply rd_bind; [apply rd_version|]. intros v' w1 _ _ (H1 & H2). assert (v' = v) as -> by congruence. apply rd_ret.
  unfold v_has_changed_or_locked, v_has_changed. by rewrite N.lxor_nilpotent, (vbits_free_load _ _ _ H2).
Qed.
End Ver.
Section Inode.
Context (p : N) (g : ghost) (md : vmode) (rt : bool) (pa : N) (J : ibody) (Hp : sA sb !! p = Some (ND g md rt pa J)).
Lemma cur_inode w : CInv w -> exists y, heap (wm w) !! p = Some (NInode y) /\ inode_rel y J.
Proof.
  intros HI. pose proof (grown_inode _ _ _ _ _ _ _ _ (ti_grow _ _ _ (ci_t _ HI)) Hp) as Hq.
  destruct (St_lookup _ _ _ _ (ti_st _ _ _ (ci_t _ HI)) Hq) as (x & Hx & Hr). pose proof (mi_heap _ _ _ (ci_m _ HI) p) as Hh. rewrite Hx in Hh.
  destruct x as [l|y]; [done|]. exists y. destruct (heap (wm w) !! p) as [[l|?]|]; try done. injection Hh as ->. split; [done|]. apply Hr.
Qed.
Lemma rd_nkeys w : rd (nkeys p) w (fun r _ => r = ib_nk J).
Proof. apply rd_at. intros w' HR HI. destruct (cur_inode w' HI) as (y & E & H). rewrite E. eexists. split; [done|]. apply H. Qed.
Lemma rd_inode_ikey j x w : ib_ks J !! j = Some x -> rd (inode_ikey p j) w (fun r _ => r = x).
Proof. intros Hx. apply rd_at. intros w' HR HI. destruct (cur_inode w' HI) as (y & E & H). rewrite E. exists x. split; [|done]. destruct H. congruence || (rewrite ?ir_ks, ?Hx; done). Qed.
Lemma rd_child j x w : ib_cs J !! j = Some x -> rd (child p j) w (fun r _ => r = x).
Proof. intros Hx. apply rd_at. intros w' HR HI. destruct (cur_inode w' HI) as (y & E & H). rewrite E. exists x. split; [|done]. destruct H. congruence || (rewrite ?ir_cs, ?Hx; done). Qed.
End Inode.
Lemma rd_load_root w : rd load_root w (fun r _ => r = sR sb).
Proof.
  apply rd_at. intros w' HR HI. eexists. split; [done|]. rewrite (mi_root _ _ _ (ci_m _ HI)), (st_root _ _ (ti_st _ _ _ (ci_t _ HI))). apply (ti_R _ _ _ (ci_t _ HI)).
Qed.

(** ** the descent *)
Context (HS : St mb sb) (HI : Inv K B sb 0 0) (Hfb : free_but [] (sA sb)).
Local Notation A := (sA sb).
Local Notation I := (iv_s _ _ _ _ _ HI).
Lemma r_ub_loop p g md rt pa J ik : A !! p = Some (ND g md rt pa J) -> forall fuel l r w,
  l <= r -> r <= ib_nk J -> r - l <= fuel ->
  (forall x, bnds g J !! l = Some x -> x <= ik)%N -> (forall x, bnds g J !! (r + 1)%nat = Some x -> ik <= x)%N ->
  rd (ub_loop fuel p ik l r) w (fun ci _ => ci <= ib_nk J /\ (forall x, bnds g J !! ci = Some x -> x <= ik)%N /\
     (forall x, bnds g J !! (ci + 1)%nat = Some x -> ik <= x)%N).
Proof.
  intros Hp. pose proof (si_inode _ _ _ _ I p _ J (skels_lookup _ _ _ Hp) eq_refl) as HJ.
  induction fuel as [|fuel IH]; intros l r w Hlr Hr Hf Hl Hu; cbn [ub_loop].
  - destruct (Nat.ltb_spec l r); [lia|]. apply rd_ret. assert (l = r) as -> by lia. done.
  - destruct (Nat.ltb_spec l r); [|apply rd_ret; assert (l = r) as -> by lia; done].
    cbv zeta. set (mid := (l + r) / 2).
    assert (Hm : l <= mid < r).
    { unfold mid. split; [apply Nat.div_le_lower_bound; lia|apply Nat.div_lt_upper_bound; lia]. }
    destruct (lookup_lt_is_Some_2 (ib_ks J) mid) as [x Hx]; [destruct HJ; lia|].
    assert (Hb : bnds g J !! (mid + 1) = Some x) by (rewrite bnds_mid; [done|lia|destruct HJ; lia]).
    eapply rd_bind; [by eapply rd_inode_ikey|]. intros r' w1 _ _ ->.
    destruct (N.compare_spec ik x) as [->|Hc|Hc].
    + apply rd_ret. split; [lia|]. split; [intros; assert (x0 = x) by congruence; lia|].
      intros y Hy. eapply (bnds_step _ _ _ _ I p _ J (mid + 1)); [by apply skels_lookup|done|done|done].
    + apply IH; [lia|lia|lia|done|]. intros y Hy. assert (y = x) by congruence. lia.
    + apply IH; [lia|lia|lia| |done]. intros y Hy. assert (y = x) by congruence. lia.
Qed.
Lemma r_reach_leaf F st ik : 0 < F -> forall n p pn w, A !! p = Some pn -> lvl (skel pn) < n ->
  (g_lo (a_gh pn) <= ik <= g_hi (a_gh pn))%N ->
  rd (reach_leaf F n st p ik) w (fun q _ => lands sb (g_lid (a_gh pn)) ik q).
Proof.
  intros HF0. induction n as [|n IH]; intros p pn w Hp Hn Hik; cbn [reach_leaf]; [lia|].
  destruct pn as [g md rt pa b]. cbn [a_gh] in *.
  eapply rd_bind; [by eapply rd_stable|]. intros v w1 _ _ Hv. cbv beta in Hv.
  eapply rd_bind; [eapply (rd_flag p _ Hp v_is_leaf); intros; by eapply vbits_leaf|]. intros r w2 _ _ ->. cbn [a_bd]. destruct b as [L|J]; cbn [is_leafb].
  - apply rd_ret. by exists g, md, rt, pa, L.
  - pose proof (si_inode _ _ _ _ I p _ J (skels_lookup _ _ _ Hp) eq_refl) as HJ.
    eapply rd_bind.
    { unfold upper_bound_internode. eapply rd_bind; [by eapply rd_nkeys|]. intros r w3 _ _ ->.
      eapply r_ub_loop; [exact Hp|lia|lia|lia|..].
      { intros x Hx. rewrite bnds_0 in Hx. injection Hx as <-. apply Hik. }
      { intros x Hx. rewrite bnds_last in Hx by (destruct HJ; lia). injection Hx as <-. apply Hik. } }
    intros ci w3 _ _ (Hci & Hl & Hu).
    destruct (kid_at _ _ _ _ I p _ J ci (skels_lookup _ _ _ Hp) eq_refl Hci) as (c & cn & _ & Hc & _ & Hcn & C1 & C2 & C3 & C4 & C5).
    pose proof (hi_xh _ _ _ _ HS HI _ _ Hcn) as Hxh.
    apply skels_some in Hcn as (a & Ha & ->). eapply rd_bind; [by eapply rd_child|]. intros r w4 _ _ ->.
    pose proof (nz _ _ HS _ _ Ha). destruct (N.eqb_spec c 0); [done|].
    eapply rd_bind; [by eapply rd_has_changed|]. intros ch w5 _ _ ->.
    eapply rd_weaken; [eapply IH; [exact Ha|unfold lvl at 1 in Hn; cbn in Hn; lia|]|].
    + specialize (Hl _ C4). specialize (Hu _ C5). rewrite Hxh in Hu. split; [exact Hl|exact Hu].
    + intros q w6 _ _ Hq. cbn in C2. by rewrite <- C2.
Qed.
Lemma base_leaf w p g md rt pa L : CInv w -> A !! p = Some (LF g md rt pa L) -> grown (<[p := LF g MFree rt pa L]> ∅) (sA (ws w)).
Proof.
  intros HC Hp q n Hq. apply lookup_insert_Some in Hq as [[<- <-]|[_ Hq]]; [|by rewrite lookup_empty in Hq].
  destruct (ti_grow _ _ _ (ci_t _ HC) _ _ Hp) as (n' & H1 & H2). exists n'. split; [done|].
  assert (md = MFree) as -> by (eapply (Hfb _ _ Hp); by intros ?%elem_of_nil). done.
Qed.
Lemma r_by_bound_loop F ik l : (ik < TOP)%N -> forall n hops p g md rt pa L w,
  A !! p = Some (LF g md rt pa L) -> g_lid g = l -> (g_lo g <= ik <= g_hi g)%N -> rank g ik < n -> rank g ik + hops < 128 -> CInv w ->
  rd (by_bound_loop F n p ik hops) w (fun r _ => exists q, r = (q, false) /\ holds sb l ik q).
Proof.
  intros Ht. induction n as [|n IH]; intros hops p g md rt pa L w Hp Hl Hik Hn Hh HC; cbn [by_bound_loop]; [lia|].
  unfold MAX_BLINK_HOPS. destruct (Nat.leb_spec 128 hops); [lia|].
  eapply rd_bind; [eapply rd_next; by eapply base_leaf|]. intros r w1 _ HC1 ->.
  destruct (next_leaf _ _ _ _ HS HI _ _ _ _ _ _ Hp) as [[Hz Hi]|(Hz & He & g' & md' & rt' & pa' & L' & Hq & Q1 & Q2 & Q3 & (x & Hx & Hxi) & Q4 & Q5)].
  - rewrite Hz. change (is_marked 0) with false. cbv iota.
    change (unmark_ptr 0) with 0%N. cbn [N.eqb]. apply rd_ret. exists p. split; [done|]. exists g, md, rt, pa, L. rewrite Hi. split; [done|]. split; [done|]. lia.
  - destruct (even_unmarked _ He) as [-> ->]. cbv zeta. destruct (N.eqb_spec (lb_nx L) 0); [done|].
    assert (H0 : 0 ∈ ids L').
    { destruct (lk_first _ _ _ _ _ _ (iv_l _ _ _ _ _ HI _ _ _ _ _ _ Hq)) as [F1 _]; [rewrite Q3; by eapply nz|]. by eapply elem_of_list_lookup_2. }
    eapply rd_bind; [eapply rd_ikey; [by eapply base_leaf|exact H0|exact Hx]|]. intros r w2 _ HC2 ->. rewrite Hxi.
    destruct (N.leb_spec (g_hi g) ik).
    + assert (ik = g_hi g) as -> by lia.
      pose proof (si_gh _ _ _ _ I _ _ (skels_lookup _ _ _ Hq)) as [G _ _ _ _ _]. cbn in G.
      assert (Hr : rank g' (g_hi g) < rank g (g_hi g)).
      { unfold rank. rewrite N.ltb_irrefl. destruct (N.ltb_spec (g_hi g) (g_hi g')).
        - destruct (_ =? _)%N; lia.
        - destruct (N.eqb_spec (g_lo g) (g_hi g)) as [E|E]; [specialize (Q5 E); lia|].
          destruct (N.eqb_spec (g_lo g') (g_hi g')); lia. }
      eapply IH; [exact Hq|congruence|lia|lia|lia|done].
    + apply rd_ret. exists p. split; [done|]. exists g, md, rt, pa, L. split; [done|]. split; [done|]. lia.
Qed.
Lemma r_advance_by_bound F ik l p w : (ik < TOP)%N -> 3 <= F -> lands sb l ik p -> CInv w ->
  rd (advance_by_bound F p ik) w (fun r _ => exists q, r = (q, false) /\ holds sb l ik q).
Proof.
  intros Ht HF (g & md & rt & pa & L & Hp & Hl & Hik) HC. unfold advance_by_bound.
  eapply rd_bind; [eapply (rd_flag p _ Hp v_is_splitting); intros v0 H; rewrite (vbits_splitting _ _ _ _ H); reflexivity|]. intros r w1 _ HC1 ->.
  eapply (rd_bind _ _ _ (fun _ _ => True)); [by apply rd_ret|]. intros r w2 _ HC2 _.
  pose proof (rank_le g ik). eapply r_by_bound_loop; [done|done|done|done|lia|lia|done].
Qed.
End R.
End S.
Arguments ti_st {K B sb t s mu}.
Arguments ti_inv {K B sb t s mu}.
Arguments ti_free {K B sb t s mu}.
Arguments ti_fv {K B sb t s mu}.
Arguments ti_fn {K B sb t s mu}.
Arguments ti_dead {K B sb t s mu}.
Arguments ti_mu {K B sb t s mu}.
Arguments ti_grow {K B sb t s mu}.
Arguments ti_R {K B sb t s mu}.
Arguments mi_ver {mb m t ph}.
Arguments mi_heap {mb m t ph}.
Arguments mi_bags {mb m t ph}.
Arguments mi_root {mb m t ph}.
Arguments mi_cnt {mb m t ph}.
Arguments mi_nxt {mb m t ph}.
Arguments mi_ret {mb m t ph}.
Arguments mi_trk {mb m t ph}.
Arguments pi_cl {s ph}.
Arguments pi_sep {s ph}.
Arguments vi_1 {calls m t ph}.
Arguments vi_2 {calls m t ph}.
Arguments vi_3 {calls m t ph}.
Arguments vi_4 {calls m t ph}.
Arguments gi_pub {sb mu0 calls s ph mu pub cn}.
Arguments gi_cn {sb mu0 calls s ph mu pub cn}.
Arguments gi_cnt {sb mu0 calls s ph mu pub cn}.
Arguments gi_size {sb mu0 calls s ph mu pub cn}.
Arguments gi_mu0 {sb mu0 calls s ph mu pub cn}.
Arguments gi_perm {sb mu0 calls s ph mu pub cn}.
Arguments gi_new {sb mu0 calls s ph mu pub cn}.
Arguments gi_old {sb mu0 calls s ph mu pub cn}.
Arguments gi_uniq {sb mu0 calls s ph mu pub cn}.
Arguments ci_t {K B mb sb mu0 calls w}.
Arguments ci_m {K B mb sb mu0 calls w}.
Arguments ci_p {K B mb sb mu0 calls w}.
Arguments ci_v {K B mb sb mu0 calls w}.
Arguments ci_g {K B mb sb mu0 calls w}.
Arguments ci_e {K B mb sb mu0 calls w}.
