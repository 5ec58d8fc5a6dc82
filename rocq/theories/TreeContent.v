(** The content of the tree as a relation between keys and values, and how updates of
    one leaf change it. *)
From Verif Require Import Base Perm PermFacts PermList SpecPerm PermLaws Key SpecKey KeyFacts Prog Version Mem Tree TreeState TreePrim TreeInv TreeRead TreeSplit TreeSkel TreeInode TreeProp TreeLeaf.

Global Instance slot_dec : EqDecision slot. Proof. solve_decision. Defined.
(** the layers that key [kb] passes through *)
Inductive path (A : gmap N anode) (kb : bytes) : N -> nat -> Prop :=
| p_main : path A kb MAIN 0
| p_down l d e n : path A kb l d -> entry A l e -> s_kx e = LAYER_KEYLENX -> s_ik e = be_word (pad8 (drop (d * 8) kb)) ->
    8 < length (drop (d * 8) kb) -> A !! s_ptr e = Some n -> path A kb (g_lid (a_gh n)) (d + 1).
Definition maps (s : ast) (k : bytes) (w : N) : Prop := exists h, reaches (sA s) k MAIN 0 h /\ sV s !! h = Some w.

Lemma path_reaches A k l d h : path A k l d -> reaches A k l d h -> reaches A k MAIN 0 h.
Proof. intros H. revert h. induction H as [|l d e n H IH H1 H2 H3 H4 H5]; intros h Hr; [done|]. apply IH. by eapply r_down. Qed.

Lemma pad8_long r : 8 <= length r -> pad8 r = take 8 r.
Proof. intros H. unfold pad8. replace (8 - length r) with 0 by lia. by rewrite app_nil_r. Qed.
Lemma slice_eq a b : is_bytes a -> is_bytes b -> be_word (pad8 a) = be_word (pad8 b) -> pad8 a = pad8 b.
Proof. intros Ha Hb. apply be_word_inj; [by apply pad8_bytes|by apply pad8_bytes|by rewrite !pad8_length]. Qed.
Lemma drop_step (r : bytes) d : drop ((d + 1) * 8) r = drop 8 (drop (d * 8) r).
Proof. rewrite drop_drop. f_equal. lia. Qed.
Lemma take_step (r : bytes) d : take ((d + 1) * 8) r = take (d * 8) r ++ take 8 (drop (d * 8) r).
Proof. rewrite take_drop_commute. replace (d * 8 + 8) with ((d + 1) * 8) by lia.
  rewrite <- (take_drop (d * 8) (take ((d + 1) * 8) r)) at 1. rewrite take_take. f_equal. f_equal. lia. Qed.
Lemma rest_fun e a b : rest_of e a -> rest_of e b -> a = b.
Proof.
  intros (A1 & A2 & A3) (B1 & B2 & B3).
  assert (E : pad8 a = pad8 b) by (apply slice_eq; [done|done|congruence]).
  destruct (Nat.leb_spec (length a) 8), (Nat.leb_spec (length b) 8).
  - apply pad8_inj; [lia|done|done].
  - destruct B3 as [B3 _]. unfold KSUF_KEYLENX in B3. lia.
  - destruct A3 as [A3 _]. unfold KSUF_KEYLENX in A3. lia.
  - destruct A3 as [_ A3], B3 as [_ B3]. rewrite !pad8_long in E by lia.
    rewrite <- (take_drop 8 a), <- (take_drop 8 b). f_equal; congruence.
Qed.

Section Facts.
Context (K : bytes -> N -> Prop) (B : N) (s : ast) (HI : Inv K B s 0 0).
Local Notation A := (sA s).
Local Notation I := (iv_s _ _ _ _ _ HI).

Lemma node_layer x n : A !! x = Some n -> exists n', A !! g_lid (a_gh n) = Some n' /\ g_lid (a_gh n') = g_lid (a_gh n) /\ g_pre (a_gh n') = g_pre (a_gh n).
Proof.
  intros Hx. destruct (si_lid _ _ _ _ I x _ (skels_lookup _ _ _ Hx)) as (n' & H1 & H2 & H3).
  apply skels_some in H1 as (a & Ha & ->). eauto.
Qed.
(** all nodes of a layer stand for the same key prefix *)
Lemma layer_pre x y n n' : A !! x = Some n -> A !! y = Some n' -> g_lid (a_gh n) = g_lid (a_gh n') -> g_pre (a_gh n) = g_pre (a_gh n').
Proof.
  intros Hx Hy E. destruct (node_layer _ _ Hx) as (a & A1 & A2 & A3). destruct (node_layer _ _ Hy) as (b & B1 & B2 & B3).
  rewrite E in A1. congruence.
Qed.
Lemma path_pre kb l d : is_bytes kb -> path A kb l d ->
  exists n, A !! l = Some n /\ g_lid (a_gh n) = l /\ g_pre (a_gh n) = take (d * 8) kb /\ (d = 0 \/ d * 8 < length kb).
Proof.
  intros Hb. induction 1 as [|l d e n H IH H1 H2 H3 H4 H5].
  - destruct (si_root _ _ _ _ I) as (n & N1 & N2 & _ & N3 & _). apply skels_some in N1 as (a & Ha & ->). cbn in *.
    destruct (node_layer _ _ Ha) as (b & B1 & B2 & B3). exists b. rewrite N2 in B1, B2. split; [done|]. split; [done|]. split; [|by left]. rewrite B3. exact N3.
  - destruct IH as (n0 & N1 & N2 & N3 & N4). destruct H1 as (p & g & md & rt & pa & L & Hp & Hl & He).
    pose proof (layer_pre _ _ _ _ N1 Hp ltac:(cbn; congruence)) as Hpr. cbn in Hpr.
    destruct (lk_ent _ _ _ _ _ _ (iv_l _ _ _ _ _ HI _ _ _ _ _ _ Hp) e He) as (_ & [(r & v & R1 & _)|(_ & n1 & w & t & v & R1 & R2 & R3 & R4 & R5 & R6 & R7 & R8)]).
    { pose proof (rest_lt _ _ R1). lia. }
    rewrite (skels_lookup _ _ _ H5) in R1. injection R1 as <-. cbn in R5.
    destruct (node_layer _ _ H5) as (b & B1 & B2 & B3). exists b. split; [done|]. split; [done|]. rewrite drop_length in H4. split; [|right; lia].
    rewrite B3, R5, take_step, <- Hpr, <- N3. f_equal. rewrite <- (pad8_long (drop (d * 8) kb)) by (rewrite drop_length; lia).
    apply be_word_inj; [done|by apply pad8_bytes, Forall_drop|by rewrite pad8_length|congruence].
Qed.
Lemma path_same k k' l d d' : is_bytes k -> is_bytes k' -> path A k l d -> path A k' l d' -> d = d' /\ take (d * 8) k = take (d * 8) k'.
Proof.
  intros Hb Hb' H H'. destruct (path_pre _ _ _ Hb H) as (n & N1 & N2 & N3 & N4). destruct (path_pre _ _ _ Hb' H') as (n' & M1 & M2 & M3 & M4).
  assert (n' = n) as -> by congruence. assert (E : take (d * 8) k = take (d' * 8) k') by congruence.
  assert (Hl : length (take (d * 8) k) = length (take (d' * 8) k')) by congruence. rewrite !take_length in Hl.
  assert (d = d') as <- by (destruct N4 as [->|], M4 as [->|]; lia). done.
Qed.
(** two keys in the same layer with the same rest are the same *)
Lemma path_rest k k' l d d' : is_bytes k -> is_bytes k' -> path A k l d -> path A k' l d' -> drop (d * 8) k = drop (d' * 8) k' -> k = k'.
Proof.
  intros Hb Hb' H H' Hr. destruct (path_same _ _ _ _ _ Hb Hb' H H') as [<- E]. rewrite <- (take_drop (d * 8) k), <- (take_drop (d * 8) k'). congruence.
Qed.
(** a key that reaches a layer passes on through it *)
Lemma path_through k l d h : NoDead A -> path A k l d -> reaches A k MAIN 0 h -> reaches A k l d h.
Proof.
  intros HN. induction 1 as [|l d e n H IH H1 H2 H3 H4 H5]; intros Hr; [done|].
  specialize (IH Hr). apply reaches_hit in IH as (e' & E1 & E2 & E3).
  assert (e' = e) as -> by (eapply (entry_uniq K B s HI); [done|done|done|]; eapply hit_ecls; [exact E2|]; split; [done|by right]).
  destruct E3 as [[E3 _]|[_ (n' & E3 & E4)]]; [lia|]. by assert (n' = n) as <- by congruence.
Qed.
Lemma entry_ok l e : entry A l e -> exists n, A !! l = Some n /\ g_lid (a_gh n) = l /\ ent_ok K (skels A) (sV s) (a_gh n) e.
Proof.
  intros (p & g & md & rt & pa & L & Hp & Hl & He). destruct (node_layer _ _ Hp) as (n & N1 & N2 & N3). cbn in *. rewrite Hl in *.
  exists n. split; [done|]. split; [done|]. eapply ent_ok_mono; [..|exact N3|]; cycle 3.
  - by apply (lk_ent _ _ _ _ _ _ (iv_l _ _ _ _ _ HI _ _ _ _ _ _ Hp)).
  - done.
  - intros x y Hx. eauto.
  - done.
Qed.
(** the value behind an entry was inserted under the key it stands for *)
Lemma value_entry k l d e : is_bytes k -> path A k l d -> entry A l e -> rest_of e (drop (d * 8) k) ->
  exists v, sV s !! s_ptr e = Some v /\ K k v.
Proof.
  intros Hb Hp He Hr. destruct (entry_ok _ _ He) as (n & N1 & N2 & _ & [(r & v & R1 & R2 & R3 & R4)|(R1 & _)]).
  - destruct (path_pre _ _ _ Hb Hp) as (n' & M1 & M2 & M3 & M4). assert (n' = n) as -> by congruence.
    rewrite (rest_fun _ _ _ R1 Hr), M3, take_drop in R4. eauto.
  - pose proof (rest_lt _ _ Hr). lia.
Qed.
Lemma reaches_val k l d h : is_bytes k -> path A k l d -> reaches A k l d h -> exists v, sV s !! h = Some v /\ K k v.
Proof.
  intros Hb Hp H. induction H as [l d e H1 H2 H3|l d e n h H1 H2 H3 H4 H5 H6 IH].
  - by eapply value_entry.
  - apply IH. by eapply p_down.
Qed.
Lemma maps_K k w : is_bytes k -> maps s k w -> K k w.
Proof. intros Hb (h & Hr & Hv). destruct (reaches_val k MAIN 0 h Hb (p_main _ _) Hr) as (v & H1 & H2). by assert (v = w) as <- by congruence. Qed.
Lemma maps_fun k w w' : NoDead A -> maps s k w -> maps s k w' -> w = w'.
Proof. intros HN (h & H1 & H2) (h' & H3 & H4). pose proof (reaches_fun K B s HI k _ _ _ _ HN H1 H3). congruence. Qed.
End Facts.

(** ** rearrangements *)
Lemma csame_path A A' k l d : csame A A' -> path A k l d -> path A' k l d.
Proof.
  intros [HN HE] H. induction H as [|l d e n H IH H1 H2 H3 H4 H5]; [constructor|].
  destruct (HN _ _ H5) as (n' & N1 & N2 & N3). rewrite <- N2. eapply p_down; [done|by apply HE|done|done|done|done].
Qed.
Lemma csame_reaches A A' k l d h : csame A A' -> reaches A k l d h -> reaches A' k l d h.
Proof.
  intros [HN HE] H. induction H as [l d e H1 H2 H3|l d e n h H1 H2 H3 H4 H5 H6 IH].
  - apply r_here; [by apply HE|done|done].
  - destruct (HN _ _ H5) as (n' & N1 & N2 & N3). eapply r_down; [by apply HE|done|done|done|done|by rewrite N2].
Qed.
Lemma csame_reaches_back K B s A' k l d h : Inv K B s 0 0 -> csame (sA s) A' -> reaches A' k l d h -> reaches (sA s) k l d h.
Proof.
  intros HI [HN HE] H. induction H as [l d e H1 H2 H3|l d e n h H1 H2 H3 H4 H5 H6 IH].
  - apply r_here; [by apply HE|done|done].
  - apply HE in H1. destruct (entry_ok _ _ _ HI _ _ H1) as (a & _ & _ & _ & [(r & v & R1 & _)|(_ & n1 & w & t & v & R1 & _)]).
    { pose proof (rest_lt _ _ R1). lia. }
    apply skels_some in R1 as (n0 & N1 & ->). destruct (HN _ _ N1) as (n' & M1 & M2 & M3). assert (n' = n) as -> by congruence.
    eapply r_down; [done|done|done|done|done|by rewrite <- M2].
Qed.
Lemma csame_maps K B s s' k w : Inv K B s 0 0 -> csame (sA s) (sA s') -> sV s' = sV s -> maps s' k w <-> maps s k w.
Proof.
  intros HI HC HV. unfold maps. rewrite HV. split; intros (h & H1 & H2); exists h; (split; [|done]).
  - by eapply csame_reaches_back.
  - by eapply csame_reaches.
Qed.

(** ** one value entry added or replaced *)
Section Upd.
Context (K : bytes -> N -> Prop) (B B' : N) (s s' : ast) (HI : Inv K B s 0 0) (HI' : Inv K B' s' 0 0) (HN : NoDead (sA s)) (HN' : NoDead (sA s')).
Context (kb : bytes) (v : N) (l0 : N) (d0 : nat) (Hkb : is_bytes kb) (Hpath : path (sA s) kb l0 d0).
Context (Hnode : forall x n, sA s !! x = Some n -> exists n', sA s' !! x = Some n' /\ g_lid (a_gh n') = g_lid (a_gh n)).
Context (HV : forall h w, sV s !! h = Some w -> sV s' !! h = Some w).
Context (e : slot) (Hrest : rest_of e (drop (d0 * 8) kb)) (Hv : sV s' !! s_ptr e = Some v).
Context (Hnolayer : forall x, entry (sA s) l0 x -> hit (drop (d0 * 8) kb) x -> (s_kx x < LAYER_KEYLENX)%N).
Context (Hent : forall l x, entry (sA s') l x <-> (l = l0 /\ x = e) \/ (entry (sA s) l x /\ ~ (l = l0 /\ hit (drop (d0 * 8) kb) x))).

Lemma upd_lt : (s_kx e < LAYER_KEYLENX)%N. Proof. by eapply rest_lt. Qed.
Lemma upd_layer l x n : entry (sA s) l x -> s_kx x = LAYER_KEYLENX -> sA s !! s_ptr x = Some n -> entry (sA s') l x /\ exists n', sA s' !! s_ptr x = Some n' /\ g_lid (a_gh n') = g_lid (a_gh n).
Proof.
  intros He Hx Hn. split; [|by apply Hnode]. apply Hent. right. split; [done|]. intros [-> Hh]. specialize (Hnolayer x He Hh). lia.
Qed.
Lemma upd_path k l d : path (sA s) k l d -> path (sA s') k l d.
Proof.
  induction 1 as [|l d x n H IH H1 H2 H3 H4 H5]; [constructor|].
  destruct (upd_layer _ _ _ H1 H2 H5) as (E1 & n' & E2 & E3). rewrite <- E3. by eapply p_down.
Qed.
Lemma upd_fwd k l d h : is_bytes k -> path (sA s) k l d -> reaches (sA s) k l d h -> k = kb \/ reaches (sA s') k l d h.
Proof.
  intros Hb Hp H. induction H as [l d x H1 H2 H3|l d x n h H1 H2 H3 H4 H5 H6 IH].
  - destruct (decide (k = kb)); [by left|right]. apply r_here; [|done|done]. apply Hent. right. split; [done|].
    intros [-> [_ [Hh|[Hh _]]]]; [|lia]. pose proof (rest_fun _ _ _ H3 Hh) as E. eapply (path_rest K B s HI k kb) in E; done.
  - destruct IH as [->|IH]; [by eapply p_down|by left|right].
    destruct (upd_layer _ _ _ H1 H2 H5) as (E1 & n' & E2 & E3). eapply r_down; [done|done|done|done|done|by rewrite E3].
Qed.
Lemma upd_bwd k l d h : is_bytes k -> path (sA s) k l d -> reaches (sA s') k l d h -> k = kb \/ reaches (sA s) k l d h.
Proof.
  intros Hb Hp H. induction H as [l d x H1 H2 H3|l d x n h H1 H2 H3 H4 H5 H6 IH].
  - apply Hent in H1 as [[-> ->]|[H1 _]]; [left|right; by apply r_here].
    pose proof (rest_fun _ _ _ H3 Hrest) as E. eapply (path_rest K B s HI k kb) in E; done.
  - apply Hent in H1 as [[-> ->]|[H1 _]]; [pose proof upd_lt; lia|].
    destruct (entry_ok _ _ _ HI _ _ H1) as (a & _ & _ & _ & [(r & w & R1 & _)|(_ & n1 & w & t & w' & R1 & _)]).
    { pose proof (rest_lt _ _ R1). lia. }
    apply skels_some in R1 as (n0 & N1 & ->). destruct (Hnode _ _ N1) as (n' & M1 & M2). assert (n' = n) as -> by congruence. rewrite M2 in IH.
    destruct IH as [->|IH]; [by eapply p_down|by left|right; by eapply r_down].
Qed.
Lemma upd_maps k w : is_bytes k -> maps s' k w <-> (k = kb /\ w = v) \/ (k <> kb /\ maps s k w).
Proof.
  intros Hb. assert (Hkey : reaches (sA s') kb MAIN 0 (s_ptr e)).
  { eapply path_reaches; [by apply upd_path|]. apply r_here; [apply Hent; by left|apply upd_lt|done]. }
  split.
  - intros (h & H1 & H2). destruct (decide (k = kb)) as [->|Hne].
    + left. split; [done|]. pose proof (reaches_fun K B' s' HI' kb _ _ _ _ HN' H1 Hkey). congruence.
    + right. split; [done|]. destruct (upd_bwd k MAIN 0 h Hb (p_main _ _) H1) as [|H3]; [done|]. exists h. split; [done|].
      destruct (reaches_val K B s HI k MAIN 0 h Hb (p_main _ _) H3) as (w' & H4 & _). rewrite H4. f_equal. specialize (HV _ _ H4). congruence.
  - intros [[-> ->]|[Hne (h & H1 & H2)]]; [by exists (s_ptr e)|].
    destruct (upd_fwd k MAIN 0 h Hb (p_main _ _) H1) as [|H3]; [done|]. exists h. split; [done|by apply HV].
Qed.
(** what was there before *)
Lemma upd_old_found x w : entry (sA s) l0 x -> rest_of x (drop (d0 * 8) kb) -> maps s kb w <-> sV s !! s_ptr x = Some w.
Proof.
  intros Hx Hr. assert (H : reaches (sA s) kb MAIN 0 (s_ptr x)).
  { eapply path_reaches; [exact Hpath|]. apply r_here; [done|by eapply rest_lt|done]. }
  split; [|by exists (s_ptr x)]. intros (h & H1 & H2). by rewrite (reaches_fun K B s HI kb _ _ _ _ HN H H1).
Qed.
Lemma upd_old_none w : (forall x, entry (sA s) l0 x -> ~ hit (drop (d0 * 8) kb) x) -> ~ maps s kb w.
Proof.
  intros Hno (h & H1 & H2). apply (path_through K B s HI kb l0 d0 h HN Hpath) in H1.
  apply reaches_hit in H1 as (x & E1 & E2 & _). by eapply Hno.
Qed.
End Upd.

(** ** one value entry pushed down into a new chain of layers *)
Section Conv.
Context (K : bytes -> N -> Prop) (B : N) (s s' : ast) (HI : Inv K B s 0 0).
Context (kb : bytes) (v : N) (l0 : N) (d0 : nat) (Hkb : is_bytes kb) (Hpath : path (sA s) kb l0 d0).
Local Notation r := (drop (d0 * 8) kb).
Context (e1 : slot) (r1 : bytes) (He1 : entry (sA s) l0 e1) (Hr1 : rest_of e1 r1) (Hne : r1 <> r) (Hl : 8 < length r) (Hl1 : 8 < length r1)
  (Hik : s_ik e1 = be_word (pad8 r)).
Context (Hnode : forall x n, sA s !! x = Some n -> exists n', sA s' !! x = Some n' /\ g_lid (a_gh n') = g_lid (a_gh n)).
Context (HV : forall h w, sV s !! h = Some w -> sV s' !! h = Some w).
Context (eL : slot) (nL : anode) (HkL : s_kx eL = LAYER_KEYLENX) (HiL : s_ik eL = s_ik e1) (HnL : sA s' !! s_ptr eL = Some nL).
Context (Hent : forall l x, is_Some (sA s !! l) -> entry (sA s') l x <-> (l = l0 /\ x = eL) \/ (entry (sA s) l x /\ ~ (l = l0 /\ x = e1))).
Context (hn he vold : N) (Hvn : sV s' !! hn = Some v) (Hve : sV s' !! he = Some vold) (Hvo : sV s !! s_ptr e1 = Some vold).
Context (Hchain : forall k h, is_bytes k -> reaches (sA s') k (g_lid (a_gh nL)) (d0 + 1) h <->
  (drop ((d0 + 1) * 8) k = drop 8 r /\ h = hn) \/ (drop ((d0 + 1) * 8) k = drop 8 r1 /\ h = he)).

Lemma cv_slice : take 8 r1 = take 8 r.
Proof.
  rewrite <- (pad8_long r), <- (pad8_long r1) by lia. destruct Hr1 as (H1 & H2 & _). apply slice_eq; [done|by apply Forall_drop|congruence].
Qed.
Lemma cv_kx : s_kx e1 = KSUF_KEYLENX.
Proof. destruct Hr1 as (_ & _ & H). destruct (Nat.leb_spec (length r1) 8); [lia|apply H]. Qed.
Definition cv_key : bytes := take (d0 * 8) kb ++ r1.
Lemma cv_d0 : d0 * 8 < length kb. Proof. rewrite drop_length in Hl. lia. Qed.
Lemma cv_drop : drop (d0 * 8) cv_key = r1.
Proof. unfold cv_key. apply drop_app_alt. rewrite take_length. pose proof cv_d0. lia. Qed.
Lemma cv_ne : cv_key <> kb. Proof. intros E. apply Hne. by rewrite <- cv_drop, E. Qed.
(** a key of layer [l0] whose slice is this one and whose rest is known *)
Lemma cv_from k a : is_bytes k -> path (sA s) k l0 d0 -> drop (d0 * 8) k = a -> k = take (d0 * 8) kb ++ a.
Proof.
  intros Hb Hp Ha. destruct (path_same K B s HI _ _ _ _ _ Hb Hkb Hp Hpath) as [_ E]. rewrite <- E, <- Ha. by rewrite take_drop.
Qed.
Lemma cv_old l x : entry (sA s) l x -> is_Some (sA s !! l).
Proof. intros H. destruct (entry_ok _ _ _ HI _ _ H) as (n & N1 & _). eauto. Qed.
Lemma cv_layer l x n : entry (sA s) l x -> s_kx x = LAYER_KEYLENX -> sA s !! s_ptr x = Some n -> entry (sA s') l x /\ exists n', sA s' !! s_ptr x = Some n' /\ g_lid (a_gh n') = g_lid (a_gh n).
Proof.
  intros He Hx Hn. split; [|by apply Hnode]. apply Hent; [by eapply cv_old|]. right. split; [done|]. intros [-> ->]. rewrite cv_kx in Hx. done.
Qed.
Lemma cv_path k l d : path (sA s) k l d -> path (sA s') k l d.
Proof.
  induction 1 as [|l d x n H IH H1 H2 H3 H4 H5]; [constructor|].
  destruct (cv_layer _ _ _ H1 H2 H5) as (E1 & n' & E2 & E3). rewrite <- E3. by eapply p_down.
Qed.
Lemma cv_fwd k l d h : is_bytes k -> path (sA s) k l d -> reaches (sA s) k l d h -> (k = cv_key /\ h = s_ptr e1 /\ path (sA s) k l0 d0) \/ reaches (sA s') k l d h.
Proof.
  intros Hb Hp H. induction H as [l d x H1 H2 H3|l d x n h H1 H2 H3 H4 H5 H6 IH].
  - destruct (decide (l = l0 /\ x = e1)) as [[-> ->]|Hx].
    + left. destruct (path_same K B s HI _ _ _ _ _ Hb Hkb Hp Hpath) as [-> _]. split; [|done]. apply cv_from; [done|done|]. by eapply rest_fun.
    + right. apply r_here; [|done|done]. apply Hent; [by eapply cv_old|]. by right.
  - destruct IH as [IH|IH]; [by eapply p_down|by left|right].
    destruct (cv_layer _ _ _ H1 H2 H5) as (E1 & n' & E2 & E3). eapply r_down; [done|done|done|done|done|by rewrite E3].
Qed.
Lemma cv_bwd k l d h : is_bytes k -> path (sA s) k l d -> reaches (sA s') k l d h ->
  (k = kb /\ h = hn) \/ (k = cv_key /\ h = he /\ path (sA s) k l0 d0) \/ reaches (sA s) k l d h.
Proof.
  intros Hb Hp H. induction H as [l d x H1 H2 H3|l d x n h H1 H2 H3 H4 H5 H6 IH].
  - destruct (path_pre _ _ _ HI _ _ _ Hb Hp) as (m & M1 & _). apply Hent in H1 as [[-> ->]|[H1 _]]; [lia| |by eexists]. right. right. by apply r_here.
  - destruct (path_pre _ _ _ HI _ _ _ Hb Hp) as (m & M1 & _). apply Hent in H1 as [[-> ->]|[H1 _]]; [| |by eexists].
    + assert (n = nL) as -> by congruence. destruct (path_same K B s HI _ _ _ _ _ Hb Hkb Hp Hpath) as [-> _].
      assert (Es : take 8 (drop (d0 * 8) k) = take 8 r).
      { rewrite <- (pad8_long r), <- (pad8_long (drop (d0 * 8) k)) by lia. apply slice_eq; [by apply Forall_drop|by apply Forall_drop|congruence]. }
      apply Hchain in H6 as [[E ->]|[E ->]]; [..|done].
      * left. split; [|done]. rewrite drop_step in E. rewrite (cv_from k r Hb Hp); [apply take_drop|].
        rewrite <- (take_drop 8 (drop (d0 * 8) k)), <- (take_drop 8 r). congruence.
      * right. left. split; [|done]. rewrite drop_step in E. apply (cv_from k r1 Hb Hp).
        rewrite <- (take_drop 8 (drop (d0 * 8) k)), <- (take_drop 8 r1), cv_slice. congruence.
    + destruct (entry_ok _ _ _ HI _ _ H1) as (a & _ & _ & _ & [(r' & w & R1 & _)|(_ & n1 & w & t & w' & R1 & _)]).
      { pose proof (rest_lt _ _ R1). lia. }
      apply skels_some in R1 as (n0 & N1 & ->). destruct (Hnode _ _ N1) as (n' & M2 & M3). assert (n' = n) as -> by congruence. rewrite M3 in IH.
      destruct IH as [IH|[IH|IH]]; [by eapply p_down|by left|by right; left|]. right; right. by eapply r_down.
Qed.
Lemma cv_down k h : is_bytes k -> path (sA s) k l0 d0 -> take 8 (drop (d0 * 8) k) = take 8 r -> 8 < length (drop (d0 * 8) k) ->
  reaches (sA s') k (g_lid (a_gh nL)) (d0 + 1) h -> reaches (sA s') k MAIN 0 h.
Proof.
  intros Hb Hp Ht Hk Hr. eapply path_reaches; [by apply cv_path|]. destruct (path_pre _ _ _ HI _ _ _ Hb Hp) as (m & M1 & _).
  eapply (r_down _ _ l0 d0 eL nL); [apply Hent; [by eexists|by left]|done| |done|done|done].
  rewrite HiL, Hik. f_equal. rewrite !pad8_long by lia. done.
Qed.
Lemma cv_before w : NoDead (sA s) -> ~ maps s kb w.
Proof.
  intros HN (h & H1 & H2). apply (path_through K B s HI kb l0 d0 h HN Hpath) in H1.
  apply reaches_hit in H1 as (x & E1 & E2 & E3).
  assert (x = e1).
  { eapply (entry_uniq K B s HI); [done|done|done|]. destruct E2 as [E2 E4]. unfold ecls. f_equal; [congruence|]. rewrite cv_kx.
    destruct E4 as [(_ & _ & E4)|[-> _]]; [|done]. destruct (Nat.leb_spec (length r) 8); [lia|]. by destruct E4 as [-> _]. }
  subst x. destruct E2 as [_ [E2|[E2 _]]]; [by apply Hne; eapply rest_fun|]. rewrite cv_kx in E2. done.
Qed.
Lemma conv_maps k w : NoDead (sA s) -> is_bytes k -> maps s' k w <-> (k = kb /\ w = v) \/ (k <> kb /\ maps s k w).
Proof.
  intros HN Hb. split.
  - intros (h & H1 & H2). destruct (cv_bwd k MAIN 0 h Hb (p_main _ _) H1) as [[-> ->]|[(-> & -> & Hp)|H3]].
    + left. split; [done|congruence].
    + right. split; [apply cv_ne|]. exists (s_ptr e1). split; [|congruence]. eapply path_reaches; [exact Hp|].
      apply r_here; [done|rewrite cv_kx; done|by rewrite cv_drop].
    + destruct (reaches_val K B s HI k MAIN 0 h Hb (p_main _ _) H3) as (w' & H4 & _).
      assert (w' = w) as -> by (specialize (HV _ _ H4); congruence).
      assert (Hm : maps s k w) by (by exists h). right. split; [|done]. intros ->. by apply (cv_before w HN).
  - intros [[-> ->]|[Hk (h & H1 & H2)]].
    + exists hn. split; [|done]. apply cv_down; [done|done|done|done|]. apply Hchain; [done|]. left. split; [|done]. by rewrite drop_step.
    + destruct (cv_fwd k MAIN 0 h Hb (p_main _ _) H1) as [(-> & -> & Hp)|H3].
      * exists he. split; [|congruence]. apply cv_down; [done|done|by rewrite cv_drop; apply cv_slice|by rewrite cv_drop|].
        apply Hchain; [done|]. right. split; [|done]. by rewrite drop_step, cv_drop.
      * exists h. split; [done|by apply HV].
Qed.
End Conv.

(** ** a chain of one-entry layers ending in a layer with two entries *)
Section Chain.
Context (A : gmap N anode) (a b : bytes) (Ha : is_bytes a) (Hb : is_bytes b) (j : nat) (ls : nat -> N) (ee en : slot).
Context (Htw : forall i, i < j -> (forall x, entry A (ls i) x <-> x = mk_slot (be_word (pad8 (drop (i * 8) a))) LAYER_KEYLENX (ls (i + 1)) None) /\
  exists n, A !! ls (i + 1) = Some n /\ g_lid (a_gh n) = ls (i + 1)).
Context (Hfin : forall x, entry A (ls j) x <-> x = ee \/ x = en).
Context (Hee : rest_of ee (drop (j * 8) a)) (Hen : rest_of en (drop (j * 8) b)).
Context (Hsame : take (j * 8) a = take (j * 8) b) (Hla : j * 8 < length a) (Hlb : j * 8 < length b).
Lemma chain_slice i : i < j -> take 8 (drop (i * 8) a) = take 8 (drop (i * 8) b).
Proof.
  intros Hi. assert (E : take ((i + 1) * 8) a = take ((i + 1) * 8) b).
  { pose proof (f_equal (take ((i + 1) * 8)) Hsame) as E. rewrite !take_take in E.
    by replace (((i + 1) * 8) `min` (j * 8)) with ((i + 1) * 8) in E by lia. }
  pose proof (f_equal (drop (i * 8)) E) as E2. replace ((i + 1) * 8) with (i * 8 + 8) in E2 by lia. by rewrite <- !take_drop_commute in E2.
Qed.
Lemma chain_reaches k D h : is_bytes k -> forall m i, i + m = j -> reaches A k (ls i) (D + i) h <->
  (drop ((D + i) * 8) k = drop (i * 8) b /\ h = s_ptr en) \/ (drop ((D + i) * 8) k = drop (i * 8) a /\ h = s_ptr ee).
Proof.
  intros Hk. induction m as [|m IH]; intros i Hi.
  - assert (i = j) as -> by lia. split.
    + intros H. inversion H as [? ? x H1 H2 H3 E1 E2|? ? x n ? H1 H2 H3 H4 H5 H6]; subst.
      * apply Hfin in H1 as [->| ->]; [right|left]; (split; [by eapply rest_fun|done]).
      * apply Hfin in H1 as [->| ->]; [pose proof (rest_lt _ _ Hee)|pose proof (rest_lt _ _ Hen)]; lia.
    + intros [[E ->]|[E ->]]; (apply r_here; [apply Hfin; auto|by eapply rest_lt|by rewrite E]).
  - destruct (Htw i) as [He (n & Hn & Hln)]; [lia|]. specialize (IH (i + 1) ltac:(lia)). rewrite Nat.add_assoc in IH.
    pose proof (chain_slice i ltac:(lia)) as Hsl.
    assert (La : 8 < length (drop (i * 8) a)) by (rewrite drop_length; lia). assert (Lb : 8 < length (drop (i * 8) b)) by (rewrite drop_length; lia).
    assert (Hpad : pad8 (drop (i * 8) b) = pad8 (drop (i * 8) a)) by (by rewrite !pad8_long by lia).
    split.
    + intros H. inversion H as [? ? x H1 H2 H3|? ? x n' ? H1 H2 H3 H4 H5 H6]; subst.
      * apply He in H1 as ->. cbn in H2. lia.
      * apply He in H1 as ->. cbn [s_ptr s_ik] in *. assert (n' = n) as -> by congruence. rewrite Hln in H6. apply IH in H6.
        apply slice_eq in H3; [|by apply Forall_drop|by apply Forall_drop].
        rewrite !drop_step in H6. rewrite !pad8_long in H3 by lia.
        destruct H6 as [[E ->]|[E ->]]; [left|right]; (split; [|done]); rewrite <- (take_drop 8 (drop ((D + i) * 8) k)), E, <- H3; [rewrite Hsl|]; apply take_drop.
    + intros H. eapply (r_down _ _ _ _ (mk_slot (be_word (pad8 (drop (i * 8) a))) LAYER_KEYLENX (ls (i + 1)) None) n); [by apply He|done|..|exact Hn|].
      * cbn. f_equal. destruct H as [[-> _]|[-> _]]; done.
      * destruct H as [[-> _]|[-> _]]; done.
      * rewrite Hln. apply IH. rewrite !drop_step. destruct H as [[-> H]|[-> H]]; auto.
Qed.
End Chain.
