(** Concurrent executions on one leaf: worlds, what the other threads may do, and weakest
    preconditions under interference. *)
From Verif Require Import Base Perm PermFacts PermLaws SpecPerm Key SpecKey KeyFacts Prog Version VersionFacts Mem Tree
  SpecTree TreeState TreeRead SpecLin.

(** memory, the map it stands for, the holder of the leaf's lock, and the threads that have
    added an entry but not yet counted it *)
Record world := mk_w { wm : mem; wmu : gmap bytes N; wow : option nat; wowe : gset nat }.
Definition lf (w : world) (l : leaf) : Prop := heap (wm w) !! 2%N = Some (NLeaf l).
(** slice of a key *)
Definition kik (k : bytes) : N := k_ikey (kpos k 0).
(** slot [s] holds key [k] / with value pointer [h] *)
Definition has_key (l : leaf) (s : nat) (k : bytes) : Prop :=
  l_ikey l !! s = Some (kik k) /\ l_klx l !! s = Some (N.of_nat (length k)).

Section K.
(** the keys in use *)
Context (K : list bytes) (HK : Forall (fun k => length k <= 8 /\ is_bytes k) K)
  (HK24 : length (remove_dups K) <= 24).

Record Inv (w : world) (l : leaf) : Prop := {
  iv_lf : lf w l;
  iv_root : root (wm w) = 2%N;
  iv_next : l_next l = 0%N; iv_prev : l_prev l = 0%N; iv_par : l_parent l = 0%N;
  iv_perm : p_wf P24 (l_perm l);
  iv_len : length (l_ikey l) = 24 /\ length (l_klx l) = 24 /\ length (l_val l) = 24;
  iv_ver : vbits (l_ver l) (if wow w then MIns else MFree) true true;
  iv_act : forall s, s ∈ active_slots (l_perm l) -> exists k h v,
    k ∈ K /\ has_key l s k /\ l_val l !! s = Some h /\ h <> 0%N /\
    vals (wm w) !! h = Some v /\ wmu w !! k = Some v;
  iv_map : forall k v, wmu w !! k = Some v -> k ∈ K /\ exists s, s ∈ active_slots (l_perm l) /\ has_key l s k;
  iv_uniq : forall s s' k, s ∈ active_slots (l_perm l) -> s' ∈ active_slots (l_perm l) ->
    has_key l s k -> has_key l s' k -> s = s';
  iv_sort : forall i j s s' x x', i < j -> active_slots (l_perm l) !! i = Some s ->
    active_slots (l_perm l) !! j = Some s' -> l_ikey l !! s = Some x -> l_ikey l !! s' = Some x' -> (x <= x')%N;
  iv_vals : (0 < nxt (wm w))%N /\ forall h v, vals (wm w) !! h = Some v -> (h < nxt (wm w))%N;
  iv_cnt : (cnt (wm w) + N.of_nat (size (wowe w)) = N.of_nat (size (wmu w)))%N;
  iv_size : perm_size (l_perm l) = size (wmu w) }.

(** what threads other than [i] may do *)
Record Rely (i : nat) (w w' : world) : Prop := {
  rl_lf : forall l, lf w l -> exists l', lf w' l' /\
    (forall s, s ∈ active_slots (l_perm l) -> s ∈ active_slots (l_perm l') /\
       forall k, has_key l s k -> has_key l' s k) /\
    (wow w = Some i -> l' = l);
  rl_vals : vals (wm w) ⊆ vals (wm w');
  rl_own : wow w = Some i <-> wow w' = Some i;
  rl_mu : wow w = Some i -> wmu w' = wmu w;
  rl_owe : i ∈ wowe w <-> i ∈ wowe w' }.

Lemma rely_refl i w : Rely i w w.
Proof. split; [|done..]. intros l Hl. exists l. split; [done|]. split; [|done]. intros s Hs. by split. Qed.
Lemma rely_trans i w1 w2 w3 : Rely i w1 w2 -> Rely i w2 w3 -> Rely i w1 w3.
Proof.
  intros [A1 A2 A3 A4 A5] [B1 B2 B3 B4 B5]. split.
  - intros l Hl. destruct (A1 l Hl) as (l2 & H2 & Ha & Ho). destruct (B1 l2 H2) as (l3 & H3 & Hb & Ho').
    exists l3. split; [done|]. split.
    + intros s Hs. destruct (Ha s Hs) as [Hs2 Hk]. destruct (Hb s Hs2) as [Hs3 Hk']. split; [done|].
      intros k H. by apply Hk', Hk.
    + intros H. rewrite Ho' by (by apply A3). by apply Ho.
  - by etrans.
  - by rewrite A3.
  - intros Ho. rewrite B4 by (by apply A3). by apply A4.
  - by rewrite A5.
Qed.
Definition Guar (i : nat) (w w' : world) : Prop := forall j, j <> i -> Rely j w w'.

(** the places a thread's call may be in after a step that took the map from [mu] to [mu'] *)
Definition after (O : status -> Prop) (mu mu' : gmap bytes N) (s : status) : Prop :=
  (O s /\ mu' = mu) \/ exists o a, O (Pending o) /\ map_step mu o = (a, mu') /\ s = Done a.

Fixpoint cwp {A} (i : nat) (p : P A) (w : world) (O : status -> Prop)
    (Q : A -> world -> (status -> Prop) -> Prop) : Prop :=
  match p with
  | Ret a => Q a w O
  | Fail e => e = Fuel
  | Step f k => forall w1 l1, Rely i w w1 -> Inv w1 l1 -> exists r w2 l2,
      f (wm w1) = Ok (r, wm w2) /\ Inv w2 l2 /\ Guar i w1 w2 /\
      (exists s, after O (wmu w1) (wmu w2) s) /\
      cwp i (k r) w2 (after O (wmu w1) (wmu w2)) Q
  end.

Lemma cwp_bind {A B} i (p : P A) (f : A -> P B) w O Q :
  cwp i p w O (fun a w O => cwp i (f a) w O Q) -> cwp i (bind p f) w O Q.
Proof.
  revert w O. induction p as [a|e|R g k IH]; intros w O; cbn; [done..|].
  intros H w1 l1 HR HI. destruct (H w1 l1 HR HI) as (r & w2 & l2 & H1 & H2 & H3 & H4 & H5).
  exists r, w2, l2. split; [done|]. split; [done|]. split; [done|]. split; [done|]. by apply IH.
Qed.
Lemma cwp_mono {A} i (p : P A) w O (Q Q' : A -> world -> (status -> Prop) -> Prop) :
  cwp i p w O Q -> (forall a w O, Q a w O -> Q' a w O) -> cwp i p w O Q'.
Proof.
  intros H HQ. revert w O H. induction p as [a|e|R g k IH]; intros w O; cbn; [by apply HQ|done|].
  intros H w1 l1 HR HI. destruct (H w1 l1 HR HI) as (r & w2 & l2 & H1 & H2 & H3 & H4 & H5).
  exists r, w2, l2. split; [done|]. split; [done|]. split; [done|]. split; [done|]. by apply IH.
Qed.
Lemma cwp_ret {A} i (a : A) w O (Q : A -> world -> (status -> Prop) -> Prop) : Q a w O -> cwp i (Ret a) w O Q.
Proof. done. Qed.

(** *** the call's place: made, and possibly seen to take effect *)
Definition made (o : op) (O : status -> Prop) : Prop := O (Pending o).
Lemma after_same (O : status -> Prop) mu s : O s -> after O mu mu s.
Proof. by left. Qed.

(** *** reading *)
(** a program that only reads: the world at the end satisfies [Φ]; [O'] extends [O] by what
    the call may have seen *)
Definition reads {A} (i : nat) (p : P A) (w : world) (O : status -> Prop)
    (Φ : A -> world -> leaf -> (status -> Prop) -> Prop) : Prop :=
  forall Q : A -> world -> (status -> Prop) -> Prop,
  (forall r w' l' (O' : status -> Prop), Rely i w w' -> Inv w' l' -> (forall s, O s -> O' s) -> Φ r w' l' O' -> Q r w' O') ->
  cwp i p w O Q.

Lemma cwp_load {A} i (f : mem -> res (A * mem)) w (O : status -> Prop) (Q : A -> world -> (status -> Prop) -> Prop) :
  (exists s, O s) ->
  (forall w' l', Rely i w w' -> Inv w' l' -> exists r, f (wm w') = Ok (r, wm w') /\ Q r w' (after O (wmu w') (wmu w'))) ->
  cwp i (atomic f) w O Q.
Proof.
  intros [s Hs] H w1 l1 HR HI. destruct (H w1 l1 HR HI) as (r & Hr & HQ). exists r, w1, l1.
  split; [done|]. split; [done|]. split; [intros ? ?; apply rely_refl|]. split; [exists s; by left|].
  done.
Qed.
Lemma reads_load {A} i (f : mem -> res (A * mem)) w (O : status -> Prop) (Φ : A -> world -> leaf -> (status -> Prop) -> Prop) :
  (exists s, O s) ->
  (forall w' l', Rely i w w' -> Inv w' l' ->
     exists r, f (wm w') = Ok (r, wm w') /\
     forall O' : status -> Prop, (forall o, O (Pending o) -> forall a, map_step (wmu w') o = (a, wmu w') -> O' (Done a)) -> Φ r w' l' O') ->
  reads i (atomic f) w O Φ.
Proof.
  intros Hs H Q HQ. apply cwp_load; [done|]. intros w' l' HR HI. destruct (H w' l' HR HI) as (r & Hr & HP).
  exists r. split; [done|]. eapply HQ; [done..|by left|]. apply HP. intros o Ho a Ha. right. eauto.
Qed.

Lemma leaf_ld_at {R} w l (f : leaf -> option R) r : lf w l -> f l = Some r ->
  exists g, leaf_ld 2 f = atomic g /\ g (wm w) = Ok (r, wm w).
Proof. intros Hl Hf. eexists. split; [reflexivity|]. cbn. by rewrite Hl, Hf. Qed.

Lemma reads_leaf {R} i (f : leaf -> option R) w (O : status -> Prop) (Φ : R -> world -> leaf -> (status -> Prop) -> Prop) :
  (exists s, O s) ->
  (forall w' l', Rely i w w' -> Inv w' l' -> exists r, f l' = Some r /\
     forall O' : status -> Prop, (forall o, O (Pending o) -> forall a, map_step (wmu w') o = (a, wmu w') -> O' (Done a)) -> Φ r w' l' O') ->
  reads i (leaf_ld 2 f) w O Φ.
Proof.
  intros Hs H. apply reads_load; [done|]. intros w' l' HR HI. destruct (H w' l' HR HI) as (r & Hr & HP).
  exists r. split; [|done]. pose proof (iv_lf _ _ HI) as Hl. unfold lf in Hl. by rewrite Hl, Hr.
Qed.
Lemma reads_ver i w (O : status -> Prop) (Φ : N -> world -> leaf -> (status -> Prop) -> Prop) :
  (exists s, O s) ->
  (forall w' l' (O' : status -> Prop), Rely i w w' -> Inv w' l' -> Φ (l_ver l') w' l' O') -> reads i (version 2) w O Φ.
Proof.
  intros Hs H. apply reads_load; [done|]. intros w' l' HR HI. exists (l_ver l').
  split; [|intros; by apply H]. pose proof (iv_lf _ _ HI) as Hl. unfold lf in Hl. unfold rd_ver. by rewrite Hl.
Qed.
Lemma reads_bind {A B} i (p : P A) (f : A -> P B) w O Φ Ψ :
  reads i p w O Φ ->
  (forall r w' l' (O' : status -> Prop), Rely i w w' -> Inv w' l' -> (forall s, O s -> O' s) -> Φ r w' l' O' -> reads i (f r) w' O' Ψ) ->
  reads i (bind p f) w O Ψ.
Proof.
  intros Hp Hf Q HQ. apply cwp_bind, Hp. intros r w' l' O' HR HI HO HP.
  apply (Hf r w' l' O' HR HI HO HP). intros r2 w2 l2 O2 HR2 HI2 HO2 HP2.
  apply (HQ r2 w2 l2 O2); [by eapply rely_trans|done|auto|done].
Qed.
Lemma reads_ret {A} i (a : A) w l O (Φ : A -> world -> leaf -> (status -> Prop) -> Prop) :
  Inv w l -> Φ a w l O -> reads i (Ret a) w O Φ.
Proof. intros HI H Q HQ. apply (HQ a w l O); [apply rely_refl|done..]. Qed.
Lemma reads_weaken {A} i (p : P A) w O (Φ Ψ : A -> world -> leaf -> (status -> Prop) -> Prop) :
  reads i p w O Φ -> (forall r w' l' (O' : status -> Prop), Rely i w w' -> Inv w' l' -> (forall s, O s -> O' s) -> Φ r w' l' O' -> Ψ r w' l' O') -> reads i p w O Ψ.
Proof. intros Hp H Q HQ. apply Hp. intros. eapply HQ; eauto. Qed.

End K.
