(** Internode operations: inserting a key, splitting, finding and reparenting children. *)
From Verif Require Import Base Prog Version Mem Tree TreeState TreePrim TreeInv TreeRead TreeSplit TreeSkel.

Lemma wp_for_rev (J : nat -> mem -> Prop) (f : nat -> P unit) a : forall k m0 (Q : unit -> mem -> Prop),
  J (a + k) m0 -> (forall i m', a <= i < a + k -> J (i + 1) m' -> wp (f i) m' (fun _ m'' => J i m'')) ->
  (forall m', J a m' -> Q tt m') -> wp (for_each (rev (seq a k)) f) m0 Q.
Proof.
  induction k as [|k IH]; intros m0 Q HJ Hs HQ.
  - cbn. apply wp_ret, HQ. by rewrite Nat.add_0_r in HJ.
  - rewrite seq_S, rev_app_distr. cbn [rev app for_each]. apply wp_bind.
    eapply wp_mono; [apply Hs; [lia|]; by replace (a + k + 1) with (a + S k) by lia|]. intros [] m' HJ'.
    apply IH; [done| |done]. intros i m'' Hi. apply Hs. lia.
Qed.

Section Ops.
Context (s : ast) (p : N) (g : ghost) (md : vmode) (rt : bool) (pa : N) (J : ibody).
Context (Hlk : length (ib_ks J) = 15) (Hlc : length (ib_cs J) = 16).

(** internode.rs:433-458 *)
Lemma wp_insert_kc m pos k c (Q : unit -> mem -> Prop) : ib_nk J < 15 -> pos <= ib_nk J ->
  St m (setA p (ND g md rt pa J) s) ->
  (forall m' ks cs, length ks = 15 -> length cs = 16 ->
     (forall t, t < 15 -> ks !! t = if decide (t < pos) then ib_ks J !! t else if decide (t = pos) then Some k
         else if decide (t <= ib_nk J) then ib_ks J !! (t - 1) else ib_ks J !! t) ->
     (forall t, t < 16 -> cs !! t = if decide (t < pos + 1) then ib_cs J !! t else if decide (t = pos + 1) then Some c
         else if decide (t <= ib_nk J + 1) then ib_cs J !! (t - 1) else ib_cs J !! t) ->
     St m' (setA p (ND g md rt pa (mk_ibody (ib_nk J + 1) (ib_ht J) ks cs)) s) -> Q tt m') ->
  wp (insert_key_and_child p pos k c) m Q.
Proof.
  intros Hn Hpos HS HQ. unfold insert_key_and_child.
  apply wp_bind. eapply wp_nkeys; [exact HS|apply setA_lookup|].
  destruct (Nat.ltb_spec (ib_nk J) IWIDTH) as [_|H]; [|unfold IWIDTH in H; lia].
  destruct (Nat.leb_spec pos (ib_nk J)) as [_|H]; [|lia]. cbn [andb]. apply wp_bind, wp_ret.
  apply wp_bind. eapply (wp_for_rev (fun j m => exists ks cs, length ks = 15 /\ length cs = 16 /\
     (forall t, t < 15 -> ks !! t = if decide (j < t <= ib_nk J) then ib_ks J !! (t - 1) else ib_ks J !! t) /\
     (forall t, t < 16 -> cs !! t = if decide (j + 1 < t <= ib_nk J + 1) then ib_cs J !! (t - 1) else ib_cs J !! t) /\
     St m (setA p (ND g md rt pa (mk_ibody (ib_nk J) (ib_ht J) ks cs)) s))).
  - exists (ib_ks J), (ib_cs J). split; [done|]. split; [done|]. split; [|split].
    + intros t _. rewrite decide_False; [done|lia].
    + intros t _. rewrite decide_False; [done|lia].
    + by destruct J.
  - intros i m' Hi (ks & cs & L1 & L2 & E1 & E2 & H1). unfold shift_right1.
    destruct (lookup_lt_is_Some_2 ks i) as [x Hx]; [lia|].
    destruct (lookup_lt_is_Some_2 cs (i + 1)) as [y Hy]; [lia|].
    apply wp_bind. eapply wp_inode_ikey; [exact H1|apply setA_lookup|exact Hx|].
    apply wp_bind. eapply wp_set_inode_ikey; [exact H1|apply setA_lookup|lia|]. intros m1 H2. rewrite setA_setA in H2.
    apply wp_bind. eapply wp_child; [exact H2|apply setA_lookup|exact Hy|].
    eapply wp_set_child; [exact H2|apply setA_lookup|lia|]. intros m2 H3. rewrite setA_setA in H3.
    cbn [iset_ks iset_cs ib_nk ib_ht ib_ks ib_cs] in H3.
    exists (<[i + 1 := x]> ks), (<[i + 2 := y]> cs). rewrite !insert_length. split; [done|]. split; [done|]. split; [|split; [|done]].
    + intros t Ht. destruct (decide (t = i + 1)) as [->|Hne].
      * rewrite list_lookup_insert by lia. rewrite decide_True by lia. rewrite <- Hx, E1 by lia. rewrite decide_False by lia. f_equal. lia.
      * rewrite list_lookup_insert_ne by lia. rewrite E1 by done. repeat case_decide; try lia; done.
    + intros t Ht. destruct (decide (t = i + 2)) as [->|Hne].
      * rewrite list_lookup_insert by lia. rewrite decide_True by lia. rewrite <- Hy, E2 by lia. rewrite decide_False by lia. f_equal. lia.
      * rewrite list_lookup_insert_ne by lia. rewrite E2 by done. repeat case_decide; try lia; done.
  - intros m' (ks & cs & L1 & L2 & E1 & E2 & H1).
    apply wp_bind. eapply wp_set_inode_ikey; [exact H1|apply setA_lookup|lia|]. intros m1 H2. rewrite setA_setA in H2.
    apply wp_bind. eapply wp_set_child; [exact H2|apply setA_lookup|lia|]. intros m2 H3. rewrite setA_setA in H3.
    eapply wp_set_nkeys; [exact H3|apply setA_lookup|]. intros m3 H4. rewrite setA_setA in H4.
    unfold iset_ks, iset_cs, iset_nk in H4. cbn [ib_nk ib_ht ib_ks ib_cs] in H4.
    eapply HQ; [| | | |exact H4]; rewrite ?insert_length; try done.
    + intros t Ht. destruct (decide (t = pos)) as [->|Hne].
      * rewrite list_lookup_insert by lia. repeat case_decide; try lia; done.
      * rewrite list_lookup_insert_ne by lia. rewrite E1 by done. repeat case_decide; try lia; done.
    + intros t Ht. destruct (decide (t = pos + 1)) as [->|Hne].
      * rewrite list_lookup_insert by lia. repeat case_decide; try lia; done.
      * rewrite list_lookup_insert_ne by lia. rewrite E2 by done. repeat case_decide; try lia; done.
Qed.
End Ops.

(** internode.rs:475-481 *)
Lemma wp_shift_from s p q g gq md mdq rt rtq pa paq J Jq m dp sp cnt (Q : unit -> mem -> Prop) : p <> q ->
  length (ib_ks J) = 15 -> length (ib_cs J) = 16 -> length (ib_ks Jq) = 15 -> length (ib_cs Jq) = 16 ->
  sp + cnt <= 15 -> dp + cnt <= 15 ->
  St m (setA p (ND g md rt pa J) (setA q (ND gq mdq rtq paq Jq) s)) ->
  (forall m' ks cs, length ks = 15 -> length cs = 16 ->
     (forall t, ks !! t = if decide (dp <= t < dp + cnt) then ib_ks J !! (sp + t - dp) else ib_ks Jq !! t) ->
     (forall t, cs !! t = if decide (dp + 1 <= t < dp + 1 + cnt) then ib_cs J !! (sp + t - dp) else ib_cs Jq !! t) ->
     St m' (setA p (ND g md rt pa J) (setA q (ND gq mdq rtq paq (mk_ibody (ib_nk Jq) (ib_ht Jq) ks cs)) s)) -> Q tt m') ->
  wp (shift_from q dp p sp cnt) m Q.
Proof.
  intros Hne L1 L2 L3 L4 Hs Hd HS HQ. unfold shift_from.
  assert (Hstate : forall X Y Y', setA q Y' (setA p X (setA q Y s)) = setA p X (setA q Y' s)).
  { intros X Y Y'. rewrite setA_comm by done. by rewrite setA_setA. }
  assert (Hlq : forall X Y, sA (setA p X (setA q Y s)) !! q = Some Y).
  { intros X Y. rewrite setA_lookup_ne by done. apply setA_lookup. }
  eapply (wp_for_seq (fun i m => exists ks cs, length ks = 15 /\ length cs = 16 /\
     (forall t, ks !! t = if decide (dp <= t < dp + i) then ib_ks J !! (sp + t - dp) else ib_ks Jq !! t) /\
     (forall t, cs !! t = if decide (dp + 1 <= t < dp + 1 + i) then ib_cs J !! (sp + t - dp) else ib_cs Jq !! t) /\
     St m (setA p (ND g md rt pa J) (setA q (ND gq mdq rtq paq (mk_ibody (ib_nk Jq) (ib_ht Jq) ks cs)) s)))).
  - exists (ib_ks Jq), (ib_cs Jq). split; [done|]. split; [done|]. split; [|split; [|by destruct Jq]].
    + intros t. by rewrite decide_False by lia.
    + intros t. by rewrite decide_False by lia.
  - intros i m' Hi (ks & cs & K1 & K2 & E1 & E2 & H1).
    destruct (lookup_lt_is_Some_2 (ib_ks J) (sp + i)) as [x Hx]; [lia|].
    destruct (lookup_lt_is_Some_2 (ib_cs J) (sp + 1 + i)) as [y Hy]; [lia|].
    apply wp_bind. eapply wp_inode_ikey; [exact H1|apply setA_lookup|exact Hx|].
    apply wp_bind. eapply wp_set_inode_ikey; [exact H1|apply Hlq|lia|]. intros m1 H2. rewrite Hstate in H2.
    apply wp_bind. eapply wp_child; [exact H2|apply setA_lookup|exact Hy|].
    eapply wp_set_child; [exact H2|apply Hlq|lia|]. intros m2 H3. rewrite Hstate in H3.
    cbn [iset_ks iset_cs iset_nk ib_nk ib_ht ib_ks ib_cs] in H3.
    exists (<[dp + i := x]> ks), (<[dp + 1 + i := y]> cs). rewrite !insert_length. split; [done|]. split; [done|]. split; [|split; [|done]].
    + intros t. destruct (decide (t = dp + i)) as [->|Hn].
      * rewrite list_lookup_insert by lia. rewrite decide_True by lia. rewrite <- Hx. f_equal. lia.
      * rewrite list_lookup_insert_ne by lia. rewrite E1. repeat case_decide; try lia; done.
    + intros t. destruct (decide (t = dp + 1 + i)) as [->|Hn].
      * rewrite list_lookup_insert by lia. rewrite decide_True by lia. rewrite <- Hy. f_equal. lia.
      * rewrite list_lookup_insert_ne by lia. rewrite E2. repeat case_decide; try lia; done.
  - intros m' (ks & cs & K1 & K2 & E1 & E2 & H1). eapply HQ; [exact K1|exact K2|exact E1|exact E2|exact H1].
Qed.

(** the key and child arrays with one more entry *)
Definition fk (J : ibody) (ci : nat) (sk : N) (t : nat) : option N :=
  if decide (t < ci) then ib_ks J !! t else if decide (t = ci) then Some sk else ib_ks J !! (t - 1).
Definition fc (J : ibody) (ci : nat) (r : N) (t : nat) : option N :=
  if decide (t < ci + 1) then ib_cs J !! t else if decide (t = ci + 1) then Some r else ib_cs J !! (t - 1).
Record halves (J : ibody) (ci : nat) (sk r : N) (JL JR : ibody) (pop : N) : Prop := {
  hv_lk : length (ib_ks JL) = 15 /\ length (ib_ks JR) = 15; hv_lc : length (ib_cs JL) = 16 /\ length (ib_cs JR) = 16;
  hv_n : ib_nk JL = 8 /\ ib_nk JR = 7; hv_h : ib_ht JL = ib_ht J;
  hv_kl : forall t, t < 8 -> ib_ks JL !! t = fk J ci sk t; hv_cl : forall t, t < 9 -> ib_cs JL !! t = fc J ci r t;
  hv_kr : forall t, t < 7 -> ib_ks JR !! t = fk J ci sk (9 + t); hv_cr : forall t, t < 8 -> ib_cs JR !! t = fc J ci r (9 + t);
  hv_pop : fk J ci sk 8 = Some pop }.

Ltac dec := repeat case_decide; try lia; try done; try (f_equal; lia).
Section Cut.
Context (s : ast) (p q : N) (Hne : p <> q) (g gq : ghost) (md mdq : vmode) (rt rtq : bool) (pa paq : N) (J Jq : ibody).
Context (L1 : length (ib_ks J) = 15) (L2 : length (ib_cs J) = 16) (L3 : length (ib_ks Jq) = 15) (L4 : length (ib_cs Jq) = 16).
Context (Hn : ib_nk J = 15).
(** internode.rs:558-688 up to the heights *)
Lemma wp_cut m ci sk r (Q : N * bool -> mem -> Prop) : ci <= 15 ->
  St m (setA p (ND g md rt pa J) (setA q (ND gq mdq rtq paq Jq) s)) ->
  (forall m' JL JR pop, halves J ci sk r JL JR pop -> ib_ht JR = ib_ht Jq ->
     St m' (setA p (ND g md rt pa JL) (setA q (ND gq mdq rtq paq JR) s)) -> Q (pop, Nat.ltb ci 8) m') ->
  wp (match Nat.compare ci 8 with
          | Lt =>
              x <- child p 8 ;; set_child q 0 x ;;;
              shift_from q 0 p 8 (IWIDTH - 8) ;;;
              set_nkeys q (IWIDTH - 8) ;;;
              popup <- inode_ikey p (8 - 1) ;;
              set_nkeys p (8 - 1) ;;;
              insert_key_and_child p ci sk r ;;;
              Ret (popup, true)
          | Eq =>
              set_child q 0 r ;;;
              shift_from q 0 p 8 (IWIDTH - 8) ;;;
              set_nkeys q (IWIDTH - 8) ;;;
              set_nkeys p 8 ;;;
              Ret (sk, false)
          | Gt =>
              let rpos := ci - (8 + 1) in
              x <- child p (8 + 1) ;; set_child q 0 x ;;;
              shift_from q 0 p (8 + 1) rpos ;;;
              set_inode_ikey q rpos sk ;;;
              set_child q (rpos + 1) r ;;;
              shift_from q (rpos + 1) p ci (IWIDTH - ci) ;;;
              set_nkeys q (IWIDTH - 8) ;;;
              popup <- inode_ikey p 8 ;;
              set_nkeys p 8 ;;;
              Ret (popup, false)
          end) m Q.
Proof.
  intros Hci HS HQ. change (IWIDTH - 8) with 7. change (8 + 1) with 9. change (8 - 1) with 7.
  assert (Hstate : forall X Y Y', setA q Y' (setA p X (setA q Y s)) = setA p X (setA q Y' s)).
  { intros X Y Y'. rewrite setA_comm by done. by rewrite setA_setA. }
  assert (Hlq : forall X Y, sA (setA p X (setA q Y s)) !! q = Some Y).
  { intros X Y. rewrite setA_lookup_ne by done. apply setA_lookup. }
  assert (Hlp : forall X Y, sA (setA p X (setA q Y s)) !! p = Some X) by (intros; apply setA_lookup).
  destruct (Nat.compare_spec ci 8) as [Ec|Ec|Ec]; cbv zeta.
  - apply wp_bind. eapply wp_set_child; [exact HS|apply Hlq|lia|]. intros m1 H1. rewrite Hstate in H1.
    apply wp_bind. eapply wp_shift_from; [| | | | | | |exact H1|]; cbn [iset_cs ib_ks ib_cs]; rewrite ?insert_length; try done; try lia.
    intros m2 ks cs K1 K2 E1 E2 H2. cbn [ib_nk ib_ht iset_cs ib_cs ib_ks] in *.
    apply wp_bind. eapply wp_set_nkeys; [exact H2|apply Hlq|]. intros m3 H3. rewrite Hstate in H3.
    apply wp_bind. eapply wp_set_nkeys; [exact H3|apply Hlp|]. intros m4 H4. rewrite setA_setA in H4.
    apply wp_ret. destruct (Nat.ltb_spec ci 8) as [|_] in HQ; [lia|]. eapply HQ; [| |exact H4]; [|reflexivity]. split; cbn; try done.
    + intros t Ht. unfold fk. dec.
    + intros t Ht. unfold fc. dec.
    + intros t Ht. rewrite E1. unfold fk. dec.
    + intros t Ht. rewrite E2. unfold fc. dec. assert (t = 0) as -> by lia. rewrite list_lookup_insert by lia. done.
    + unfold fk. dec.
  - destruct (lookup_lt_is_Some_2 (ib_cs J) 8) as [x Hx]; [lia|]. destruct (lookup_lt_is_Some_2 (ib_ks J) 7) as [y Hy]; [lia|].
    apply wp_bind. eapply wp_child; [exact HS|apply Hlp|exact Hx|].
    apply wp_bind. eapply wp_set_child; [exact HS|apply Hlq|lia|]. intros m1 H1. rewrite Hstate in H1.
    apply wp_bind. eapply wp_shift_from; [| | | | | | |exact H1|]; cbn [iset_cs ib_ks ib_cs]; rewrite ?insert_length; try done; try lia.
    intros m2 ks cs K1 K2 E1 E2 H2. cbn [ib_nk ib_ht iset_cs ib_cs ib_ks] in *.
    apply wp_bind. eapply wp_set_nkeys; [exact H2|apply Hlq|]. intros m3 H3. rewrite Hstate in H3.
    apply wp_bind. eapply wp_inode_ikey; [exact H3|apply Hlp|exact Hy|].
    apply wp_bind. eapply wp_set_nkeys; [exact H3|apply Hlp|]. intros m4 H4. rewrite setA_setA in H4.
    apply wp_bind. eapply wp_insert_kc; [| | | |exact H4|]; cbn [iset_nk ib_nk ib_ks ib_cs ib_ht]; [done|done|lia|lia|].
    intros m5 ks' cs' K1' K2' E1' E2' H5.
    apply wp_ret. destruct (Nat.ltb_spec ci 8) as [_|] in HQ; [|lia]. eapply HQ; [| |exact H5]; [|reflexivity]. split; cbn; try done.
    + intros t Ht. rewrite E1' by lia. unfold fk. dec.
    + intros t Ht. rewrite E2' by lia. unfold fc. dec.
    + intros t Ht. rewrite E1. unfold fk. dec.
    + intros t Ht. rewrite E2. unfold fc. dec. assert (t = 0) as -> by lia. rewrite list_lookup_insert by lia. done.
    + unfold fk. dec.
  - destruct (lookup_lt_is_Some_2 (ib_cs J) 9) as [x Hx]; [lia|]. destruct (lookup_lt_is_Some_2 (ib_ks J) 8) as [y Hy]; [lia|].
    apply wp_bind. eapply wp_child; [exact HS|apply Hlp|exact Hx|].
    apply wp_bind. eapply wp_set_child; [exact HS|apply Hlq|lia|]. intros m1 H1. rewrite Hstate in H1.
    apply wp_bind. eapply wp_shift_from; [| | | | | | |exact H1|]; cbn [iset_cs ib_ks ib_cs]; rewrite ?insert_length; try done; try lia.
    intros m2 ks cs K1 K2 E1 E2 H2. cbn [ib_nk ib_ht iset_cs ib_cs ib_ks] in *.
    apply wp_bind. eapply wp_set_inode_ikey; [exact H2|apply Hlq|lia|]. intros m3 H3. rewrite Hstate in H3.
    apply wp_bind. eapply wp_set_child; [exact H3|apply Hlq|lia|]. intros m4 H4. rewrite Hstate in H4.
    cbn [iset_ks iset_cs iset_nk ib_nk ib_ht ib_ks ib_cs] in H4. change IWIDTH with 15.
    apply wp_bind. eapply wp_shift_from; [| | | | | | |exact H4|]; cbn [iset_cs iset_ks ib_ks ib_cs]; rewrite ?insert_length; try done; try lia.
    intros m5 ks' cs' K1' K2' E1' E2' H5. cbn [ib_nk ib_ht iset_cs iset_ks ib_cs ib_ks] in *.
    apply wp_bind. eapply wp_set_nkeys; [exact H5|apply Hlq|]. intros m6 H6. rewrite Hstate in H6.
    apply wp_bind. eapply wp_inode_ikey; [exact H6|apply Hlp|exact Hy|].
    apply wp_bind. eapply wp_set_nkeys; [exact H6|apply Hlp|]. intros m7 H7. rewrite setA_setA in H7.
    apply wp_ret. destruct (Nat.ltb_spec ci 8) as [|_] in HQ; [lia|]. eapply HQ; [| |exact H7]; [|reflexivity]. split; cbn; try done.
    + intros t Ht. unfold fk. dec.
    + intros t Ht. unfold fc. dec.
    + intros t Ht. rewrite E1'. case_decide as D1.
      * unfold fk. dec.
      * destruct (decide (t = ci - 9)) as [->|Hd]; [rewrite list_lookup_insert by lia; unfold fk; dec|].
        rewrite list_lookup_insert_ne by lia. rewrite E1. unfold fk. dec.
    + intros t Ht. rewrite E2'. case_decide as D1.
      * unfold fc. dec.
      * destruct (decide (t = ci - 9 + 1)) as [->|Hd]; [rewrite list_lookup_insert by lia; unfold fc; dec|].
        rewrite list_lookup_insert_ne by lia. rewrite E2. unfold fc. dec.
        assert (t = 0) as -> by lia. rewrite list_lookup_insert by lia. done.
    + unfold fk. dec.
Qed.
End Cut.

(** ** parents *)
Definition with_pa (pa : N) (n : anode) : anode := mk_anode (a_gh n) (a_md n) (a_rt n) pa (a_bd n).
Definition withA (A : gmap N anode) (s : ast) : ast := mk_ast A (sR s) (sC s) (sV s) (sfv s) (sfn s).
Lemma withA_setA A p n s : setA p n (withA A s) = withA (<[p := n]> A) s. Proof. done. Qed.
Lemma setA_withA p n s : setA p n s = withA (<[p := n]> (sA s)) s. Proof. done. Qed.
Lemma withA_same s : withA (sA s) s = s. Proof. by destruct s. Qed.
Lemma anode_eta n : n = mk_anode (a_gh n) (a_md n) (a_rt n) (a_pa n) (a_bd n). Proof. by destruct n. Qed.

Lemma wp_set_parent m s p pa n lf (Q : unit -> mem -> Prop) : St m s -> sA s !! p = Some n -> is_leafb (a_bd n) = lf ->
  (forall m', St m' (setA p (with_pa pa n) s) -> Q tt m') -> wp (set_parent p pa lf) m Q.
Proof.
  intros HS Hp Hl HQ. destruct n as [g md rt pa0 [L|J]]; cbn in Hl; subst lf; cbn [set_parent].
  - eapply wp_set_leaf_parent; [exact HS|exact Hp|exact HQ].
  - eapply wp_set_inode_parent; [exact HS|exact Hp|exact HQ].
Qed.
Lemma wp_get_parent m s p n lf (Q : N -> mem -> Prop) : St m s -> sA s !! p = Some n -> is_leafb (a_bd n) = lf ->
  Q (a_pa n) m -> wp (get_parent p lf) m Q.
Proof.
  intros HS Hp Hl HQ. destruct n as [g md rt pa0 [L|J]]; cbn in Hl; subst lf; cbn [get_parent].
  - eapply wp_leaf_parent; [exact HS|exact Hp|exact HQ].
  - eapply wp_inode_parent; [exact HS|exact Hp|exact HQ].
Qed.
Definition setp (lf : bool) : N -> N -> P unit := if lf then set_leaf_parent else set_inode_parent.
Lemma wp_setp m s p pa n lf (Q : unit -> mem -> Prop) : St m s -> sA s !! p = Some n -> is_leafb (a_bd n) = lf ->
  (forall m', St m' (setA p (with_pa pa n) s) -> Q tt m') -> wp (setp lf p pa) m Q.
Proof. intros HS Hp Hl HQ. assert (E : setp lf p pa = set_parent p pa lf) by (by destruct lf). rewrite E. by eapply wp_set_parent. Qed.

(** internode.rs:651-686 *)
Lemma wp_reparent m s q g md rt pa J lf (Q : unit -> mem -> Prop) : St m s -> sA s !! q = Some (ND g md rt pa J) ->
  ib_nk J + 1 <= 16 ->
  (forall c, c ∈ kids J -> c <> 0%N /\ c <> q /\ exists n, sA s !! c = Some n /\ is_leafb (a_bd n) = lf) ->
  (forall m' A, (forall x, A !! x = if decide (x ∈ kids J) then with_pa q <$> sA s !! x else sA s !! x) -> St m' (withA A s) -> Q tt m') ->
  wp (reparent_children q (setp lf)) m Q.
Proof.
  intros HS Hq Hn Hk HQ. unfold reparent_children.
  destruct (inode_lens _ _ HS _ _ _ _ _ _ Hq) as [_ L2].
  apply wp_bind. eapply wp_nkeys; [exact HS|exact Hq|].
  eapply (wp_for_seq (fun i m => exists A, (forall x, A !! x = if decide (x ∈ take i (kids J)) then with_pa q <$> sA s !! x else sA s !! x) /\ St m (withA A s))).
  - exists (sA s). split; [|by rewrite withA_same]. intros x. cbn [take]. rewrite decide_False; [done|]. apply not_elem_of_nil.
  - intros i m' Hi (A & HA & H1).
    destruct (lookup_lt_is_Some_2 (kids J) i) as [c Hc]; [rewrite kids_len; lia|].
    assert (Hck : c ∈ kids J) by (by eapply elem_of_list_lookup_2).
    destruct (Hk c Hck) as (Hc0 & Hcq & n & Hn1 & Hn2).
    assert (HqA : sA (withA A s) !! q = Some (ND g md rt pa J)).
    { cbn. rewrite HA, decide_False; [done|]. intros H%elem_of_take. destruct H as (j & Hj & _). destruct (Hk q); [by eapply elem_of_list_lookup_2|]. naive_solver. }
    apply wp_bind. eapply (wp_child _ _ H1 _ _ _ _ _ _ HqA i c).
    { unfold kids in Hc. rewrite lookup_take in Hc by lia. exact Hc. }
    destruct (N.eqb_spec c 0) as [|_]; [done|].
    assert (HcA : exists n', A !! c = Some n' /\ is_leafb (a_bd n') = lf /\ with_pa q n' = with_pa q n).
    { rewrite HA. case_decide; rewrite Hn1; eexists; split; done. }
    destruct HcA as (n' & Hn' & Hlf & Ew).
    eapply (wp_setp _ _ c q n' lf); [exact H1|exact Hn'|exact Hlf|]. intros m2 H2. rewrite withA_setA, Ew in H2.
    exists (<[c := with_pa q n]> A). split; [|exact H2]. intros x.
    rewrite Nat.add_1_r, (take_S_r _ _ _ Hc). destruct (decide (x = c)) as [->|Hxc].
    + rewrite lookup_insert, decide_True; [by rewrite Hn1|]. apply elem_of_app. right. by left.
    + rewrite lookup_insert_ne by done. rewrite HA. repeat case_decide; try done.
      * exfalso. apply H0. apply elem_of_app. by left.
      * exfalso. apply elem_of_app in H0 as [?|?%elem_of_list_singleton]; done.
  - intros m' (A & HA & H1). eapply HQ; [|exact H1]. cbn [Nat.add] in HA. intros x. rewrite HA.
    rewrite take_ge by (rewrite kids_len; lia). done.
Qed.

(** parent_locking.rs:22-33 *)
Lemma wp_find_child m s p g md rt pa J c (Q : option nat -> mem -> Prop) : St m s -> sA s !! p = Some (ND g md rt pa J) ->
  forall k a, a + k <= 16 ->
  (forall i, a <= i < a + k -> ib_cs J !! i = Some c -> (forall j, a <= j < i -> ib_cs J !! j <> Some c) -> Q (Some i) m) ->
  ((forall i, a <= i < a + k -> ib_cs J !! i <> Some c) -> Q None m) ->
  wp (find_child p c (seq a k)) m Q.
Proof.
  intros HS Hp. destruct (inode_lens _ _ HS _ _ _ _ _ _ Hp) as [_ L2].
  induction k as [|k IH]; intros a Ha HQ1 HQ2; cbn [seq find_child].
  - apply wp_ret. apply HQ2. lia.
  - destruct (lookup_lt_is_Some_2 (ib_cs J) a) as [x Hx]; [lia|].
    apply wp_bind. eapply wp_child; [exact HS|exact Hp|exact Hx|].
    destruct (N.eqb_spec x c) as [->|Hne].
    + apply wp_ret. apply HQ1; [lia|done|lia].
    + apply IH; [lia| |].
      * intros i Hi Hc Hj. apply HQ1; [lia|done|]. intros j Hj'. destruct (decide (j = a)) as [->|]; [congruence|]. apply Hj. lia.
      * intros Hj. apply HQ2. intros i Hi. destruct (decide (i = a)) as [->|]; [congruence|]. apply Hj. lia.
Qed.
Lemma wp_find_child_index m s p g md rt pa J c ci (Q : option nat -> mem -> Prop) : St m s -> sA s !! p = Some (ND g md rt pa J) ->
  ib_nk J <= 15 -> NoDup (kids J) -> kids J !! ci = Some c -> Q (Some ci) m -> wp (find_child_index p c) m Q.
Proof.
  intros HS Hp Hn HN Hc HQ. unfold find_child_index. destruct (inode_lens _ _ HS _ _ _ _ _ _ Hp) as [_ L2].
  apply wp_bind. eapply wp_nkeys; [exact HS|exact Hp|].
  assert (Hci : ci < ib_nk J + 1). { apply lookup_lt_Some in Hc. rewrite kids_len in Hc; lia. }
  eapply wp_find_child; [exact HS|exact Hp|lia| |].
  - intros i Hi Hx _. assert (Hk : kids J !! i = Some c) by (unfold kids; rewrite lookup_take; [done|lia]).
    by assert (i = ci) as -> by (by eapply NoDup_lookup).
  - intros H. exfalso. apply (H ci); [lia|]. unfold kids in Hc. by rewrite lookup_take in Hc by lia.
Qed.
