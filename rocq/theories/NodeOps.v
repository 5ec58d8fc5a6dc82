(** The internode operations on their own: any contents, any position, no assumption on
    the rest of the memory. *)
From Verif Require Import Base SpecSearch SearchFacts Prog Version Mem Tree TreeState TreeSplit TreeInode SpecNode.

(** the memory with internode [p] holding [i] *)
Definition one (b : mem) (p : N) (i : inode) : mem := mwith_heap (<[p := NInode i]> (heap b)) b.
Lemma one_one b p i j : one (one b p i) p j = one b p j.
Proof. unfold one. destruct b. cbn. by rewrite insert_insert. Qed.
Lemma one_comm b p q i j : p <> q -> one (one b q j) p i = one (one b p i) q j.
Proof. intros H. unfold one. destruct b. cbn. by rewrite insert_commute. Qed.
Lemma one_id m p i : heap m !! p = Some (NInode i) -> one m p i = m.
Proof. intros H. unfold one. destruct m. cbn in *. by rewrite insert_id. Qed.
Lemma one_at b p i : heap (one b p i) !! p = Some (NInode i).
Proof. apply lookup_insert. Qed.
Lemma one_ne b p q i : p <> q -> heap (one b p i) !! q = heap b !! q.
Proof. intros. by apply lookup_insert_ne. Qed.

Lemma lp_ld {R} b p i (f : inode -> option R) r (Q : R -> mem -> Prop) :
  f i = Some r -> Q r (one b p i) -> wp (inode_ld p f) (one b p i) Q.
Proof. intros H HQ. eapply wp_atomic; [|exact HQ]. cbn beta. by rewrite one_at, H. Qed.
Lemma lp_up {R} b p i (f : inode -> option (R * inode)) r i' (Q : R -> mem -> Prop) :
  f i = Some (r, i') -> Q r (one b p i') -> wp (inode_up p f) (one b p i) Q.
Proof. intros H HQ. eapply wp_atomic; [|exact HQ]. cbn beta. rewrite one_at, H. f_equal. f_equal. apply one_one. Qed.
Lemma lp_nkeys b p i (Q : nat -> mem -> Prop) : Q (i_nkeys i) (one b p i) -> wp (nkeys p) (one b p i) Q.
Proof. by apply lp_ld. Qed.
Lemma lp_height b p i (Q : nat -> mem -> Prop) : Q (i_height i) (one b p i) -> wp (height p) (one b p i) Q.
Proof. by apply lp_ld. Qed.
Lemma lp_key b p i j x (Q : N -> mem -> Prop) : i_keys i !! j = Some x -> Q x (one b p i) -> wp (inode_ikey p j) (one b p i) Q.
Proof. intros H. by apply lp_ld. Qed.
Lemma lp_child b p i j x (Q : N -> mem -> Prop) : i_child i !! j = Some x -> Q x (one b p i) -> wp (child p j) (one b p i) Q.
Proof. intros H. by apply lp_ld. Qed.
Lemma lp_set_nkeys b p i n (Q : unit -> mem -> Prop) : Q tt (one b p (iwith_nkeys n i)) -> wp (set_nkeys p n) (one b p i) Q.
Proof. by eapply lp_up. Qed.
Lemma lp_set_height b p i n (Q : unit -> mem -> Prop) : Q tt (one b p (iwith_height n i)) -> wp (set_height p n) (one b p i) Q.
Proof. by eapply lp_up. Qed.
Lemma lp_set_key b p i j v (Q : unit -> mem -> Prop) : j < length (i_keys i) ->
  Q tt (one b p (iwith_keys (<[j := v]> (i_keys i)) i)) -> wp (set_inode_ikey p j v) (one b p i) Q.
Proof.
  intros H. eapply lp_up. unfold list_set. destruct (lookup_lt_is_Some_2 _ _ H) as [x ->]. done.
Qed.
Lemma lp_set_child b p i j v (Q : unit -> mem -> Prop) : j < length (i_child i) ->
  Q tt (one b p (iwith_child (<[j := v]> (i_child i)) i)) -> wp (set_child p j v) (one b p i) Q.
Proof.
  intros H. eapply lp_up. unfold list_set. destruct (lookup_lt_is_Some_2 _ _ H) as [x ->]. done.
Qed.
Definition body (i : inode) (n : nat) (ks cs : list N) : inode := mk_inode (i_ver i) n (i_height i) ks cs (i_parent i).

(** internode.rs:433-458 *)
Lemma lp_insert_kc b p i pos k c (Q : unit -> mem -> Prop) :
  length (i_keys i) = 15 -> length (i_child i) = 16 -> i_nkeys i < 15 -> pos <= i_nkeys i ->
  (forall ks cs, length ks = 15 -> length cs = 16 ->
     (forall t, t < 15 -> ks !! t = if decide (t < pos) then i_keys i !! t else if decide (t = pos) then Some k
         else if decide (t <= i_nkeys i) then i_keys i !! (t - 1) else i_keys i !! t) ->
     (forall t, t < 16 -> cs !! t = if decide (t < pos + 1) then i_child i !! t else if decide (t = pos + 1) then Some c
         else if decide (t <= i_nkeys i + 1) then i_child i !! (t - 1) else i_child i !! t) ->
     Q tt (one b p (body i (i_nkeys i + 1) ks cs))) ->
  wp (insert_key_and_child p pos k c) (one b p i) Q.
Proof.
  intros Hlk Hlc Hn Hpos HQ. unfold insert_key_and_child.
  apply wp_bind, lp_nkeys.
  destruct (Nat.ltb_spec (i_nkeys i) IWIDTH) as [_|H]; [|unfold IWIDTH in H; lia].
  destruct (Nat.leb_spec pos (i_nkeys i)) as [_|H]; [|lia]. cbn [andb]. apply wp_bind, wp_ret.
  apply wp_bind. eapply (wp_for_rev (fun j m => exists ks cs, length ks = 15 /\ length cs = 16 /\
     (forall t, t < 15 -> ks !! t = if decide (j < t <= i_nkeys i) then i_keys i !! (t - 1) else i_keys i !! t) /\
     (forall t, t < 16 -> cs !! t = if decide (j + 1 < t <= i_nkeys i + 1) then i_child i !! (t - 1) else i_child i !! t) /\
     m = one b p (body i (i_nkeys i) ks cs))).
  - exists (i_keys i), (i_child i). split; [done|]. split; [done|]. split; [|split].
    + intros t _. rewrite decide_False; [done|lia].
    + intros t _. rewrite decide_False; [done|lia].
    + by destruct i.
  - intros j m' Hi (ks & cs & L1 & L2 & E1 & E2 & ->). unfold shift_right1.
    destruct (lookup_lt_is_Some_2 ks j) as [x Hx]; [lia|].
    destruct (lookup_lt_is_Some_2 cs (j + 1)) as [y Hy]; [lia|].
    apply wp_bind. eapply lp_key; [exact Hx|].
    apply wp_bind. eapply lp_set_key; [cbn; lia|].
    apply wp_bind. eapply lp_child; [exact Hy|].
    eapply lp_set_child; [cbn; lia|].
    exists (<[j + 1 := x]> ks), (<[j + 2 := y]> cs). rewrite !insert_length. split; [done|]. split; [done|]. split; [|split; [|done]].
    + intros t Ht. destruct (decide (t = j + 1)) as [->|Hne].
      * rewrite list_lookup_insert by lia. rewrite decide_True by lia. rewrite <- Hx, E1 by lia. rewrite decide_False by lia. f_equal. lia.
      * rewrite list_lookup_insert_ne by lia. rewrite E1 by done. repeat case_decide; try lia; done.
    + intros t Ht. destruct (decide (t = j + 2)) as [->|Hne].
      * rewrite list_lookup_insert by lia. rewrite decide_True by lia. rewrite <- Hy, E2 by lia. rewrite decide_False by lia. f_equal. lia.
      * rewrite list_lookup_insert_ne by lia. rewrite E2 by done. repeat case_decide; try lia; done.
  - intros m' (ks & cs & L1 & L2 & E1 & E2 & ->).
    apply wp_bind. eapply lp_set_key; [cbn; lia|].
    apply wp_bind. eapply lp_set_child; [cbn; lia|].
    eapply lp_set_nkeys.
    refine (HQ (<[pos := k]> ks) (<[pos + 1 := c]> cs) _ _ _ _); rewrite ?insert_length; try done.
    + intros t Ht. destruct (decide (t = pos)) as [->|Hne].
      * rewrite list_lookup_insert by lia. repeat case_decide; try lia; done.
      * rewrite list_lookup_insert_ne by lia. rewrite E1 by done. repeat case_decide; try lia; done.
    + intros t Ht. destruct (decide (t = pos + 1)) as [->|Hne].
      * rewrite list_lookup_insert by lia. repeat case_decide; try lia; done.
      * rewrite list_lookup_insert_ne by lia. rewrite E2 by done. repeat case_decide; try lia; done.
Qed.

(** internode.rs:475-481 *)
Lemma lp_shift_from b p q i iq dp sp cnt (Q : unit -> mem -> Prop) : p <> q ->
  length (i_keys i) = 15 -> length (i_child i) = 16 -> length (i_keys iq) = 15 -> length (i_child iq) = 16 ->
  sp + cnt <= 15 -> dp + cnt <= 15 ->
  (forall ks cs, length ks = 15 -> length cs = 16 ->
     (forall t, ks !! t = if decide (dp <= t < dp + cnt) then i_keys i !! (sp + t - dp) else i_keys iq !! t) ->
     (forall t, cs !! t = if decide (dp + 1 <= t < dp + 1 + cnt) then i_child i !! (sp + t - dp) else i_child iq !! t) ->
     Q tt (one (one b q (body iq (i_nkeys iq) ks cs)) p i)) ->
  wp (shift_from q dp p sp cnt) (one (one b q iq) p i) Q.
Proof.
  intros Hne L1 L2 L3 L4 Hs Hd HQ. unfold shift_from.
  eapply (wp_for_seq (fun j m => exists ks cs, length ks = 15 /\ length cs = 16 /\
     (forall t, ks !! t = if decide (dp <= t < dp + j) then i_keys i !! (sp + t - dp) else i_keys iq !! t) /\
     (forall t, cs !! t = if decide (dp + 1 <= t < dp + 1 + j) then i_child i !! (sp + t - dp) else i_child iq !! t) /\
     m = one (one b q (body iq (i_nkeys iq) ks cs)) p i)).
  - exists (i_keys iq), (i_child iq). split; [done|]. split; [done|]. split; [|split; [|by destruct iq]].
    + intros t. by rewrite decide_False by lia.
    + intros t. by rewrite decide_False by lia.
  - intros j m' Hi (ks & cs & K1 & K2 & E1 & E2 & ->).
    destruct (lookup_lt_is_Some_2 (i_keys i) (sp + j)) as [x Hx]; [lia|].
    destruct (lookup_lt_is_Some_2 (i_child i) (sp + 1 + j)) as [y Hy]; [lia|].
    apply wp_bind. eapply lp_key; [exact Hx|]. rewrite one_comm by done.
    apply wp_bind. eapply lp_set_key; [cbn; lia|]. rewrite one_comm by done.
    apply wp_bind. eapply lp_child; [exact Hy|]. rewrite one_comm by done.
    eapply lp_set_child; [cbn; lia|]. rewrite one_comm by done.
    exists (<[dp + j := x]> ks), (<[dp + 1 + j := y]> cs). rewrite !insert_length. split; [done|]. split; [done|]. split; [|split; [|done]].
    + intros t. destruct (decide (t = dp + j)) as [->|Hn].
      * rewrite list_lookup_insert by lia. rewrite decide_True by lia. rewrite <- Hx. f_equal. lia.
      * rewrite list_lookup_insert_ne by lia. rewrite E1. repeat case_decide; try lia; done.
    + intros t. destruct (decide (t = dp + 1 + j)) as [->|Hn].
      * rewrite list_lookup_insert by lia. rewrite decide_True by lia. rewrite <- Hy. f_equal. lia.
      * rewrite list_lookup_insert_ne by lia. rewrite E2. repeat case_decide; try lia; done.
  - intros m' (ks & cs & K1 & K2 & E1 & E2 & ->). by apply HQ.
Qed.

(** the key and child arrays with one more entry *)
Definition nfk (i : inode) (ci : nat) (sk : N) (t : nat) : option N :=
  if decide (t < ci) then i_keys i !! t else if decide (t = ci) then Some sk else i_keys i !! (t - 1).
Definition nfc (i : inode) (ci : nat) (r : N) (t : nat) : option N :=
  if decide (t < ci + 1) then i_child i !! t else if decide (t = ci + 1) then Some r else i_child i !! (t - 1).
Record nhalves (i : inode) (ci : nat) (sk r : N) (JL JR : inode) (pop : N) : Prop := {
  nv_n : i_nkeys JL = 8 /\ i_nkeys JR = 7;
  nv_lk : length (i_keys JL) = 15 /\ length (i_keys JR) = 15; nv_lc : length (i_child JL) = 16 /\ length (i_child JR) = 16;
  nv_kl : forall t, t < 8 -> i_keys JL !! t = nfk i ci sk t; nv_cl : forall t, t < 9 -> i_child JL !! t = nfc i ci r t;
  nv_kr : forall t, t < 7 -> i_keys JR !! t = nfk i ci sk (9 + t); nv_cr : forall t, t < 8 -> i_child JR !! t = nfc i ci r (9 + t);
  nv_pop : nfk i ci sk 8 = Some pop; nv_ht : i_height JL = i_height i }.

Ltac dec := repeat case_decide; try lia; try done; try (f_equal; lia).
Section Cut.
Context (b : mem) (p q : N) (Hne : p <> q) (i iq : inode).
Context (L1 : length (i_keys i) = 15) (L2 : length (i_child i) = 16) (L3 : length (i_keys iq) = 15) (L4 : length (i_child iq) = 16).
(** internode.rs:558-688 up to the heights *)
Lemma lp_cut ci sk r (Q : N * bool -> mem -> Prop) : ci <= 15 ->
  (forall JL JR pop, nhalves i ci sk r JL JR pop -> Q (pop, Nat.ltb ci 8) (one (one b q JR) p JL)) ->
  wp (match Nat.compare ci 8 with
          | Lt =>
              x <- child p 8 ;; set_child q 0 x ;;;
              shift_from q 0 p 8 (IWIDTH - 8) ;;;
              set_nkeys q (IWIDTH - 8) ;;;
              popup <- inode_ikey p (8 - 1) ;;
              set_nkeys p (8 - 1) ;;;
              insert_key_and_child p ci sk r ;;;
              Ret (popup, true)
          | Eq =>
              set_child q 0 r ;;;
              shift_from q 0 p 8 (IWIDTH - 8) ;;;
              set_nkeys q (IWIDTH - 8) ;;;
              set_nkeys p 8 ;;;
              Ret (sk, false)
          | Gt =>
              let rpos := ci - (8 + 1) in
              x <- child p (8 + 1) ;; set_child q 0 x ;;;
              shift_from q 0 p (8 + 1) rpos ;;;
              set_inode_ikey q rpos sk ;;;
              set_child q (rpos + 1) r ;;;
              shift_from q (rpos + 1) p ci (IWIDTH - ci) ;;;
              set_nkeys q (IWIDTH - 8) ;;;
              popup <- inode_ikey p 8 ;;
              set_nkeys p 8 ;;;
              Ret (popup, false)
          end) (one (one b q iq) p i) Q.
Proof.
  intros Hci HQ. change (IWIDTH - 8) with 7. change (8 + 1) with 9. change (8 - 1) with 7.
  destruct (Nat.compare_spec ci 8) as [Ec|Ec|Ec]; cbv zeta.
  - rewrite one_comm by done. apply wp_bind, lp_set_child; [lia|]. rewrite one_comm by done.
    apply wp_bind, lp_shift_from; cbn [iwith_child i_keys i_child]; rewrite ?insert_length; try done; try lia.
    intros ks cs K1 K2 E1 E2. rewrite one_comm by done.
    apply wp_bind, lp_set_nkeys. rewrite one_comm by done.
    apply wp_bind, lp_set_nkeys. apply wp_ret.
    destruct (Nat.ltb_spec ci 8) as [|_] in HQ; [lia|]. apply HQ. split; cbn; try done.
    + intros t Ht. unfold nfk. dec.
    + intros t Ht. unfold nfc. dec.
    + intros t Ht. rewrite E1. unfold nfk. dec.
    + intros t Ht. rewrite E2. unfold nfc. dec. assert (t = 0) as -> by lia. cbn. rewrite list_lookup_insert by lia. done.
    + unfold nfk. dec.
  - destruct (lookup_lt_is_Some_2 (i_child i) 8) as [x Hx]; [lia|]. destruct (lookup_lt_is_Some_2 (i_keys i) 7) as [y Hy]; [lia|].
    apply wp_bind. eapply lp_child; [exact Hx|]. rewrite one_comm by done.
    apply wp_bind, lp_set_child; [lia|]. rewrite one_comm by done.
    apply wp_bind, lp_shift_from; cbn [iwith_child i_keys i_child]; rewrite ?insert_length; try done; try lia.
    intros ks cs K1 K2 E1 E2. rewrite one_comm by done.
    apply wp_bind, lp_set_nkeys. rewrite one_comm by done.
    apply wp_bind. eapply lp_key; [exact Hy|]. apply wp_bind, lp_set_nkeys.
    apply wp_bind, lp_insert_kc; cbn [iwith_nkeys i_nkeys i_keys i_child]; [done|done|lia|lia|].
    intros ks' cs' K1' K2' E1' E2'. apply wp_ret.
    destruct (Nat.ltb_spec ci 8) as [_|] in HQ; [|lia]. apply HQ. split; cbn; try done.
    + intros t Ht. rewrite E1' by lia. unfold nfk. dec.
    + intros t Ht. rewrite E2' by lia. unfold nfc. dec.
    + intros t Ht. rewrite E1. unfold nfk. dec.
    + intros t Ht. rewrite E2. unfold nfc. dec. assert (t = 0) as -> by lia. cbn. rewrite list_lookup_insert by lia. done.
    + unfold nfk. dec.
  - destruct (lookup_lt_is_Some_2 (i_child i) 9) as [x Hx]; [lia|]. destruct (lookup_lt_is_Some_2 (i_keys i) 8) as [y Hy]; [lia|].
    apply wp_bind. eapply lp_child; [exact Hx|]. rewrite one_comm by done.
    apply wp_bind, lp_set_child; [lia|]. rewrite one_comm by done.
    apply wp_bind, lp_shift_from; cbn [iwith_child i_keys i_child]; rewrite ?insert_length; try done; try lia.
    intros ks cs K1 K2 E1 E2. rewrite one_comm by done.
    apply wp_bind, lp_set_key; [cbn; lia|].
    apply wp_bind, lp_set_child; [cbn; lia|]. rewrite one_comm by done. change IWIDTH with 15.
    apply wp_bind, lp_shift_from; cbn [iwith_child iwith_keys body i_keys i_child i_nkeys]; rewrite ?insert_length; try done; try lia.
    intros ks' cs' K1' K2' E1' E2'. cbn [i_keys i_child body] in *. rewrite one_comm by done.
    apply wp_bind, lp_set_nkeys. rewrite one_comm by done.
    apply wp_bind. eapply lp_key; [exact Hy|]. apply wp_bind, lp_set_nkeys. apply wp_ret.
    destruct (Nat.ltb_spec ci 8) as [|_] in HQ; [lia|]. apply HQ. split; cbn; try done.
    + intros t Ht. unfold nfk. dec.
    + intros t Ht. unfold nfc. dec.
    + intros t Ht. rewrite E1'. case_decide as D1.
      * unfold nfk. dec.
      * destruct (decide (t = ci - 9)) as [->|Hd]; [rewrite list_lookup_insert by lia; unfold nfk; dec|].
        rewrite list_lookup_insert_ne by lia. rewrite E1. unfold nfk. dec.
    + intros t Ht. rewrite E2'. case_decide as D1.
      * unfold nfc. dec.
      * destruct (decide (t = ci - 9 + 1)) as [->|Hd]; [rewrite list_lookup_insert by lia; unfold nfc; dec|].
        rewrite list_lookup_insert_ne by lia. rewrite E2. unfold nfc. dec.
        assert (t = 0) as -> by lia. cbn. rewrite list_lookup_insert by lia. done.
    + unfold nfk. dec.
Qed.
End Cut.

(** ** counting *)
Lemma nna_app l l' x : n_not_above (l ++ l') x = n_not_above l x + n_not_above l' x.
Proof. unfold n_not_above. by rewrite filter_app, app_length. Qed.
Lemma nna_cons a l x : n_not_above (a :: l) x = (if decide (a <= x)%N then 1 else 0) + n_not_above l x.
Proof. unfold n_not_above. rewrite filter_cons. by case_decide. Qed.
Lemma nna_le l x : n_not_above l x <= length l.
Proof. unfold n_not_above. apply filter_length. Qed.
Lemma nna_all l x : (forall t a, l !! t = Some a -> (a <= x)%N) -> n_not_above l x = length l.
Proof.
  induction l as [|a l IH]; intros H; [done|]. rewrite nna_cons, decide_True by (by apply (H 0)). cbn. f_equal.
  apply IH. intros t b Hb. by apply (H (S t)).
Qed.
Lemma nna_none l x : (forall t a, l !! t = Some a -> (x < a)%N) -> n_not_above l x = 0.
Proof.
  induction l as [|a l IH]; intros H; [done|].
  rewrite nna_cons, decide_False by (pose proof (H 0 a eq_refl); lia). cbn.
  apply IH. intros t b Hb. by apply (H (S t)).
Qed.
Lemma nna_above l t a x : ascending l -> l !! t = Some a -> (x < a)%N -> n_not_above l x = n_not_above (take t l) x.
Proof.
  intros Ha Ht Hx. rewrite <- (take_drop t l) at 1. rewrite nna_app.
  rewrite (nna_none (drop t l)); [lia|]. intros j b Hb. rewrite lookup_drop in Hb.
  destruct (decide (j = 0)) as [->|]; [rewrite Nat.add_0_r in Hb; congruence|].
  pose proof (Ha t (t + j) a b ltac:(lia) Ht Hb). lia.
Qed.
Lemma nna_below l t a x : ascending l -> l !! t = Some a -> (a <= x)%N -> n_not_above l x = S t + n_not_above (drop (S t) l) x.
Proof.
  intros Ha Ht Hx. rewrite <- (take_drop (S t) l) at 1. rewrite nna_app.
  rewrite (nna_all (take (S t) l)).
  - rewrite take_length. apply lookup_lt_Some in Ht. lia.
  - intros j b Hb. apply lookup_take_Some in Hb as [Hb Hj].
    destruct (decide (j = t)) as [->|]; [congruence|]. pose proof (Ha j t b a ltac:(lia) Hb Ht). lia.
Qed.

(** the separators and children with one more entry *)
Definition nks (i : inode) (pos : nat) (k : N) : list N := take pos (separators i) ++ k :: drop pos (separators i).
Lemma sep_len i : is_internode i -> length (separators i) = i_nkeys i.
Proof. intros (H1 & _ & H2 & _). unfold separators. rewrite take_length. lia. Qed.
Lemma nks_lookup i pos k t : is_internode i -> pos <= i_nkeys i -> t <= i_nkeys i -> nks i pos k !! t = nfk i pos k t.
Proof.
  intros Hi Hp Ht. pose proof (sep_len i Hi) as Hl. unfold nks, nfk. case_decide as D1.
  - rewrite lookup_app_l by (rewrite take_length; lia). rewrite lookup_take by done. unfold separators. by rewrite lookup_take by lia.
  - rewrite lookup_app_r by (rewrite take_length; lia). rewrite take_length, Hl.
    replace (min pos (i_nkeys i)) with pos by lia. case_decide as D2.
    + subst t. by rewrite Nat.sub_diag.
    + replace (t - pos) with (S (t - 1 - pos)) by lia. change (drop pos (separators i) !! (t - 1 - pos) = i_keys i !! (t - 1)). rewrite lookup_drop. replace (pos + (t - 1 - pos)) with (t - 1) by lia.
      unfold separators. by rewrite lookup_take by lia.
Qed.
Lemma nks_len i pos k : is_internode i -> pos <= i_nkeys i -> length (nks i pos k) = i_nkeys i + 1.
Proof. intros Hi Hp. unfold nks. rewrite app_length. cbn. rewrite take_length, drop_length, (sep_len i Hi). lia. Qed.
Lemma nks_asc i pos k : is_internode i -> within i pos k -> ascending (nks i pos k).
Proof.
  intros Hi (Hp & H1 & H2) s t a b Hst Ha Hb. pose proof (sep_len i Hi) as Hl.
  destruct Hi as (_ & _ & _ & Hasc). unfold nks in *.
  assert (Hlt : length (take pos (separators i)) = pos) by (rewrite take_length; lia).
  destruct (decide (t < pos)).
  { rewrite lookup_app_l in Ha by lia. rewrite lookup_app_l in Hb by lia.
    apply lookup_take_Some in Ha as [Ha _]. apply lookup_take_Some in Hb as [Hb _]. by apply (Hasc s t). }
  rewrite lookup_app_r in Hb by lia. rewrite Hlt in Hb.
  assert (Hb' : t = pos /\ b = k \/ pos < t /\ separators i !! (t - 1) = Some b).
  { destruct (t - pos) as [|u] eqn:E; [left; split; [lia|by injection Hb]|right].
    change (drop pos (separators i) !! u = Some b) in Hb. rewrite lookup_drop in Hb. split; [lia|]. rewrite <- Hb. f_equal. lia. }
  destruct (decide (s < pos)).
  { rewrite lookup_app_l in Ha by lia. apply lookup_take_Some in Ha as [Ha _].
    pose proof (H1 s a ltac:(done) Ha). destruct Hb' as [[-> ->]|[? Hb']]; [done|].
    pose proof (H2 (t - 1) b ltac:(lia) Hb'). lia. }
  rewrite lookup_app_r in Ha by lia. rewrite Hlt in Ha.
  destruct Hb' as [[-> ->]|[? Hb']]; [lia|].
  destruct (s - pos) as [|u] eqn:E.
  - injection Ha as <-. by apply (H2 (t - 1)); [lia|].
  - change (drop pos (separators i) !! u = Some a) in Ha. rewrite lookup_drop in Ha. apply (Hasc (pos + u) (t - 1)); [lia|done|done].
Qed.
Lemma nroute i pos k c x : is_internode i -> within i pos k ->
  nfc i pos c (n_not_above (nks i pos k) x) = rerouted i pos k c x.
Proof.
  intros Hi (Hp & H1 & H2). pose proof (sep_len i Hi) as Hl. unfold nks, rerouted, routes.
  rewrite nna_app, nna_cons.
  assert (E : n_not_above (separators i) x = n_not_above (take pos (separators i)) x + n_not_above (drop pos (separators i)) x)
    by (rewrite <- nna_app; by rewrite take_drop).
  pose proof (nna_le (take pos (separators i)) x) as Hle. rewrite take_length in Hle.
  case_decide as D.
  - assert (Hall : n_not_above (take pos (separators i)) x = pos).
    { rewrite nna_all; [rewrite take_length; lia|]. intros t a Ha. apply lookup_take_Some in Ha as [Ha ?].
      pose proof (H1 t a ltac:(done) Ha). lia. }
    rewrite Hall in *. set (d := n_not_above (drop pos (separators i)) x) in *.
    unfold nfc. rewrite decide_False by lia. case_decide.
    + rewrite bool_decide_true by (split; [lia|done]). done.
    + rewrite bool_decide_false by lia. rewrite E. f_equal. lia.
  - assert (Hno : n_not_above (drop pos (separators i)) x = 0).
    { apply nna_none. intros t a Ha. rewrite lookup_drop in Ha. pose proof (H2 (pos + t) a ltac:(lia) Ha). lia. }
    rewrite Hno in *. rewrite bool_decide_false by (intros []; lia). unfold nfc. rewrite decide_True by lia. rewrite E. f_equal; lia.
Qed.
Lemma take_eq (l l' : list N) n : n <= length l -> length l' = n -> (forall t, t < n -> l !! t = l' !! t) -> take n l = l'.
Proof.
  intros H1 H2 H. apply list_eq. intros t. destruct (decide (t < n)).
  - rewrite lookup_take by done. by apply H.
  - rewrite lookup_take_ge by lia. symmetry. apply lookup_ge_None. lia.
Qed.
Lemma asc_take l n : ascending l -> ascending (take n l).
Proof. intros H s t a b Hst Ha Hb. apply lookup_take_Some in Ha as [Ha _]. apply lookup_take_Some in Hb as [Hb _]. by apply (H s t). Qed.
Lemma asc_drop l n : ascending l -> ascending (drop n l).
Proof. intros H s t a b Hst Ha Hb. rewrite lookup_drop in Ha, Hb. apply (H (n + s) (n + t)); [lia|done|done]. Qed.

Lemma sep_elem pos i x : x ∈ separators i <-> x ∈ take pos (separators i) \/ x ∈ drop pos (separators i).
Proof. rewrite <- elem_of_app. by rewrite take_drop. Qed.
(** ** internode.rs:433-458 *)
Lemma insert_routes m p i pos k c : heap m !! p = Some (NInode i) -> is_internode i -> i_nkeys i < 15 -> within i pos k ->
  exists i', run (insert_key_and_child p pos k c) m = Ok (tt, one m p i') /\
    is_internode i' /\ i_nkeys i' = i_nkeys i + 1 /\ (forall x, x ∈ separators i' <-> x = k \/ x ∈ separators i) /\
    i_height i' = i_height i /\ i_parent i' = i_parent i /\
    forall x, routes i' x = rerouted i pos k c x.
Proof.
  intros Hm Hi Hn Hw. pose proof Hi as (L1 & L2 & _ & _). pose proof Hw as (Hpos & _).
  assert (wp (insert_key_and_child p pos k c) m (fun _ m' => exists i', m' = one m p i' /\
    is_internode i' /\ i_nkeys i' = i_nkeys i + 1 /\ (forall x, x ∈ separators i' <-> x = k \/ x ∈ separators i) /\
    i_height i' = i_height i /\ i_parent i' = i_parent i /\
    forall x, routes i' x = rerouted i pos k c x)) as HW.
  { rewrite <- (one_id m p i Hm) at 1. apply lp_insert_kc; [done..|]. intros ks cs K1 K2 E1 E2.
    eexists. split; [reflexivity|].
    assert (Es : separators (body i (i_nkeys i + 1) ks cs) = nks i pos k).
    { unfold separators at 1. cbn. apply take_eq; [lia|by apply nks_len|]. intros t Ht.
      rewrite E1 by lia. rewrite nks_lookup by (done || lia). unfold nfk. dec. }
    split; [|split; [done|split; [|split; [done|split; [done|]]]]].
    - split; [done|]. split; [done|]. split; [cbn; lia|]. rewrite Es. by apply nks_asc.
    - intros x. rewrite Es. unfold nks. rewrite elem_of_app, elem_of_cons. rewrite (sep_elem pos i x). tauto.
    - intros x. unfold routes at 1. rewrite Es. rewrite <- (nroute i pos k c x Hi Hw). cbn [i_child body].
      pose proof (nna_le (nks i pos k) x) as Hle. rewrite (nks_len i pos k Hi Hpos) in Hle.
      rewrite E2 by lia. unfold nfc. dec. }
  apply wp_run in HW as ([] & m' & E & i' & -> & HH). eauto.
Qed.

(** ** internode.rs:651-686 *)
Lemma sbp_refl a : same_but_parent a a.
Proof. by left. Qed.
Definition kids_ok (m : mem) (l : list N) : Prop := forall x, x ∈ l -> x = 0%N \/ exists ix, heap m !! x = Some (NInode ix).
Lemma sbp_inode m m' a i : (forall a, same_but_parent (heap m !! a) (heap m' !! a)) -> heap m !! a = Some (NInode i) ->
  exists pa, heap m' !! a = Some (NInode (iwith_parent pa i)).
Proof.
  intros H E. destruct (H a) as [<-|(i0 & pa & E1 & E2)].
  - exists (i_parent i). rewrite E. by destruct i.
  - rewrite E in E1. injection E1 as <-. eauto.
Qed.
Lemma lp_reparent m q iq : heap m !! q = Some (NInode iq) -> i_nkeys iq < 16 -> length (i_child iq) = 16 ->
  kids_ok m (take (i_nkeys iq + 1) (i_child iq)) ->
  wp (reparent_children q set_inode_parent) m (fun _ m' =>
    (forall a, same_but_parent (heap m !! a) (heap m' !! a)) /\
    (forall x, x ∈ take (i_nkeys iq + 1) (i_child iq) -> x <> 0%N ->
       exists ix, heap m' !! x = Some (NInode ix) /\ i_parent ix = q)).
Proof.
  intros Hq Hn Hl Hk. unfold reparent_children. apply wp_bind.
  eapply wp_atomic; [cbn beta; rewrite Hq; done|].
  eapply (wp_for_seq (fun j m' => (forall a, same_but_parent (heap m !! a) (heap m' !! a)) /\
    (forall x, x ∈ take j (i_child iq) -> x <> 0%N -> exists ix, heap m' !! x = Some (NInode ix) /\ i_parent ix = q))).
  - split; [intros; apply sbp_refl|]. intros x Hx. by apply elem_of_nil in Hx.
  - intros j m' Hj [H1 H2]. destruct (sbp_inode m m' q iq H1 Hq) as [pa Eq].
    destruct (lookup_lt_is_Some_2 (i_child iq) j) as [c Hc]; [lia|].
    apply wp_bind. eapply wp_atomic; [cbn beta; rewrite Eq; cbn; rewrite Hc; done|].
    replace (j + 1) with (S j) by lia. rewrite (take_S_r _ _ _ Hc).
    destruct (N.eqb_spec c 0) as [->|Hcz].
    + apply wp_ret. split; [done|]. intros x Hx Hnz. apply elem_of_app in Hx as [Hx|Hx]; [by apply H2|].
      apply elem_of_list_singleton in Hx. done.
    + assert (Hcin : c ∈ take (i_nkeys iq + 1) (i_child iq)).
      { apply (elem_of_list_lookup_2 _ j). rewrite lookup_take by lia. done. }
      destruct (Hk c Hcin) as [?|[ix Ex]]; [done|].
      destruct (sbp_inode m m' c ix H1 Ex) as [pa' Ex'].
      eapply wp_atomic; [cbn beta; rewrite Ex'; done|]. split.
      * intros a. cbn. destruct (decide (a = c)) as [->|Hne].
        -- rewrite lookup_insert. rewrite Ex. right. eexists ix, q. done.
        -- rewrite lookup_insert_ne by done. apply H1.
      * intros x Hx Hnz. cbn. destruct (decide (x = c)) as [->|Hne].
        -- rewrite lookup_insert. eexists. done.
        -- rewrite lookup_insert_ne by done. apply elem_of_app in Hx as [Hx|Hx]; [by apply H2|].
           by apply elem_of_list_singleton in Hx.
  - intros m' [H1 H2]. rewrite Nat.add_0_l in H2. done.
Qed.

(** ** internode.rs:558-688 *)
Section SplitSpec.
Context (m : mem) (p q : N) (Hne : p <> q) (i iq : inode) (pos : nat) (k c : N).
Context (Hp : heap m !! p = Some (NInode i)) (Hq : heap m !! q = Some (NInode iq)).
Context (Hi : is_internode i) (Hn : i_nkeys i = 15) (L3 : length (i_keys iq) = 15) (L4 : length (i_child iq) = 16).
Context (Hw : within i pos k).

Definition split_post (popup : N) (left : bool) (m' : mem) : Prop := exists il ir,
  heap m' !! p = Some (NInode il) /\ heap m' !! q = Some (NInode ir) /\
  is_internode il /\ is_internode ir /\ i_nkeys il = 8 /\ i_nkeys ir = 7 /\
  i_height il = i_height i /\ i_height ir = i_height i /\
  left = (k <? popup)%N /\
  (forall x, x ∈ separators il \/ x = popup \/ x ∈ separators ir <-> x = k \/ x ∈ separators i) /\
  (forall x, routes (if (x <? popup)%N then il else ir) x = rerouted i pos k c x) /\
  (forall a, a <> p -> a <> q -> same_but_parent (heap m !! a) (heap m' !! a)) /\
  (0 < i_height i -> forall x, x ∈ take 8 (i_child ir) -> x <> 0%N ->
       exists ix, heap m' !! x = Some (NInode ix) /\ i_parent ix = q).

Lemma halves_sep JL JR pop : nhalves i pos k c JL JR pop ->
  separators JL = take 8 (nks i pos k) /\ separators JR = drop 9 (nks i pos k) /\ nks i pos k !! 8 = Some pop.
Proof.
  intros [[N1 N2] [A1 A2] [B1 B2] KL CL KR CR KP _]. pose proof Hw as (Hpos & _).
  pose proof (nks_len i pos k Hi Hpos) as Hlen. split; [|split].
  - unfold separators. rewrite N1. apply take_eq; [lia|rewrite take_length; lia|].
    intros t Ht. rewrite KL by done. rewrite lookup_take by done. rewrite nks_lookup by (done || lia). done.
  - unfold separators. rewrite N2. apply take_eq; [lia|rewrite drop_length; lia|].
    intros t Ht. rewrite KR by done. rewrite lookup_drop. rewrite nks_lookup by (done || lia). done.
  - rewrite nks_lookup by (done || lia). done.
Qed.
Lemma halves_routes JL JR pop : nhalves i pos k c JL JR pop ->
  is_internode JL /\ is_internode JR /\
  (forall x, x ∈ separators JL \/ x = pop \/ x ∈ separators JR <-> x = k \/ x ∈ separators i) /\
  (forall x, routes (if (x <? pop)%N then JL else JR) x = rerouted i pos k c x).
Proof.
  intros H. destruct (halves_sep _ _ _ H) as (E1 & E2 & E3). pose proof (nks_asc i pos k Hi Hw) as Hasc.
  destruct H as [[N1 N2] [A1 A2] [B1 B2] KL CL KR CR KP _].
  split; [|split; [|split]].
  - split; [done|]. split; [done|]. split; [lia|]. rewrite E1. by apply asc_take.
  - split; [done|]. split; [done|]. split; [lia|]. rewrite E2. by apply asc_drop.
  - intros x. rewrite E1, E2.
    assert (Hx : x ∈ nks i pos k <-> x = k \/ x ∈ separators i).
    { unfold nks. rewrite elem_of_app, elem_of_cons. rewrite (sep_elem pos i x). tauto. }
    rewrite <- Hx. pose proof (take_drop_middle _ _ _ E3) as Et. set (l := nks i pos k) in *.
    assert (x ∈ l <-> x ∈ take 8 l ++ pop :: drop 9 l) as -> by (by rewrite Et).
    rewrite elem_of_app, elem_of_cons. tauto.
  - intros x. rewrite <- (nroute i pos k c x Hi Hw). destruct (N.ltb_spec x pop) as [Hx|Hx]; unfold routes.
    + rewrite (nna_above _ _ _ _ Hasc E3 Hx), E1. apply CL.
      pose proof (nna_le (take 8 (nks i pos k)) x) as Hle. rewrite take_length in Hle. lia.
    + rewrite (nna_below _ _ _ _ Hasc E3 Hx), E2. apply CR.
      pose proof (nna_le (drop 9 (nks i pos k)) x) as Hle. rewrite drop_length in Hle.
      pose proof Hw as (Hpos & _). rewrite (nks_len i pos k Hi Hpos) in Hle. lia.
Qed.
Lemma halves_left JL JR pop : nhalves i pos k c JL JR pop -> Nat.ltb pos 8 = (k <? pop)%N.
Proof.
  intros H. destruct (halves_sep _ _ _ H) as (_ & _ & E3). pose proof (nks_asc i pos k Hi Hw) as Hasc. pose proof Hw as (Hpos & _).
  assert (Ek : nks i pos k !! pos = Some k).
  { rewrite nks_lookup by (done || lia). unfold nfk. rewrite decide_False by lia. by rewrite decide_True. }
  destruct (Nat.ltb_spec pos 8).
  - pose proof (Hasc pos 8 _ _ ltac:(done) Ek E3). symmetry. by apply N.ltb_lt.
  - symmetry. apply N.ltb_ge. destruct (decide (pos = 8)) as [E|].
    + rewrite <- E in E3 at 1. assert (Some k = Some pop) as [= <-] by (by rewrite <- Ek, <- E3, E). lia.
    + pose proof (Hasc 8 pos _ _ ltac:(lia) E3 Ek). lia.
Qed.

Lemma split_routes : (0 < i_height i -> kids_ok m (c :: i_child i)) ->
  exists popup left m', run (split_into p q pos k c) m = Ok ((popup, left), m') /\ split_post popup left m'.
Proof.
  intros Hkids. pose proof Hi as (L1 & L2 & _ & _). pose proof Hw as (Hpos & _).
  assert (wp (split_into p q pos k c) m (fun r m' => split_post r.1 r.2 m')) as HW.
  { unfold split_into. rewrite <- (one_id m p i Hp). rewrite <- (one_id m q iq Hq).
    apply wp_bind, lp_nkeys. rewrite Hn. cbn [Nat.eqb IWIDTH]. apply wp_bind, wp_ret. cbv zeta.
    apply wp_bind. eapply lp_cut; [done..|lia|]. intros JL JR pop HH.
    destruct (halves_routes _ _ _ HH) as (R1 & R2 & R3 & R4). pose proof (halves_left _ _ _ HH) as Hleft.
    pose proof HH as [[N1 N2] [A1 A2] [B1 B2] KL CL KR CR KP HT].
    apply wp_bind, lp_height. rewrite one_comm by done. apply wp_bind, lp_set_height. rewrite HT.
    set (ir := iwith_height (i_height i) JR).
    set (m1 := one (one m p JL) q ir).
    assert (Hm1p : heap m1 !! p = Some (NInode JL)) by (unfold m1; rewrite one_ne by done; apply one_at).
    assert (Hm1q : heap m1 !! q = Some (NInode ir)) by apply one_at.
    assert (Hm1o : forall a, a <> p -> a <> q -> heap m1 !! a = heap m !! a) by (intros; unfold m1; by rewrite !one_ne by done).
    assert (Hrt : forall x, routes (if (x <? pop)%N then JL else ir) x = rerouted i pos k c x).
    { intros x. rewrite <- R4. by destruct (x <? pop)%N. }
    destruct (Nat.ltb_spec 0 (i_height i)) as [Hh|Hh].
    - apply wp_bind. eapply wp_mono.
      { eapply (lp_reparent m1 q ir); [done|unfold ir; cbn; lia|done|].
        intros x Hx. assert (Hx' : x ∈ c :: i_child i).
        { apply elem_of_take in Hx as (t & Ht & Htn). unfold ir in Ht, Htn. cbn in Ht, Htn. rewrite N2 in Htn.
          rewrite CR in Ht by lia. unfold nfc in Ht. apply elem_of_cons. repeat case_decide; [right|left; congruence|right];
            by eapply elem_of_list_lookup_2. }
        destruct (Hkids Hh x Hx') as [?|[ix Ex]]; [by left|right].
        destruct (decide (x = p)) as [->|]; [eauto|]. destruct (decide (x = q)) as [->|]; [eauto|]. rewrite Hm1o by done. eauto. }
      intros [] m2 [S1 S2]. apply wp_ret. cbn [fst snd].
      destruct (sbp_inode _ _ _ _ S1 Hm1p) as [pa1 P1]. destruct (sbp_inode _ _ _ _ S1 Hm1q) as [pa2 P2].
      exists (iwith_parent pa1 JL), (iwith_parent pa2 ir). split; [done|]. split; [done|]. split; [done|]. split; [done|].
      split; [done|]. split; [done|]. split; [done|]. split; [done|]. split; [done|]. split; [done|]. split; [|split].
      + intros x. rewrite <- Hrt. by destruct (x <? pop)%N.
      + intros a Ha1 Ha2. rewrite <- Hm1o by done. apply S1.
      + intros _ x Hx. apply S2. unfold ir. cbn. rewrite N2. done.
    - apply wp_bind, wp_ret. apply wp_ret. cbn [fst snd].
      exists JL, ir. split; [done|]. split; [done|]. split; [done|]. split; [done|].
      split; [done|]. split; [done|]. split; [done|]. split; [done|]. split; [done|]. split; [done|]. split; [done|]. split.
      + intros a Ha1 Ha2. rewrite Hm1o by done. apply sbp_refl.
      + lia. }
  apply wp_run in HW as ([popup left] & m' & E & HH). eauto.
Qed.
End SplitSpec.

(** ** the descent's choice of child (ksearch.rs:371-393, generic.rs:885-893) *)
Lemma ub_route m p i x : heap m !! p = Some (NInode i) -> is_internode i -> forall fuel l r,
  l <= r <= i_nkeys i -> r - l <= fuel ->
  (forall t a, t < l -> separators i !! t = Some a -> (a <= x)%N) ->
  (forall t a, r <= t -> separators i !! t = Some a -> (x < a)%N) ->
  wp (ub_loop fuel p x l r) m (fun c m' => m' = m /\ c = n_not_above (separators i) x).
Proof.
  intros Hm Hi. pose proof (sep_len i Hi) as Hl. pose proof Hi as (L1 & L2 & L3 & Hasc).
  induction fuel as [|fuel IH]; intros l r Hlr Hf Hlo Hhi; cbn [ub_loop]; destruct (Nat.ltb_spec l r) as [Hlt|Hge]; try lia.
  1,3: apply wp_ret; split; [done|]; assert (l = r) as <- by lia;
    rewrite <- (take_drop l (separators i)), nna_app, nna_all, nna_none;
    [rewrite take_length; lia
    |intros t a Ha; rewrite lookup_drop in Ha; apply (Hhi (l + t)); [lia|done]
    |intros t a Ha; apply lookup_take_Some in Ha as [Ha ?]; by apply (Hlo t)].
  pose proof (Nat.div_lt_upper_bound (l + r) 2 r ltac:(lia) ltac:(lia)) as D1.
  pose proof (Nat.div_le_lower_bound (l + r) 2 l ltac:(lia) ltac:(lia)) as D2.
  set (md := (l + r) / 2) in *. cbv zeta.
  destruct (lookup_lt_is_Some_2 (i_keys i) md) as [a Ha]; [lia|].
  assert (Hs : separators i !! md = Some a) by (unfold separators; rewrite lookup_take by lia; done).
  apply wp_bind. eapply wp_atomic; [cbn beta; rewrite Hm, Ha; done|].
  destruct (N.compare_spec x a) as [->|Hc|Hc].
  - apply wp_ret. split; [done|]. rewrite (nna_below _ _ _ _ Hasc Hs) by lia.
    rewrite nna_none; [lia|]. intros t b Hb. rewrite lookup_drop in Hb. apply (Hasc md (S md + t)); [lia|done|done].
  - apply IH; [lia|lia|done|]. intros t b Ht Hb. destruct (decide (t = md)) as [->|]; [congruence|].
    pose proof (Hasc md t a b ltac:(lia) Hs Hb). lia.
  - apply IH; [lia|lia| |done]. intros t b Ht Hb. destruct (decide (t = md)) as [->|]; [assert (a = b) by congruence; lia|].
    pose proof (Hasc t md b a ltac:(lia) Hb Hs). lia.
Qed.
Lemma descent_routes m p i x : heap m !! p = Some (NInode i) -> is_internode i ->
  run (bind (upper_bound_internode p x) (child p)) m = match routes i x with Some c => Ok (c, m) | None => Er Panic end.
Proof.
  intros Hm Hi. pose proof Hi as (L1 & L2 & L3 & Hasc).
  assert (wp (upper_bound_internode p x) m (fun c m' => m' = m /\ c = n_not_above (separators i) x)) as HW.
  { unfold upper_bound_internode. apply wp_bind. eapply wp_atomic; [cbn beta; rewrite Hm; done|].
    eapply ub_route; [done|done|lia|lia|lia|]. intros t a Ht Ha. apply lookup_lt_Some in Ha. rewrite (sep_len i Hi) in Ha. lia. }
  rewrite VersionLaws.run_bind. apply wp_run in HW as (c & m' & -> & -> & ->). unfold routes, child, inode_ld. cbn. rewrite Hm.
  by destruct (i_child i !! _).
Qed.
