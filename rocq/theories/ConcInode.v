(** Concurrent executions on the whole tree: adding a child to a locked internode, dividing
    its children between two internodes, and redirecting the parents of children. *)
From Verif Require Import Base Perm PermFacts PermList PermLaws SpecPerm Key SpecKey KeyFacts Prog Version VersionFacts Mem Tree
  SpecTree TreeState SpecLin Conc ConcStep ConcRules ConcRead ConcPar ConcMem ConcOwn.
From Verif Require LinInsert.

Lemma cwp_for_seq (J : nat -> world -> Prop) i (f : nat -> P unit) : forall k a w0 (Q : unit -> world -> Prop),
  J a w0 -> (forall j w', a <= j < a + k -> J j w' -> cwp i (f j) w' (fun _ w'' => J (j + 1) w'')) ->
  (forall w', J (a + k) w' -> Q tt w') -> cwp i (for_each (seq a k) f) w0 Q.
Proof.
  induction k as [|k IH]; intros a w0 Q HJ Hs HQ; cbn [seq for_each].
  - apply cwp_ret, HQ. by rewrite Nat.add_0_r.
  - apply cwp_bind. eapply cwp_mono; [apply Hs; [lia|done]|]. intros [] w' HJ'.
    apply IH; [by rewrite <- Nat.add_1_r| |].
    + intros j w'' Hj. apply Hs. lia.
    + intros w'' H. apply HQ. by replace (a + S k) with (S a + k) by lia.
Qed.
Lemma cwp_for_rev (J : nat -> world -> Prop) i (f : nat -> P unit) a : forall k w0 (Q : unit -> world -> Prop),
  J (a + k) w0 -> (forall j w', a <= j < a + k -> J (j + 1) w' -> cwp i (f j) w' (fun _ w'' => J j w'')) ->
  (forall w', J a w' -> Q tt w') -> cwp i (for_each (rev (seq a k)) f) w0 Q.
Proof.
  induction k as [|k IH]; intros w0 Q HJ Hs HQ.
  - cbn. apply HQ. by rewrite Nat.add_0_r in HJ.
  - rewrite seq_S, rev_app_distr. cbn [rev app for_each]. apply cwp_bind.
    eapply cwp_mono; [apply Hs; [lia|]; by replace (a + k + 1) with (a + S k) by lia|]. intros [] w' HJ'.
    apply IH; [done| |done]. intros j w'' Hj. apply Hs. lia.
Qed.

(** an internode with other keys and children *)
Definition iput (x : inode) (nk : nat) (ks cs : list N) : inode := mk_inode (i_ver x) nk (i_height x) ks cs (i_parent x).
Lemma iput_self x : iput x (i_nkeys x) (i_keys x) (i_child x) = x. Proof. by destruct x. Qed.
(** what holds throughout an operation that started in [w0] *)
Definition Aw (i : nat) (w0 : world) (σ : ls) (w : world) : Prop := At i σ w /\ Mono w0 w.

Section Fr.
Context (i : nat) (w0 : world) (hs un ns pr : gset N) (pe : gmap N (list N)) (tp zs : gset N).
Notation A nl w := (Aw i w0 (L nl hs un ns pr pe tp zs) w).
Definition mine (p : N) (x : inode) : Prop := p ∉ ns /\ (p ∈ pr \/ v_is_locked (i_ver x) = true).

Lemma aw_winode {R} nl w p x nk ks cs (f : inode -> option (R * inode)) r (Q : R -> world -> Prop) :
  A nl w -> nl !! p = Some (NInode x) -> mine p x -> length ks = 15 -> length cs = 16 -> nk <= 15 ->
  (forall c, c ∈ cs -> c ∈ i_child x \/ ptr_ok w (i_height x) c) ->
  (forall pa, f (iwith_parent pa x) = Some (r, iwith_parent pa (iput x nk ks cs))) ->
  (forall w', A (<[p := NInode (iput x nk ks cs)]> nl) w' -> Q r w') -> cwp i (inode_up p f) w Q.
Proof.
  intros [A0 M0] Hp [Hns Hlk] H1 H2 H3 Hc Hf HQ.
  eapply (cwp_winode i nl hs un ns pr pe tp zs w p x (iput x nk ks cs)); [exact A0|done|done|done|done|done| |].
  - intros w1 M1 A1 [B1 B2 B3 B4]. split; try done. intros c Hc'. destruct (Hc c Hc') as [H|H]; [by apply B4|by eapply ptr_ok_mono].
  - intros w' A1 M1. apply HQ. split; [done|by eapply mono_trans].
Qed.
Lemma aw_rinode {R} nl w p x (f : inode -> option R) r (Q : R -> world -> Prop) : A nl w -> nl !! p = Some (NInode x) ->
  (forall pa, f (iwith_parent pa x) = Some r) -> (forall w', A nl w' -> Rely i w w' -> Q r w') -> cwp i (inode_ld p f) w Q.
Proof.
  intros [A0 M0] Hp Hf HQ. eapply cwp_rinode; [exact A0|exact Hp|exact Hf|]. intros w' A1 R1. apply HQ; [|done]. split; [done|].
  eapply mono_trans; [exact M0|apply R1].
Qed.
Lemma aw_kids nl w p x : A nl w -> nl !! p = Some (NInode x) -> inode_ok w x.
Proof. intros [A0 _] Hp. by apply (at_inode_ok _ _ _ p _ A0). Qed.
Lemma elem_insert (l : list N) j c y : y ∈ <[j := c]> l -> y ∈ l \/ y = c.
Proof.
  intros [t Ht]%elem_of_list_lookup. apply list_lookup_insert_Some in Ht as [(_ & <- & _)|[_ Ht]]; [by right|]. left. by eapply elem_of_list_lookup_2.
Qed.
Lemma aw_set_child nl w p x j c (Q : unit -> world -> Prop) : A nl w -> nl !! p = Some (NInode x) -> mine p x -> j < 16 -> ptr_ok w (i_height x) c ->
  (forall w', A (<[p := NInode (iput x (i_nkeys x) (i_keys x) (<[j := c]> (i_child x)))]> nl) w' -> Q tt w') -> cwp i (set_child p j c) w Q.
Proof.
  intros A0 Hp Hm Hj Hc HQ. destruct (aw_kids _ _ _ _ A0 Hp) as [[B1 B2] B3 B4 B5].
  eapply aw_winode; [exact A0|exact Hp|done|exact B1|by rewrite insert_length|exact B3| | |exact HQ].
  - intros y [H| ->]%elem_insert; [by left|by right].
  - intros pa. cbn. by rewrite LinInsert.list_set_at by lia.
Qed.
Lemma aw_set_key nl w p x j k (Q : unit -> world -> Prop) : A nl w -> nl !! p = Some (NInode x) -> mine p x -> j < 15 ->
  (forall w', A (<[p := NInode (iput x (i_nkeys x) (<[j := k]> (i_keys x)) (i_child x))]> nl) w' -> Q tt w') -> cwp i (set_inode_ikey p j k) w Q.
Proof.
  intros A0 Hp Hm Hj HQ. destruct (aw_kids _ _ _ _ A0 Hp) as [[B1 B2] B3 B4 B5].
  eapply aw_winode; [exact A0|exact Hp|done|by rewrite insert_length|exact B2|exact B3| | |exact HQ].
  - intros y H. by left.
  - intros pa. cbn. by rewrite LinInsert.list_set_at by lia.
Qed.
Lemma aw_set_nkeys nl w p x n (Q : unit -> world -> Prop) : A nl w -> nl !! p = Some (NInode x) -> mine p x -> n <= 15 ->
  (forall w', A (<[p := NInode (iput x n (i_keys x) (i_child x))]> nl) w' -> Q tt w') -> cwp i (set_nkeys p n) w Q.
Proof.
  intros A0 Hp Hm Hj HQ. destruct (aw_kids _ _ _ _ A0 Hp) as [[B1 B2] B3 B4 B5].
  eapply aw_winode; [exact A0|exact Hp|done|exact B1|exact B2|exact Hj| | |exact HQ]; [intros y H; by left|done].
Qed.
Lemma aw_set_height nl w p x (Q : unit -> world -> Prop) : A nl w -> nl !! p = Some (NInode x) -> mine p x ->
  (forall w', A nl w' -> Q tt w') -> cwp i (set_height p (i_height x)) w Q.
Proof.
  intros A0 Hp Hm HQ. destruct (aw_kids _ _ _ _ A0 Hp) as [[B1 B2] B3 B4 B5].
  eapply aw_winode; [exact A0|exact Hp|done|exact B1|exact B2|exact B3| | |]; [intros y H; by left|done|].
  intros w' A1. apply HQ. rewrite iput_self, insert_id in A1 by done. exact A1.
Qed.
Lemma aw_child nl w p x j c (Q : N -> world -> Prop) : A nl w -> nl !! p = Some (NInode x) -> i_child x !! j = Some c ->
  (forall w', A nl w' -> ptr_ok w' (i_height x) c -> Q c w') -> cwp i (child p j) w Q.
Proof.
  intros A0 Hp Hc HQ. eapply aw_rinode; [exact A0|exact Hp|done|]. intros w' A1 _. apply HQ; [done|].
  apply (io_child _ _ (aw_kids _ _ _ _ A1 Hp)). by eapply elem_of_list_lookup_2.
Qed.
Lemma aw_key nl w p x j k (Q : N -> world -> Prop) : A nl w -> nl !! p = Some (NInode x) -> i_keys x !! j = Some k ->
  (forall w', A nl w' -> Q k w') -> cwp i (inode_ikey p j) w Q.
Proof. intros A0 Hp Hk HQ. eapply aw_rinode; [exact A0|exact Hp|done|]. intros w' A1 _. by apply HQ. Qed.
Lemma aw_nkeys nl w p x (Q : nat -> world -> Prop) : A nl w -> nl !! p = Some (NInode x) ->
  (forall w', A nl w' -> Q (i_nkeys x) w') -> cwp i (nkeys p) w Q.
Proof. intros A0 Hp HQ. eapply aw_rinode; [exact A0|exact Hp|intros pa; cbn; reflexivity|]. intros w' A1 _. by apply HQ. Qed.
Lemma aw_height nl w p x (Q : nat -> world -> Prop) : A nl w -> nl !! p = Some (NInode x) ->
  (forall w', A nl w' -> Q (i_height x) w') -> cwp i (height p) w Q.
Proof. intros A0 Hp HQ. eapply aw_rinode; [exact A0|exact Hp|intros pa; cbn; reflexivity|]. intros w' A1 _. by apply HQ. Qed.
Lemma aw_mono nl w : A nl w -> Mono w0 w. Proof. by intros [_ H]. Qed.

(** internode.rs:433-458 *)
Lemma aw_insert_kc nl w p x pos k c (Q : unit -> world -> Prop) : A (<[p := NInode x]> nl) w -> mine p x -> length (i_keys x) = 15 -> length (i_child x) = 16 ->
  i_nkeys x < 15 -> pos <= i_nkeys x -> ptr_ok w0 (i_height x) c ->
  (forall w' ks cs, length ks = 15 -> length cs = 16 ->
     (forall t, t < 16 -> cs !! t = if decide (t < pos + 1) then i_child x !! t else if decide (t = pos + 1) then Some c
         else if decide (t <= i_nkeys x + 1) then i_child x !! (t - 1) else i_child x !! t) ->
     A (<[p := NInode (iput x (i_nkeys x + 1) ks cs)]> nl) w' -> Q tt w') ->
  cwp i (insert_key_and_child p pos k c) w Q.
Proof.
  intros A0 Hm L1 L2 Hn Hpos Hc HQ. unfold insert_key_and_child.
  apply cwp_bind. eapply aw_nkeys; [exact A0|apply lookup_insert|]. intros w1 A1.
  destruct (Nat.ltb_spec (i_nkeys x) IWIDTH) as [_|H]; [|unfold IWIDTH in H; lia].
  destruct (Nat.leb_spec pos (i_nkeys x)) as [_|H]; [|lia]. cbn [andb]. apply cwp_bind, cwp_ret.
  apply cwp_bind. eapply (cwp_for_rev (fun j w => exists ks cs, length ks = 15 /\ length cs = 16 /\
     (forall t, t < 16 -> cs !! t = if decide (j + 1 < t <= i_nkeys x + 1) then i_child x !! (t - 1) else i_child x !! t) /\
     A (<[p := NInode (iput x (i_nkeys x) ks cs)]> nl) w)).
  - exists (i_keys x), (i_child x). split; [done|]. split; [done|]. split.
    + intros t _. rewrite decide_False; [done|lia].
    + by rewrite iput_self.
  - intros j w' Hj (ks & cs & K1 & K2 & E2 & H1). unfold shift_right1.
    destruct (lookup_lt_is_Some_2 ks j) as [a Ha]; [lia|].
    destruct (lookup_lt_is_Some_2 cs (j + 1)) as [y Hy]; [lia|].
    apply cwp_bind. eapply aw_key; [exact H1|apply lookup_insert|exact Ha|]. intros w2 H2.
    apply cwp_bind. eapply aw_set_key; [exact H2|apply lookup_insert|exact Hm|lia|]. intros w3 H3. rewrite insert_insert in H3.
    apply cwp_bind. eapply aw_child; [exact H3|apply lookup_insert|exact Hy|]. intros w4 H4 Hpy.
    eapply aw_set_child; [exact H4|apply lookup_insert|exact Hm|lia|exact Hpy|]. intros w5 H5. rewrite insert_insert in H5.
    exists (<[j + 1 := a]> ks), (<[j + 2 := y]> cs). rewrite !insert_length. split; [done|]. split; [done|]. split; [|exact H5].
    intros t Ht. destruct (decide (t = j + 2)) as [->|Hne].
    + rewrite list_lookup_insert by lia. rewrite decide_True by lia. rewrite <- Hy, E2 by lia. rewrite decide_False by lia. f_equal. lia.
    + rewrite list_lookup_insert_ne by lia. rewrite E2 by done. repeat case_decide; try lia; done.
  - intros w' (ks & cs & K1 & K2 & E2 & H1).
    apply cwp_bind. eapply aw_set_key; [exact H1|apply lookup_insert|exact Hm|lia|]. intros w2 H2. rewrite insert_insert in H2.
    apply cwp_bind. eapply aw_set_child; [exact H2|apply lookup_insert|exact Hm|lia|by eapply ptr_ok_mono; [apply H2|]|]. intros w3 H3. rewrite insert_insert in H3.
    eapply aw_set_nkeys; [exact H3|apply lookup_insert|exact Hm|lia|]. intros w4 H4. rewrite insert_insert in H4.
    eapply HQ; [| | |exact H4]; cbn [iput i_keys i_child]; rewrite ?insert_length; try done.
    intros t Ht. destruct (decide (t = pos + 1)) as [->|Hne].
    + rewrite list_lookup_insert by lia. repeat case_decide; try lia; done.
    + rewrite list_lookup_insert_ne by lia. rewrite E2 by done. repeat case_decide; try lia; done.
Qed.

Section Two.
Context (nl : gmap N node) (p q : N) (Hne : p <> q).
Notation A2 xp xq w := (A (<[p := NInode xp]> (<[q := NInode xq]> nl)) w).
Lemma two_q (xp xq : inode) : (<[p := NInode xp]> (<[q := NInode xq]> nl)) !! q = Some (NInode xq).
Proof. rewrite lookup_insert_ne by done. apply lookup_insert. Qed.
Lemma two_set_q (xp xq xq' : inode) : <[q := NInode xq']> (<[p := NInode xp]> (<[q := NInode xq]> nl)) = <[p := NInode xp]> (<[q := NInode xq']> nl).
Proof. rewrite insert_commute by done. by rewrite insert_insert. Qed.

(** internode.rs:475-481 *)
Lemma aw_shift_from w x xq dp sp cnt (Q : unit -> world -> Prop) : A2 x xq w -> mine q xq ->
  length (i_keys x) = 15 -> length (i_child x) = 16 -> length (i_keys xq) = 15 -> length (i_child xq) = 16 -> i_height xq = i_height x ->
  sp + cnt <= 15 -> dp + cnt <= 15 ->
  (forall w' ks cs, length ks = 15 -> length cs = 16 ->
     (forall t, cs !! t = if decide (dp + 1 <= t < dp + 1 + cnt) then i_child x !! (sp + t - dp) else i_child xq !! t) ->
     A2 x (iput xq (i_nkeys xq) ks cs) w' -> Q tt w') ->
  cwp i (shift_from q dp p sp cnt) w Q.
Proof.
  intros A0 Hm L1 L2 L3 L4 Hh Hs Hd HQ. unfold shift_from.
  eapply (cwp_for_seq (fun j w => exists ks cs, length ks = 15 /\ length cs = 16 /\
     (forall t, cs !! t = if decide (dp + 1 <= t < dp + 1 + j) then i_child x !! (sp + t - dp) else i_child xq !! t) /\
     A2 x (iput xq (i_nkeys xq) ks cs) w)).
  - exists (i_keys xq), (i_child xq). split; [done|]. split; [done|]. split; [|by rewrite iput_self].
    intros t. by rewrite decide_False by lia.
  - intros j w' Hj (ks & cs & K1 & K2 & E2 & H1).
    destruct (lookup_lt_is_Some_2 (i_keys x) (sp + j)) as [a Ha]; [lia|].
    destruct (lookup_lt_is_Some_2 (i_child x) (sp + 1 + j)) as [y Hy]; [lia|].
    apply cwp_bind. eapply aw_key; [exact H1|apply lookup_insert|exact Ha|]. intros w2 H2.
    apply cwp_bind. eapply aw_set_key; [exact H2|apply two_q|exact Hm|lia|]. intros w3 H3. rewrite two_set_q in H3.
    apply cwp_bind. eapply aw_child; [exact H3|apply lookup_insert|exact Hy|]. intros w4 H4 Hpy.
    eapply aw_set_child; [exact H4|apply two_q|exact Hm|lia|cbn [iput i_height]; by rewrite Hh|]. intros w5 H5. rewrite two_set_q in H5.
    exists (<[dp + j := a]> ks), (<[dp + 1 + j := y]> cs). rewrite !insert_length. split; [done|]. split; [done|]. split; [|exact H5].
    intros t. destruct (decide (t = dp + 1 + j)) as [->|Hn].
    + rewrite list_lookup_insert by lia. rewrite decide_True by lia. rewrite <- Hy. f_equal. lia.
    + rewrite list_lookup_insert_ne by lia. rewrite E2. repeat case_decide; try lia; done.
  - intros w' (ks & cs & K1 & K2 & E2 & H1). eapply HQ; [exact K1|exact K2|exact E2|exact H1].
Qed.

Definition fc (x : inode) (ci : nat) (r : N) (t : nat) : option N :=
  if decide (t < ci + 1) then i_child x !! t else if decide (t = ci + 1) then Some r else i_child x !! (t - 1).
Record halves (x xq : inode) (ci : nat) (r : N) (xl xr : inode) : Prop := {
  hv_l : exists ks cs, xl = iput x 8 ks cs /\ length ks = 15 /\ length cs = 16;
  hv_r : exists ks cs, xr = iput xq 7 ks cs /\ length ks = 15 /\ length cs = 16;
  hv_cl : forall t, t < 9 -> i_child xl !! t = fc x ci r t; hv_cr : forall t, t < 8 -> i_child xr !! t = fc x ci r (9 + t) }.
Ltac dec := repeat case_decide; try lia; try done; try (f_equal; lia).
Lemma aw_cut w x xq ci sk r (Q : N * bool -> world -> Prop) : A2 x xq w -> mine p x -> mine q xq ->
  length (i_keys x) = 15 -> length (i_child x) = 16 -> length (i_keys xq) = 15 -> length (i_child xq) = 16 -> i_height xq = i_height x ->
  i_nkeys x = 15 -> ci <= 15 -> ptr_ok w0 (i_height x) r ->
  (forall w' xl xr pop, halves x xq ci r xl xr -> A2 xl xr w' -> Q (pop, Nat.ltb ci 8) w') ->
  cwp i (match Nat.compare ci 8 with
          | Lt =>
              x <- child p 8 ;; set_child q 0 x ;;;
              shift_from q 0 p 8 (IWIDTH - 8) ;;;
              set_nkeys q (IWIDTH - 8) ;;;
              popup <- inode_ikey p (8 - 1) ;;
              set_nkeys p (8 - 1) ;;;
              insert_key_and_child p ci sk r ;;;
              Ret (popup, true)
          | Eq =>
              set_child q 0 r ;;;
              shift_from q 0 p 8 (IWIDTH - 8) ;;;
              set_nkeys q (IWIDTH - 8) ;;;
              set_nkeys p 8 ;;;
              Ret (sk, false)
          | Gt =>
              let rpos := ci - (8 + 1) in
              x <- child p (8 + 1) ;; set_child q 0 x ;;;
              shift_from q 0 p (8 + 1) rpos ;;;
              set_inode_ikey q rpos sk ;;;
              set_child q (rpos + 1) r ;;;
              shift_from q (rpos + 1) p ci (IWIDTH - ci) ;;;
              set_nkeys q (IWIDTH - 8) ;;;
              popup <- inode_ikey p 8 ;;
              set_nkeys p 8 ;;;
              Ret (popup, false)
          end) w Q.
Proof.
  intros A0 Hmp Hmq L1 L2 L3 L4 Hh Hn Hci Hr HQ. change (IWIDTH - 8) with 7. change (8 + 1) with 9. change (8 - 1) with 7.
  assert (Hrq : forall nl' w', A nl' w' -> ptr_ok w' (i_height xq) r) by (intros nl' w' H; rewrite Hh; eapply ptr_ok_mono; [apply H|done]).
  destruct (Nat.compare_spec ci 8) as [Ec|Ec|Ec]; cbv zeta.
  - apply cwp_bind. eapply aw_set_child; [exact A0|apply two_q|done|lia|by eapply Hrq|]. intros w1 H1. rewrite two_set_q in H1.
    apply cwp_bind. eapply aw_shift_from; [exact H1|done|..]; cbn [iput i_keys i_child i_height]; rewrite ?insert_length; try done; try lia.
    intros w2 ks cs K1 K2 E2 H2.
    apply cwp_bind. eapply aw_set_nkeys; [exact H2|apply two_q|done|lia|]. intros w3 H3. rewrite two_set_q in H3.
    apply cwp_bind. eapply aw_set_nkeys; [exact H3|apply lookup_insert|done|lia|]. intros w4 H4. rewrite insert_insert in H4.
    apply cwp_ret. destruct (Nat.ltb_spec ci 8) as [|_] in HQ; [lia|]. eapply HQ; [|exact H4]. split.
    + by exists (i_keys x), (i_child x).
    + by exists ks, cs.
    + intros t Ht. cbn. unfold fc. dec.
    + intros t Ht. cbn. rewrite E2. cbn. unfold fc. dec. assert (t = 0) as -> by lia. rewrite list_lookup_insert by lia. done.
  - destruct (lookup_lt_is_Some_2 (i_child x) 8) as [y Hy]; [lia|]. destruct (lookup_lt_is_Some_2 (i_keys x) 7) as [a Ha]; [lia|].
    apply cwp_bind. eapply aw_child; [exact A0|apply lookup_insert|exact Hy|]. intros w1 H1 Hpy.
    apply cwp_bind. eapply aw_set_child; [exact H1|apply two_q|done|lia|by rewrite Hh|]. intros w2 H2. rewrite two_set_q in H2.
    apply cwp_bind. eapply aw_shift_from; [exact H2|done|..]; cbn [iput i_keys i_child i_height]; rewrite ?insert_length; try done; try lia.
    intros w3 ks cs K1 K2 E2 H3.
    apply cwp_bind. eapply aw_set_nkeys; [exact H3|apply two_q|done|lia|]. intros w4 H4. rewrite two_set_q in H4.
    apply cwp_bind. eapply aw_key; [exact H4|apply lookup_insert|exact Ha|]. intros w5 H5.
    apply cwp_bind. eapply aw_set_nkeys; [exact H5|apply lookup_insert|done|lia|]. intros w6 H6. rewrite insert_insert in H6.
    apply cwp_bind. eapply aw_insert_kc; [exact H6|done|..]; cbn [iput i_keys i_child i_height i_nkeys]; try done; try lia.
    intros w7 ks' cs' K1' K2' E2' H7.
    apply cwp_ret. destruct (Nat.ltb_spec ci 8) as [_|] in HQ; [|lia]. eapply HQ; [|exact H7]. split.
    + by exists ks', cs'.
    + by exists ks, cs.
    + intros t Ht. cbn. rewrite E2' by lia. unfold fc. dec.
    + intros t Ht. cbn. rewrite E2. cbn. unfold fc. dec. assert (t = 0) as -> by lia. rewrite list_lookup_insert by lia. done.
  - destruct (lookup_lt_is_Some_2 (i_child x) 9) as [y Hy]; [lia|]. destruct (lookup_lt_is_Some_2 (i_keys x) 8) as [a Ha]; [lia|].
    apply cwp_bind. eapply aw_child; [exact A0|apply lookup_insert|exact Hy|]. intros w1 H1 Hpy.
    apply cwp_bind. eapply aw_set_child; [exact H1|apply two_q|done|lia|by rewrite Hh|]. intros w2 H2. rewrite two_set_q in H2.
    apply cwp_bind. eapply aw_shift_from; [exact H2|done|..]; cbn [iput i_keys i_child i_height]; rewrite ?insert_length; try done; try lia.
    intros w3 ks cs K1 K2 E2 H3.
    apply cwp_bind. eapply aw_set_key; [exact H3|apply two_q|done|lia|]. intros w4 H4. rewrite two_set_q in H4.
    apply cwp_bind. eapply aw_set_child; [exact H4|apply two_q|done|lia|by eapply Hrq|]. intros w5 H5. rewrite two_set_q in H5.
    change IWIDTH with 15.
    apply cwp_bind. eapply aw_shift_from; [exact H5|done|..]; cbn [iput i_keys i_child i_height]; rewrite ?insert_length; try done; try lia.
    intros w6 ks' cs' K1' K2' E2' H6.
    apply cwp_bind. eapply aw_set_nkeys; [exact H6|apply two_q|done|lia|]. intros w7 H7. rewrite two_set_q in H7.
    apply cwp_bind. eapply aw_key; [exact H7|apply lookup_insert|exact Ha|]. intros w8 H8.
    apply cwp_bind. eapply aw_set_nkeys; [exact H8|apply lookup_insert|done|lia|]. intros w9 H9. rewrite insert_insert in H9.
    apply cwp_ret. destruct (Nat.ltb_spec ci 8) as [|_] in HQ; [lia|]. eapply HQ; [|exact H9]. split.
    + by exists (i_keys x), (i_child x).
    + by exists ks', cs'.
    + intros t Ht. cbn. unfold fc. dec.
    + intros t Ht. cbn. cbn [iput i_child] in E2'. rewrite E2'. case_decide as D1.
      * unfold fc. dec.
      * destruct (decide (t = ci - 9 + 1)) as [->|Hd]; [rewrite list_lookup_insert by lia; unfold fc; dec|].
        rewrite list_lookup_insert_ne by lia. cbn [iput i_child] in E2. rewrite E2. unfold fc. dec.
        assert (t = 0) as -> by lia. rewrite list_lookup_insert by lia. done.
Qed.
End Two.
End Fr.

(** ** the children afterwards *)
Lemma fc_list x ci r : length (i_child x) = 16 -> i_nkeys x <= 15 -> ci <= i_nkeys x -> forall t, t < i_nkeys x + 2 ->
  (take (ci + 1) (kids x) ++ r :: drop (ci + 1) (kids x)) !! t = fc x ci r t.
Proof.
  intros L2 Hn Hci t Ht. unfold fc.
  assert (Hk : length (kids x) = i_nkeys x + 1) by (unfold kids; rewrite take_length; lia).
  assert (Hpl : length (take (ci + 1) (kids x)) = ci + 1) by (rewrite take_length; lia).
  assert (Hlk : forall t, t < i_nkeys x + 1 -> kids x !! t = i_child x !! t) by (intros t' Ht'; unfold kids; apply lookup_take; lia).
  destruct (decide (t < ci + 1)) as [H|H].
  - rewrite lookup_app_l by lia. rewrite lookup_take by lia. apply Hlk. lia.
  - rewrite lookup_app_r by lia. rewrite Hpl. destruct (decide (t = ci + 1)) as [->|Hne]; [by rewrite Nat.sub_diag|].
    destruct (t - (ci + 1)) as [|d] eqn:Ed; [lia|]. change ((drop (ci + 1) (kids x)) !! d = i_child x !! (t - 1)). rewrite lookup_drop.
    rewrite Hlk by lia. f_equal. lia.
Qed.
Lemma add_kid_list x x2 ci r : length (i_child x) = 16 -> length (i_child x2) = 16 -> i_nkeys x < 15 -> ci <= i_nkeys x -> i_nkeys x2 = i_nkeys x + 1 ->
  (forall t, t < 16 -> i_child x2 !! t = if decide (t < ci + 1) then i_child x !! t else if decide (t = ci + 1) then Some r
         else if decide (t <= i_nkeys x + 1) then i_child x !! (t - 1) else i_child x !! t) ->
  kids x2 = take (ci + 1) (kids x) ++ r :: drop (ci + 1) (kids x).
Proof.
  intros L1 L2 Hn Hci E H. apply list_eq_same_length with (n := i_nkeys x + 2).
  - rewrite app_length, take_length. cbn [length]. rewrite drop_length. unfold kids. rewrite take_length. lia.
  - unfold kids. rewrite take_length. lia.
  - intros t a b Ht Ha Hb. rewrite fc_list in Hb by lia. unfold kids in Ha. rewrite lookup_take in Ha by lia. rewrite H in Ha by lia.
    unfold fc in Hb. repeat case_decide; try lia; congruence.
Qed.
Lemma cut_list x xq ci r xl xr : length (i_child x) = 16 -> i_nkeys x = 15 -> ci <= 15 -> halves x xq ci r xl xr ->
  kids xl ++ kids xr = take (ci + 1) (kids x) ++ r :: drop (ci + 1) (kids x).
Proof.
  intros L2 Hn Hci [(ksl & csl & -> & _ & Ll) (ksr & csr & -> & _ & Lr) Hl Hr]. cbn [iput i_child] in *.
  apply list_eq_same_length with (n := 17).
  - rewrite app_length, take_length. cbn [length]. rewrite drop_length. unfold kids. rewrite take_length. lia.
  - unfold kids. cbn [iput i_nkeys i_child]. rewrite app_length, !take_length, Ll, Lr. done.
  - intros t a b Ht Ha Hb. rewrite fc_list in Hb by lia. unfold kids in Ha. cbn [iput i_nkeys i_child] in Ha.
    apply lookup_app_Some in Ha as [Ha|[Hge Ha]].
    + apply lookup_take_Some in Ha as [Ha Hlt]. rewrite Hl in Ha by lia. congruence.
    + rewrite take_length, Ll in Hge, Ha. change (8 + 1) with 9 in *. change (9 `min` 16) with 9 in *.
      apply lookup_take_Some in Ha as [Ha Hlt]. rewrite Hr in Ha by lia. replace (9 + (t - 9)) with t in Ha by lia. congruence.
Qed.
