(** Whole calls while values are being replaced. *)
From Verif Require Import Base Perm PermFacts PermList PermLaws SpecPerm Key SpecKey KeyFacts Suffix SpecSuffix SuffixFacts Prog Version VersionFacts Mem Tree
  SpecTree SpecLin SpecConc TreeState TreePrim TreeInv TreeRead TreeSplit TreeSkel TreeInode TreeProp TreeLeaf TreeContent TreeInsert TreeTop UpdBase UpdRead UpdWrite UpdInsert.

Section C.
Context (K : bytes -> N -> Prop) (B : N) (mb : mem) (sb : ast) (mu0 : gmap bytes N).
Context (HS : St mb sb) (HI : Inv K B sb 0 0) (HN : NoDead (sA sb)) (Hmu0 : forall k x, is_bytes k -> maps sb k x <-> mu0 !! k = Some x).
Context (Hcnt : sC sb = N.of_nat (size mu0)).
Context (Hor : ((exists e, entry (sA sb) MAIN e) /\ mu0 <> ∅) \/ (sA sb = sA s0 /\ mu0 = ∅)).
Context (i : nat).
Local Notation A := (sA sb).
Local Notation WInv := (WInv K B sb mu0).
Local Notation cwp := (cwp K B sb mu0).
Local Notation places := (status -> Prop).
Local Notation mineO := (mineO i).
Local Notation mineH := (mineH i).

Lemma cwp_peq {R} (p q : P R) : peq p q -> forall w (O : places) (Q : R -> world -> places -> Prop), cwp i q w O Q -> cwp i p w O Q.
Proof.
  induction 1 as [| |R' f k k' Hk IH]; intros w O Q; cbn; [done|done|]. intros H w1 HR HI1 Ha. destruct (H w1 HR HI1 Ha) as (r & w2 & H1 & H2 & H3 & H4 & H5 & H6).
  exists r, w2. repeat (split; [done|]). by apply IH.
Qed.
Lemma same_size (mu mu' : gmap bytes N) : dom mu = dom mu' -> size mu = size mu'.
Proof. intros E. by rewrite <- !size_dom, E. Qed.
Lemma same_empty (mu mu' : gmap bytes N) : dom mu = dom mu' -> mu = ∅ <-> mu' = ∅.
Proof. intros E. rewrite <- !dom_empty_iff_L. by rewrite E. Qed.
Lemma root_main : exists nr, A !! sR sb = Some nr /\ g_lid (a_gh nr) = MAIN.
Proof. destruct (si_root _ _ _ _ (iv_s _ _ _ _ _ HI)) as (n & N1 & N2 & _). apply skels_some in N1 as (nr & HR & ->). by exists nr. Qed.

Lemma r_get o F kb w O : is_bytes kb -> length kb <= 256 -> (forall mu, map_step mu o = (AGet (mu !! kb), mu)) ->
  reads K B sb mu0 i o true (get F kb) w O (fun r _ O' => O' (Done (AGet r))).
Proof.
  intros Hkb Hlen Ho. unfold get. rewrite key_new_ok by done. destruct root_main as (nr & HR & Hm).
  eapply reads_bind; [apply r_load_root|]. intros r w1 O1 _ W1 S1 [-> HO1].
  eapply reads_bind; [eapply (r_get_loop K B mb sb mu0 HS HI HN i o kb Hkb Ho F F 0 MAIN); [lia|constructor|by exists nr]|].
  intros [h|] w2 O2 R2 W2 S2 Hg.
  - destruct Hg as (v & G1 & G2 & G3 & G4). eapply reads_bind; [by eapply r_from_raw|]. intros ? w3 O3 _ _ S3 ->. apply reads_ret. by apply S3.
  - apply reads_ret. apply S2. rewrite (Ho (wmu w1)) in HO1. specialize (HO1 _ eq_refl).
    destruct (wmu w1 !! kb) as [v|] eqn:E; [|done]. exfalso.
    assert (kb ∈ dom mu0) as Hd by (rewrite <- (wi_dom _ _ _ _ _ W1); by eapply elem_of_dom_2).
    apply elem_of_dom in Hd as [x Hx]. apply Hmu0 in Hx as (h & Hh & _); [|done]. by apply (Hg h).
Qed.
Definition fin (a : ans) (w : world) (O : places) : Prop := O (Done a) /\ mineO w None /\ mineH w None.
(** an operation whose insertion replaces the value of a present key *)
Definition upd_ok (o : op) : Prop := op_ok o /\ match o with Insert k v => K k v /\ is_Some (mu0 !! k) | _ => True end.
Lemma reads_fin {R} o (p : P R) (f : R -> ans) w (O : places) :
  reads K B sb mu0 i o true p w O (fun r _ O' => O' (Done (f r))) -> WInv w -> O (Pending o) -> mineO w None -> mineH w None ->
  cwp i (x <- p ;; Ret (f x)) w O fin.
Proof.
  intros Hr HW HO M H. eapply cwp_reads; [exact Hr|intros _; by apply mine_bare|done|done|]. intros r w' O' HRl HWl HSl HP. apply cwp_ret. split; [done|].
  split; [by eapply mineO_rely|by eapply mineH_rely].
Qed.
Lemma c_call F o w (O : places) : upd_ok o -> WInv w -> O (Pending o) -> mineO w None -> mineH w None -> cwp i (call insert F o) w O fin.
Proof.
  intros [Hok Hup] HW HO M H. destruct root_main as (nr & HR & Hm). destruct o as [kb v|kb|kb| |]; cbn [call].
  - destruct Hok as [Hlen Hkb]. destruct Hup as [HK [x Hx]]. apply cwp_bind. unfold insert, insert_gen. rewrite key_new_ok by done.
    eapply (cwp_reads K B sb mu0 i _ true); [apply r_load_root|intros _; by apply mine_bare|done|done|]. intros r w1 O1 R1 W1 S1 [-> _].
    eapply cwp_mono; [eapply (c_insert_loop K B mb sb mu0 HS HI HN Hmu0 i kb v Hkb Hlen HK false F) with (d := 0) (l := MAIN)|].
    { apply Hmu0 in Hx as (h & Hh & _); [|done]. by exists h. } { lia. } { constructor. } { by exists nr. } { done. } { by apply S1. }
    { by eapply mineO_rely. } { by eapply mineH_rely. }
    intros r w2 O2 (ov & -> & H1 & H2 & H3). apply cwp_ret. done.
  - destruct Hok as [Hlen Hkb]. by apply (reads_fin (Get kb)); [apply r_get|..].
  - destruct Hok as [Hlen Hkb]. apply cwp_bind. eapply cwp_peq; [apply get_ref_peq|]. 
    apply (r_get (GetRef kb) F kb w O Hkb Hlen); [done|done|intros _; by apply mine_bare|done|]. intros r w' O' HRl HWl HSl HP. apply cwp_ret. split; [done|].
    split; [by eapply mineO_rely|by eapply mineH_rely].
  - apply (reads_fin Len); [|done..]. unfold len. eapply reads_weaken; [apply r_load_count|]. intros r w1 O1 _ W1 _ [-> HO1].
    specialize (HO1 _ eq_refl). by rewrite Hcnt, <- (same_size _ _ (wi_dom _ _ _ _ _ W1)).
  - apply (reads_fin IsEmpty); [|done..]. unfold is_empty. eapply reads_bind; [apply r_load_root|]. intros r w1 O1 _ W1 _ [-> HO1].
    specialize (HO1 _ eq_refl).
    assert (Ee : bool_decide (wmu w1 = ∅) = bool_decide (mu0 = ∅)) by (apply bool_decide_ext, same_empty, W1). rewrite Ee in HO1. clear Ee.
    destruct nr as [g md rt pa b].
    eapply reads_bind; [by eapply r_flag_leaf|]. intros r w2 O2 _ W2 S2 ->. destruct b as [L|J]; cbn [is_leafb a_bd].
    + eapply reads_bind; [apply r_load_root|]. intros r w3 O3 _ W3 S3 [-> _].
      eapply reads_bind; [by eapply r_permutation|]. intros r w4 O4 _ W4 S4 ->. apply reads_ret.
      replace (Nat.eqb (perm_size (lb_perm L)) 0) with (bool_decide (mu0 = ∅)); [by apply S4, S3, S2|].
      assert (Hsz : perm_size (lb_perm L) = length (es L)) by (unfold es; rewrite map_length; unfold ids; by rewrite ids_len).
      destruct Hor as [[(e & p & g' & md' & rt' & pa' & L' & Hp & Hl & He) Hne]|[Hs0 Hem]].
      * assert (p = sR sb) as -> by (by eapply (root_only K B mb sb)). rewrite HR in Hp. injection Hp as <- <- <- <- <-.
        rewrite bool_decide_false by done. symmetry. apply Nat.eqb_neq. rewrite Hsz. destruct (es L); [by apply elem_of_nil in He|done].
      * rewrite bool_decide_true by done. symmetry. apply Nat.eqb_eq. rewrite Hs0 in HR. cbn [s0 sA] in HR.
        apply lookup_singleton_Some in HR as [_ HR]. by injection HR as <- <- <- <- <-.
    + apply reads_ret. replace false with (bool_decide (mu0 = ∅)); [by apply S2|]. apply bool_decide_false. intros Hem.
      destruct Hor as [[_ Hne]|[Hs0 _]]; [done|]. rewrite Hs0 in HR. cbn [s0 sA] in HR. by apply lookup_singleton_Some in HR as [_ HR].
Qed.
End C.
