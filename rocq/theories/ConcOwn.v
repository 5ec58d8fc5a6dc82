(** Concurrent executions on the whole tree: reading and writing nodes the thread has locked. *)
From Verif Require Import Base Perm PermFacts PermList PermLaws SpecPerm Key SpecKey KeyFacts Prog Version VersionFacts Mem Tree
  SpecTree TreeState SpecLin Conc ConcStep ConcRules ConcRead ConcPar.

Lemma cwp_rd {A} i σ (p : P A) w Φ (Q : A -> world -> Prop) : At i σ w -> reads i p w Φ ->
  (forall r w', At i σ w' -> Rely i w w' -> Φ r w' -> Q r w') -> cwp i p w Q.
Proof. intros A0 H HQ. apply H. intros r w' R I HP. apply HQ; [by eapply at_rely|done|done]. Qed.

(** ** what is known of the thread's nodes may be extended or forgotten *)
Lemma at_weaken i nl hs un ns pr pe tp zs pe' tp' zs' w : At i (L nl hs un ns pr pe tp zs) w ->
  pe' ⊆ pe -> tp' ⊆ tp -> zs' ⊆ zs -> At i (L nl hs un ns pr pe' tp' zs') w.
Proof.
  intros A Hp Ht Hz. split; try apply A; cbn [Conc.pe Conc.tp Conc.zs].
  - intros q l H. apply (at_pe _ _ _ A). cbn. by eapply lookup_weaken.
  - intros q H. apply (at_tp _ _ _ A). cbn. by apply Ht.
  - intros q H. apply (at_zs _ _ _ A). cbn. by apply Hz.
Qed.
Lemma at_add_zs i nl hs un ns pr pe tp zs w p n n' : At i (L nl hs un ns pr pe tp zs) w -> nl !! p = Some n ->
  hp w !! p = Some n' -> npar n' = 0%N -> At i (L nl hs un ns pr pe tp ({[p]} ∪ zs)) w.
Proof.
  intros A Hn Hp Hz. split; try apply A; cbn [Conc.zs]. intros q. rewrite elem_of_union, elem_of_singleton.
  intros [->|H]; [|by apply A]. split; [apply (at_own _ _ _ A); by eexists|]. intros n0 Hn0. congruence.
Qed.
Lemma at_add_tp i nl hs un ns pr pe tp zs w p n n' : At i (L nl hs un ns pr pe tp zs) w -> nl !! p = Some n ->
  hp w !! p = Some n' -> npar n' <> 0%N -> At i (L nl hs un ns pr pe ({[p]} ∪ tp) zs) w.
Proof.
  intros A Hn Hp Hz. split; try apply A; cbn [Conc.tp]. intros q. rewrite elem_of_union, elem_of_singleton.
  intros [->|H]; [|by apply A]. split; [apply (at_own _ _ _ A); by eexists|]. intros n0 Hn0. congruence.
Qed.
(** [p] has a parent: once it has one it always has *)
Definition parented (w : world) (p : N) : Prop := exists n, hp w !! p = Some n /\ npar n <> 0%N.
Lemma parented_mono w w' p : Mono w w' -> parented w p -> parented w' p.
Proof. intros M (n & H1 & H2). destruct (mono_hp _ _ _ _ M H1) as (n' & H3 & _). exists n'. split; [done|]. by eapply (mo_par _ _ M). Qed.
Lemma parented_root w p : Inv w -> parented w p -> root (wm w) <> p.
Proof. intros I (n & H1 & H2) E. destruct (iv_root _ I) as (nr & R1 & _ & _ & R4). rewrite E, H1 in R1. by injection R1 as <-. Qed.
Lemma at_lev i σ w p n : At i σ w -> nl σ !! p = Some n -> lev w p = Some (nlev n).
Proof. intros A H. destruct (at_here _ _ _ _ _ A H) as (_ & pv & pa & Hp). unfold lev. rewrite Hp. cbn. by rewrite rep_lev. Qed.
Lemma at_ok i σ w p n : At i σ w -> nl σ !! p = Some n -> exists pv pa, hp w !! p = Some (rep pv pa n) /\ node_ok w p (rep pv pa n).
Proof. intros A H. destruct (at_here _ _ _ _ _ A H) as (_ & pv & pa & Hp). exists pv, pa. split; [done|]. by apply (iv_node _ (at_inv _ _ _ A)). Qed.
Lemma at_leaf_ok i σ w p l : At i σ w -> nl σ !! p = Some (NLeaf l) -> leaf_ok w p l.
Proof. intros A H. destruct (at_ok _ _ _ _ _ A H) as (pv & pa & _ & _ & [B1 B2 B3 B4 B5 B6 B7 B8 B9 B10 B11]). by split. Qed.
Lemma at_inode_ok i σ w p x : At i σ w -> nl σ !! p = Some (NInode x) -> inode_ok w x.
Proof. intros A H. destruct (at_ok _ _ _ _ _ A H) as (pv & pa & _ & _ & [B1 B2 B3 B4]). by split. Qed.
(** a node whose version lacks the root bit is not the root *)
Lemma at_nonroot i σ w p n md lf : At i σ w -> nl σ !! p = Some n -> vbits (nver n) md false lf -> root (wm w) <> p.
Proof.
  intros A H Hv E. destruct (at_here _ _ _ _ _ A H) as (_ & pv & pa & Hp). destruct (iv_root _ (at_inv _ _ _ A)) as (nr & R1 & _ & R3 & _).
  rewrite E, Hp in R1. injection R1 as <-. rewrite rep_ver, (vbits_rootf _ _ _ _ Hv) in R3. done.
Qed.

(** ** reading *)
Lemma cwp_rleaf {A} i σ w p l (f : leaf -> option A) r (Q : A -> world -> Prop) : At i σ w -> nl σ !! p = Some (NLeaf l) ->
  (forall pv pa, f (with_prev pv (with_parent pa l)) = Some r) ->
  (forall w', At i σ w' -> Rely i w w' -> Q r w') -> cwp i (leaf_ld p f) w Q.
Proof.
  intros A0 Hp Hf HQ. eapply (cwp_rd i σ _ w (fun x _ => x = r)); [done| |].
  - apply reads_leaf; [by rewrite (at_lev _ _ _ _ _ A0 Hp)|]. intros w' l' R I Hl' _. exists r. split; [|done].
    pose proof (at_rely _ _ _ _ R I A0) as A1. destruct (at_here _ _ _ _ _ A1 Hp) as (_ & pv & pa & Hp1).
    rewrite Hl' in Hp1. injection Hp1 as ->. apply Hf.
  - intros x w' A1 R ->. by apply HQ.
Qed.
Lemma cwp_rinode {A} i σ w p x (f : inode -> option A) r (Q : A -> world -> Prop) : At i σ w -> nl σ !! p = Some (NInode x) ->
  (forall pa, f (iwith_parent pa x) = Some r) ->
  (forall w', At i σ w' -> Rely i w w' -> Q r w') -> cwp i (inode_ld p f) w Q.
Proof.
  intros A0 Hp Hf HQ. eapply (cwp_rd i σ _ w (fun y _ => y = r)); [done| |].
  - eapply reads_inode; [by rewrite (at_lev _ _ _ _ _ A0 Hp)|]. intros w' l' R I Hl' _ _. exists r. split; [|done].
    pose proof (at_rely _ _ _ _ R I A0) as A1. destruct (at_here _ _ _ _ _ A1 Hp) as (_ & pv & pa & Hp1).
    rewrite Hl' in Hp1. injection Hp1 as ->. apply Hf.
  - intros y w' A1 R ->. by apply HQ.
Qed.
Lemma cwp_rver i σ w p n (Q : N -> world -> Prop) : At i σ w -> nl σ !! p = Some n ->
  (forall w', At i σ w' -> Rely i w w' -> Q (nver n) w') -> cwp i (version p) w Q.
Proof.
  intros A0 Hp HQ. eapply (cwp_rd i σ _ w (fun y _ => y = nver n)); [done| |].
  - eapply reads_version; [by rewrite (at_lev _ _ _ _ _ A0 Hp)|]. intros w' l' R I Hl' _.
    pose proof (at_rely _ _ _ _ R I A0) as A1. destruct (at_here _ _ _ _ _ A1 Hp) as (_ & pv & pa & Hp1).
    rewrite Hl' in Hp1. injection Hp1 as ->. apply rep_ver.
  - intros y w' A1 R ->. by apply HQ.
Qed.
Lemma cwp_rflag i σ w p n f (Q : bool -> world -> Prop) : At i σ w -> nl σ !! p = Some n ->
  (forall w', At i σ w' -> Rely i w w' -> Q (f (nver n)) w') -> cwp i (flag p f) w Q.
Proof. intros A0 Hp HQ. unfold flag. apply cwp_bind. eapply cwp_rver; [done|done|]. intros w' A1 R. apply cwp_ret. by apply HQ. Qed.
Lemma cwp_rroot i σ w (Q : N -> world -> Prop) : At i σ w ->
  (forall w', At i σ w' -> Rely i w w' -> Q (root (wm w')) w') -> cwp i load_root w Q.
Proof.
  intros A0 HQ. eapply (cwp_rd i σ _ w (fun y w' => y = root (wm w'))); [done| |].
  - by apply reads_root.
  - intros y w' A1 R ->. by apply HQ.
Qed.
(** the parent of a locked node *)
Lemma cwp_rparent i σ w p n (Q : N -> world -> Prop) : At i σ w -> nl σ !! p = Some n ->
  (forall w' n', At i σ w' -> Rely i w w' -> hp w' !! p = Some n' -> Q (npar n') w') -> cwp i (get_parent p (nleaf n)) w Q.
Proof.
  intros A0 Hp HQ. eapply (cwp_rd i σ _ w (fun y w' => exists n', hp w' !! p = Some n' /\ y = npar n')); [done| |].
  - pose proof (at_lev _ _ _ _ _ A0 Hp) as Hl. unfold get_parent. destruct n as [l|x]; cbn in *.
    + apply reads_leaf; [done|]. intros w' l' R I Hl' _. exists (l_parent l'). split; [done|]. by exists (NLeaf l').
    + eapply reads_inode; [done|]. intros w' x' R I Hl' _ _. exists (i_parent x'). split; [done|]. by exists (NInode x').
  - intros y w' A1 R (n' & Hn' & ->). by apply HQ.
Qed.

(** ** writing *)
Lemma leaf_up_rep {A} p l l2 (r : A) f : (forall pv pa, f (with_prev pv (with_parent pa l)) = Some (r, with_prev pv (with_parent pa l2))) ->
  forall m pv pa, heap m !! p = Some (rep pv pa (NLeaf l)) ->
  match heap m !! p with
  | Some (NLeaf l) => match f l with Some (r, l') => Ok (r, mwith_heap (<[p := NLeaf l']> (heap m)) m) | None => Er Panic end
  | _ => Er UB end = Ok (r, mwith_heap (<[p := rep pv pa (NLeaf l2)]> (heap m)) m).
Proof. intros H m pv pa ->. cbn [rep]. by rewrite H. Qed.
Lemma cwp_wleaf {A} i nl hs un ns pr pe tp zs w p l l2 f (r : A) (Q : A -> world -> Prop) :
  At i (L nl hs un ns pr pe tp zs) w -> nl !! p = Some (NLeaf l) -> p ∉ ns ->
  (p ∈ pr \/ v_is_locked (l_ver l) = true) -> l_ver l2 = l_ver l ->
  (forall pv pa, f (with_prev pv (with_parent pa l)) = Some (r, with_prev pv (with_parent pa l2))) ->
  (forall w1, Mono w w1 -> At i (L nl hs un ns pr pe tp zs) w1 -> leaf_ok w1 p l -> LStep w1 p l l2) ->
  (forall w', At i (L (<[p := NLeaf l2]> nl) hs un ns pr pe tp zs) w' -> Mono w w' -> Q r w') ->
  cwp i (leaf_up p f) w Q.
Proof.
  intros A0 Hp Hns Hlk Hv Hf HS HQ. unfold leaf_up. eapply (cwp_up _ _ _ _ _ _ _ _ _ _ _ _ (NLeaf l2) false r); [done|done|done|by apply leaf_up_rep| |].
  - intros w1 M1 A1. cbn. rewrite Hv. split; [|split; [|done]].
    + apply HS; [done|done|]. by apply (at_leaf_ok _ _ _ _ _ A1).
    + intros [H|]; [|done]. by destruct Hlk.
  - intros w' A1 M1 _. by apply HQ.
Qed.
Lemma inode_up_rep {A} p x x2 (r : A) f : (forall pa, f (iwith_parent pa x) = Some (r, iwith_parent pa x2)) ->
  forall m pv pa, heap m !! p = Some (rep pv pa (NInode x)) ->
  match heap m !! p with
  | Some (NInode x) => match f x with Some (r, l') => Ok (r, mwith_heap (<[p := NInode l']> (heap m)) m) | None => Er Panic end
  | _ => Er UB end = Ok (r, mwith_heap (<[p := rep pv pa (NInode x2)]> (heap m)) m).
Proof. intros H m pv pa ->. cbn [rep]. by rewrite H. Qed.
Lemma cwp_winode {A} i nl hs un ns pr pe tp zs w p x x2 f (r : A) (Q : A -> world -> Prop) :
  At i (L nl hs un ns pr pe tp zs) w -> nl !! p = Some (NInode x) -> p ∉ ns ->
  (p ∈ pr \/ v_is_locked (i_ver x) = true) -> i_ver x2 = i_ver x ->
  (forall pa, f (iwith_parent pa x) = Some (r, iwith_parent pa x2)) ->
  (forall w1, Mono w w1 -> At i (L nl hs un ns pr pe tp zs) w1 -> inode_ok w1 x -> IStep w1 x x2) ->
  (forall w', At i (L (<[p := NInode x2]> nl) hs un ns pr pe tp zs) w' -> Mono w w' -> Q r w') ->
  cwp i (inode_up p f) w Q.
Proof.
  intros A0 Hp Hns Hlk Hv Hf HS HQ. unfold inode_up. eapply (cwp_up _ _ _ _ _ _ _ _ _ _ _ _ (NInode x2) false r); [done|done|done|by apply inode_up_rep| |].
  - intros w1 M1 A1. cbn. rewrite Hv. split; [|split; [|done]].
    + apply HS; [done|done|]. by apply (at_inode_ok _ _ _ p _ A1).
    + intros [H|]; [|done]. by destruct Hlk.
  - intros w' A1 M1 _. by apply HQ.
Qed.
(** storing the version of a locked node *)
Lemma cwp_wver i nl hs un ns pr pe tp zs w p n f (Q : unit -> world -> Prop) :
  At i (L nl hs un ns pr pe tp zs) w -> nl !! p = Some n -> p ∉ ns ->
  (exists md rt, (md <> MFree) /\ vbits (f (nver n)) md rt (nleaf n)) -> vcnt (f (nver n)) = vcnt (nver n) ->
  (v_is_splitting (nver n) = true -> v_is_splitting (f (nver n)) = true) ->
  (v_is_root (nver n) = true -> v_is_root (f (nver n)) = true) \/ (forall w1, Mono w w1 -> At i (L nl hs un ns pr pe tp zs) w1 -> root (wm w1) <> p) ->
  (forall w', At i (L (<[p := nset (f (nver n)) n]> nl) hs un ns pr pe tp zs) w' -> Mono w w' -> Q tt w') ->
  cwp i (ver_update (rd_ver p) (wr_ver p) f) w Q.
Proof.
  intros A0 Hp Hns (md & rt & Hmd & Hv) Hc Hs Hr HQ. unfold ver_update.
  eapply (cwp_up _ _ _ _ _ _ _ _ _ _ _ _ (nset (f (nver n)) n) false tt); [done|done|done| | |].
  - intros m pv pa E. rewrite (rd_ver_at _ _ _ E), (wr_ver_at _ _ _ _ E), rep_ver, nset_rep. done.
  - intros w1 M1 A1. rewrite nset_ver. split; [|split].
    + destruct n as [l|x]; cbn in *.
      * destruct (at_leaf_ok _ _ _ _ _ A1 Hp) as [B1 B2 B3 B4 B5 B6 B7 B8 B9 B10 B11]. split; try done.
        -- by exists md, rt.
        -- unfold spl in *. cbn. intros H. apply B10. destruct (v_is_splitting (l_ver l)); [|done]. by rewrite Hs in H.
        -- unfold spl in *. cbn. intros H. split; [|done]. destruct (v_is_splitting (l_ver l)); [|done]. by rewrite Hs in H.
      * destruct (at_inode_ok _ _ _ _ _ A1 Hp) as [B1 B2 B3 B4]. split; try done. by exists md, rt.
    + intros _. rewrite (vbits_lockedf _ _ _ _ Hv). by destruct md.
    + intros E H. destruct Hr as [Hr|Hr]; [by apply Hr|]. by destruct (Hr w1 M1 A1).
  - intros w' A1 M1 _. by apply HQ.
Qed.
Lemma spl_vcnt' v : vcnt (N.lor v SPLITTING_BIT) = vcnt v.
Proof. apply spl_vcnt. Qed.
Lemma spl_rootf v : v_is_root v = true -> v_is_root (N.lor v SPLITTING_BIT) = true.
Proof. rewrite !is_root_bit. unfold bit. rewrite N.lor_spec. by intros ->. Qed.
Lemma spl_split v : v_is_splitting (N.lor v SPLITTING_BIT) = true.
Proof. rewrite is_splitting_bit. unfold bit. rewrite N.lor_spec. apply orb_true_r. Qed.
Lemma cwp_mark_split i nl hs un ns pr pe tp zs w p n rt lv (Q : N -> world -> Prop) :
  At i (L nl hs un ns pr pe tp zs) w -> nl !! p = Some n -> p ∉ ns -> vbits (nver n) MIns rt (nleaf n) ->
  (forall w', At i (L (<[p := nset (N.lor (nver n) SPLITTING_BIT) n]> nl) hs un ns pr pe tp zs) w' -> Mono w w' -> Q (N.lor lv SPLITTING_BIT) w') ->
  cwp i (mark_split p lv) w Q.
Proof.
  intros A0 Hp Hns Hv HQ. unfold mark_split, guard_mark_split. apply cwp_bind. change (ver_load (rd_ver p)) with (version p).
  eapply cwp_rver; [done|done|]. intros w1 A1 R1. apply cwp_bind.
  apply (cwp_wver i nl hs un ns pr pe tp zs w1 p n (fun _ => N.lor (nver n) SPLITTING_BIT)); [done|done|done| | | | |].
  - exists MSpl, rt. split; [done|]. by apply (vbits_spl _ MIns).
  - apply spl_vcnt'.
  - intros _. apply spl_split.
  - left. apply spl_rootf.
  - intros w2 A2 M2. apply cwp_ret, HQ; [done|]. eapply mono_trans; [apply R1|done].
Qed.
