(** Splitting a leaf: choosing the position, moving the entries, linking the sibling. *)
From Verif Require Import Base Perm PermFacts PermList SpecPerm PermLaws Key SpecKey KeyFacts Suffix Prog Version Mem Tree TreeState TreePrim TreeInv TreeRead.

Lemma wp_for_seq (J : nat -> mem -> Prop) (f : nat -> P unit) k : forall a m0 (Q : unit -> mem -> Prop),
  J a m0 -> (forall i m', a <= i < a + k -> J i m' -> wp (f i) m' (fun _ m'' => J (i + 1) m'')) ->
  (forall m', J (a + k) m' -> Q tt m') -> wp (for_each (seq a k) f) m0 Q.
Proof.
  induction k as [|k IH]; intros a m0 Q HJ Hs HQ; cbn [seq for_each].
  - apply wp_ret, HQ. by rewrite Nat.add_0_r.
  - apply wp_bind. eapply wp_mono; [apply Hs; [lia|exact HJ]|]. intros [] m' HJ'.
    apply (IH (Datatypes.S a)).
    + by replace (Datatypes.S a) with (a + 1) by lia.
    + intros i m'' Hi. apply Hs. lia.
    + intros m'' HJ''. apply HQ. by replace (a + Datatypes.S k) with (Datatypes.S a + k) by lia.
Qed.

(** ** choosing the position *)
Section Choose.
Context (fx : bool) (K : bytes -> N -> Prop) (B : N) (m : mem) (s : ast) (HS : St m s).
Context (p : N) (g : ghost) (md : vmode) (rt : bool) (pa : N) (L : lbody).
Context (Hp : sA s !! p = Some (LF g md rt pa L)).
Context (HL : leaf_ok K B (skels (sA s)) (sV s) g L).

Lemma es_size : length (es L) = perm_size (lb_perm L).
Proof. unfold es. rewrite map_length. apply ids_len. Qed.
Lemma wp_ikey_at j e (Q : N -> mem -> Prop) : es L !! j = Some e -> Q (s_ik e) m ->
  wp (ikey p (perm_get (lb_perm L) j)) m Q.
Proof.
  intros He HQ. apply (es_lookup _ _ _ _ _ _ HL) in He as (i & Hi & Hs & _).
  unfold ids, active_slots in Hi. rewrite list_lookup_fmap in Hi.
  destruct (seq 0 (perm_size (lb_perm L)) !! j) as [y|] eqn:E; [|done].
  apply lookup_seq in E as [-> _]. injection Hi as <-. eapply wp_ikey; [done|done|exact Hs|done].
Qed.
(** at most ten entries share a slice *)
Lemma group_le a b x : b < length (es L) -> (forall i e, a <= i <= b -> es L !! i = Some e -> s_ik e = x) -> b < a + 10.
Proof.
  intros Hb Hx. destruct (decide (b < a + 10)) as [|Hge]; [done|exfalso].
  set (l := map (fun e => N.to_nat (N.min (s_kx e) 9)) (take 11 (drop a (es L)))).
  assert (Hlen : length l = 11) by (unfold l; rewrite map_length, take_length, drop_length; lia).
  assert (Hl : forall i y, l !! i = Some y -> i < 11 /\ exists e, es L !! (a + i) = Some e /\ y = N.to_nat (N.min (s_kx e) 9)).
  { intros i y Hi. pose proof (lookup_lt_Some _ _ _ Hi). unfold l in Hi. rewrite list_lookup_fmap in Hi.
    rewrite lookup_take, lookup_drop in Hi by lia. destruct (es L !! (a + i)) as [e|]; [|done]. injection Hi as <-. split; [lia|eauto]. }
  assert (Hnd : NoDup l).
  { apply NoDup_alt. intros i j y Hi Hj. apply Hl in Hi as (Hi & e & He & ->). apply Hl in Hj as (Hj & e' & He' & Heq).
    enough (a + i = a + j) by lia. eapply (NoDup_lookup (map ecls (es L))); [apply HL|rewrite list_lookup_fmap, He; done|].
    rewrite list_lookup_fmap, He'. cbn. unfold ecls. do 2 f_equal.
    - rewrite (Hx (a + i) e), (Hx (a + j) e'); [done|lia|done|lia|done].
    - lia. }
  assert (Hsub : l ⊆+ seq 0 10).
  { apply NoDup_submseteq; [done|]. intros y Hy. apply elem_of_list_lookup in Hy as [i Hi].
    apply Hl in Hi as (_ & e & _ & ->). apply elem_of_seq. lia. }
  apply submseteq_length in Hsub. rewrite Hlen, seq_length in Hsub. lia.
Qed.
Lemma es_le i j e e' : i <= j -> es L !! i = Some e -> es L !! j = Some e' -> (s_ik e <= s_ik e')%N.
Proof.
  intros Hij He He'. destruct (decide (i = j)) as [->|]; [assert (e = e') by congruence; subst; lia|].
  eapply (lk_sort _ _ _ _ _ _ HL); [|exact He|exact He']. lia.
Qed.

(** what the chosen position guarantees *)
Definition cut_ok (ik : N) (pos : nat) : Prop := 1 <= pos < 24 /\
  forall l r, es L !! (pos - 1) = Some l -> es L !! pos = Some r ->
    (s_ik l < s_ik r)%N \/ (fx = false /\ pos = 12 /\ s_ik l = s_ik r /\ (s_ik r < ik)%N).
Context (Hsz : perm_size (lb_perm L) = 24).
Lemma es24 i : i < 24 -> exists e, es L !! i = Some e.
Proof. intros H. apply lookup_lt_is_Some_2. rewrite es_size. lia. Qed.

Lemma adjust_S n perm ik size pos : adjust_split fx (Datatypes.S n) p perm ik size pos =
  if Nat.ltb 0 pos && Nat.ltb pos size then
    l <- ikey p (perm_get perm (pos - 1)) ;;
    r <- ikey p (perm_get perm pos) ;;
    if (l =? r)%N then
      match (ik ?= l)%N with
      | Eq => adjust_split fx n p perm ik size (pos + 1)
      | Lt => adjust_split fx n p perm ik size (pos - 1)
      | Gt => if fx then adjust_split fx n p perm ik size (pos - 1) else Ret pos
      end
    else Ret pos
  else Ret pos.
Proof. reflexivity. Qed.
Lemma wp_adjust_down ik x : ((ik < x)%N \/ (x < ik)%N /\ fx = true) ->
  forall n pos (Q : nat -> mem -> Prop), pos <= n -> 2 < pos <= 12 ->
  (forall i e, pos <= i <= 12 -> es L !! i = Some e -> s_ik e = x) ->
  (forall pos', cut_ok ik pos' -> Q pos' m) -> wp (adjust_split fx n p (lb_perm L) ik 24 pos) m Q.
Proof.
  intros Hc. induction n as [|n IH]; intros pos Q Hn Hpos Hall HQ; [lia|]. cbn [adjust_split].
  destruct (Nat.ltb_spec 0 pos); [|lia]. destruct (Nat.ltb_spec pos 24); [|lia]. cbn [andb].
  destruct (es24 (pos - 1)) as [l Hl]; [lia|]. destruct (es24 pos) as [r Hr]; [lia|].
  apply wp_bind. eapply wp_ikey_at; [exact Hl|]. apply wp_bind. eapply wp_ikey_at; [exact Hr|].
  assert (Er : s_ik r = x) by (eapply Hall; [|exact Hr]; lia).
  destruct (N.eqb_spec (s_ik l) (s_ik r)) as [E|E].
  - assert (Hall' : forall i e, pos - 1 <= i <= 12 -> es L !! i = Some e -> s_ik e = x).
    { intros i e Hi He. destruct (decide (i = pos - 1)) as [->|]; [assert (e = l) by congruence; subst; congruence|]. eapply Hall; [|exact He]. lia. }
    assert (12 < pos - 1 + 10) by (apply (group_le (pos - 1) 12 x); [rewrite es_size; lia|done]).
    rewrite E, Er. destruct (N.compare_spec ik x); [lia|apply IH; [lia|lia|done|done]|].
    destruct Hc as [?|[_ ->]]; [lia|]. apply IH; [lia|lia|done|done].
  - apply wp_ret, HQ. split; [lia|]. intros l' r' Hl' Hr'. left. rewrite Hl in Hl'. rewrite Hr in Hr'.
    injection Hl' as <-. injection Hr' as <-. pose proof (es_le (pos - 1) pos l r ltac:(lia) Hl Hr). lia.
Qed.
Lemma wp_adjust_up ik : forall n pos (Q : nat -> mem -> Prop), 24 <= n + pos -> 13 <= pos < 22 ->
  (forall i e, 11 <= i <= pos - 1 -> es L !! i = Some e -> s_ik e = ik) ->
  (forall pos', cut_ok ik pos' -> Q pos' m) -> wp (adjust_split fx n p (lb_perm L) ik 24 pos) m Q.
Proof.
  induction n as [|n IH]; intros pos Q Hn Hpos Hall HQ; [lia|]. cbn [adjust_split].
  destruct (Nat.ltb_spec 0 pos); [|lia]. destruct (Nat.ltb_spec pos 24); [|lia]. cbn [andb].
  destruct (es24 (pos - 1)) as [l Hl]; [lia|]. destruct (es24 pos) as [r Hr]; [lia|].
  apply wp_bind. eapply wp_ikey_at; [exact Hl|]. apply wp_bind. eapply wp_ikey_at; [exact Hr|].
  assert (El : s_ik l = ik) by (eapply Hall; [|exact Hl]; lia).
  destruct (N.eqb_spec (s_ik l) (s_ik r)) as [E|E].
  - assert (Hall' : forall i e, 11 <= i <= pos -> es L !! i = Some e -> s_ik e = ik).
    { intros i e Hi He. destruct (decide (i = pos)) as [->|]; [assert (e = r) by congruence; subst e; congruence|].
      eapply Hall; [|exact He]. lia. }
    assert (pos < 11 + 10) by (apply (group_le 11 pos ik); [rewrite es_size; lia|done]).
    rewrite El, N.compare_refl.
    apply IH; [lia|lia| |done]. intros i e Hi. apply Hall'. lia.
  - apply wp_ret, HQ. split; [lia|]. intros l' r' Hl' Hr'. left. rewrite Hl in Hl'. rewrite Hr in Hr'.
    injection Hl' as <-. injection Hr' as <-. pose proof (es_le (pos - 1) pos l r ltac:(lia) Hl Hr). lia.
Qed.
(** leaf24.rs:1185-1244: a full leaf always has a split position *)
Lemma wp_calculate_split_point ik (Q : option nat -> mem -> Prop) :
  (forall pos, cut_ok ik pos -> Q (Some pos) m) -> wp (calculate_split_point fx p ik) m Q.
Proof.
  intros HQ. unfold calculate_split_point. apply wp_bind. eapply wp_permutation; [done|done|]. rewrite Hsz.
  cbv zeta. change (Nat.eqb 24 0 || Nat.eqb (24 / 2) 0) with false. cbv iota. change (24 / 2) with 12.
  apply wp_bind.
  assert (Hend : forall pos, cut_ok ik pos -> wp (if Nat.eqb pos 0 || Nat.leb 24 pos then Ret None
    else ikey p (perm_get (lb_perm L) pos) ;;; Ret (Some pos)) m Q).
  { intros pos Hc. pose proof Hc as [Hb _]. destruct (Nat.eqb_spec pos 0); [lia|]. destruct (Nat.leb_spec 24 pos); [lia|].
    cbn [orb]. destruct (es24 pos) as [e He]; [lia|]. apply wp_bind. eapply wp_ikey_at; [exact He|]. by apply wp_ret, HQ. }
  clear HQ. rewrite (adjust_S 23). change (Nat.ltb 0 12 && Nat.ltb 12 24) with true. cbv iota.
  destruct (es24 11) as [l Hl]; [lia|]. destruct (es24 12) as [r Hr]; [lia|].
  apply wp_bind. eapply wp_ikey_at; [exact Hl|]. apply wp_bind. eapply wp_ikey_at; [exact Hr|].
  destruct (N.eqb_spec (s_ik l) (s_ik r)) as [E|E].
  - assert (Hall : forall i e, 11 <= i <= 12 -> es L !! i = Some e -> s_ik e = s_ik l).
    { intros i e Hi He. assert (i = 11 \/ i = 12) as [->| ->] by lia; congruence. }
    destruct (N.compare_spec ik (s_ik l)) as [Hc|Hc|Hc].
    + eapply wp_adjust_up; [lia|lia| |exact Hend]. intros i e Hi. rewrite Hc. apply Hall. lia.
    + eapply (wp_adjust_down ik (s_ik l)); [by left|lia|lia|done|exact Hend].
    + destruct fx eqn:Efx.
      * rewrite <- Efx. eapply (wp_adjust_down ik (s_ik l)); [right; split; [done|exact Efx]|lia|lia|exact Hall|exact Hend].
      * apply wp_ret, Hend. split; [lia|]. intros l' r' Hl' Hr'. right. change (12 - 1) with 11 in Hl'. rewrite Hl in Hl'. rewrite Hr in Hr'.
        injection Hl' as <-. injection Hr' as <-. split; [done|]. split; [done|]. split; [done|]. congruence.
  - apply wp_ret, Hend. split; [lia|]. intros l' r' Hl' Hr'. left. change (12 - 1) with 11 in Hl'. rewrite Hl in Hl'. rewrite Hr in Hr'.
    injection Hl' as <-. injection Hr' as <-. pose proof (es_le 11 12 l r ltac:(lia) Hl Hr). lia.
Qed.
(** the separator lies strictly above the lower end of the leaf *)
Lemma cut_lo ik pos e : cut_ok ik pos -> es L !! pos = Some e -> (g_lo g < s_ik e)%N.
Proof.
  intros [Hb Hc] He. destruct (es24 (pos - 1)) as [l Hl]; [lia|].
  pose proof (lk_span _ _ _ _ _ _ HL l) as [Hs _]; [by eapply elem_of_list_lookup_2|].
  destruct (Hc l e Hl He) as [?|(_ & -> & E & _)]; [lia|].
  destruct (N.eq_dec (g_lo g) (s_ik e)) as [E2|]; [exfalso|lia].
  assert (12 < 0 + 10); [|lia]. apply (group_le 0 12 (s_ik e)); [rewrite es_size; lia|].
  intros i x Hi Hx. pose proof (es_le i 12 x e ltac:(lia) Hx He).
  pose proof (lk_span _ _ _ _ _ _ HL x) as [? _]; [by eapply elem_of_list_lookup_2|]. lia.
Qed.
End Choose.

(** ** moving the entries *)
Lemma setfv_setA v p n s : setfv v (setA p n s) = setA p n (setfv v s). Proof. done. Qed.
Lemma setfv_setfv v w s : setfv v (setfv w s) = setfv v s. Proof. done. Qed.
Lemma setfv_sfv p n s : sfv (setA p n s) = sfv s. Proof. done. Qed.
Lemma srefs_null x : s_ptr x = 0%N -> srefs x = [].
Proof. intros E. unfold srefs. rewrite E. done. Qed.
Lemma insert_mid {X} (l : list X) i x y r : length l = i -> <[i := x]> (l ++ y :: r) = (l ++ [x]) ++ r.
Proof. intros <-. rewrite insert_app_r_alt by lia. rewrite Nat.sub_diag. cbn. by rewrite <- app_assoc. Qed.
Lemma U32_big n : (n <= 100000)%N -> (n < U32_MAX)%N.
Proof. intros H. eapply N.le_lt_trans; [exact H|]. done. Qed.

Section Move.
Context (K : bytes -> N -> Prop) (B : N) (S : gmap N snode) (V : gmap N N) (s0 : ast).
Context (p q : N) (Hne : p <> q) (g gq : ghost) (rt : bool) (pa : N) (L : lbody) (pf : N).
Context (HL : leaf_ok K B S V g L).
Context (pos : nat).
Local Notation Pleaf sl bg := (LF g MSpl rt pa (mk_lbody pf sl bg (lb_bud L) (lb_nx L) (lb_pv L))).
Local Notation Qleaf sl bg bud := (LF gq MSpl false 0%N (mk_lbody perm_empty sl bg bud 0 0)).

Definition left_slots (i : nat) (sl : list slot) : Prop := length sl = 24 /\
  forall t x, lb_sl L !! t = Some x -> exists y, sl !! t = Some y /\
    if decide (t ∈ take i (drop pos (ids L))) then s_ptr y = 0%N /\ s_sf y = None else y = x.
Definition right_slots (i : nat) : list slot := take i (drop pos (es L)) ++ replicate (24 - i) slot0.
Definition moving (i : nat) (m : mem) : Prop := exists slp bgp bgq bud,
  St m (setA p (Pleaf slp bgp) (setA q (Qleaf (right_slots i) bgq bud) s0)) /\
  left_slots i slp /\ (bud <= 256 * N.of_nat i)%N.

Lemma wp_move_entry i m : pos + i < length (es L) -> i < 24 -> moving i m ->
  wp (move_entry p q (lb_perm L) pos i) m (fun _ m' => moving (i + 1) m').
Proof.
  intros Hi Hi24 (slp & bgp & bgq & bud & HS & [Hlen Hleft] & Hbud).
  destruct (lookup_lt_is_Some_2 (es L) (pos + i) Hi) as [e He].
  pose proof He as He'. apply (es_lookup _ _ _ _ _ _ HL) in He' as (os & Hos & Hsl & Hlt).
  assert (Eos : perm_get (lb_perm L) (pos + i) = os).
  { unfold ids, active_slots in Hos. rewrite list_lookup_fmap in Hos.
    destruct (seq 0 (perm_size (lb_perm L)) !! (pos + i)) eqn:E; [|done]. apply lookup_seq in E as [-> _]. by injection Hos as ->. }
  pose proof (lk_ent _ _ _ _ _ _ HL e) as [Hpz Hent]; [by eapply elem_of_list_lookup_2|].
  assert (Hnot : os ∉ take i (drop pos (ids L))).
  { intros Hin. apply elem_of_take in Hin as (j & Hj & Hji). rewrite lookup_drop in Hj.
    pose proof (NoDup_lookup _ _ _ _ (ids_nodup _ (lk_perm _ _ _ _ _ _ HL)) Hj Hos). lia. }
  destruct (Hleft os e Hsl) as (y & Hy & Hye). rewrite decide_False in Hye by done. subst y.
  unfold move_entry. rewrite Eos. cbv zeta.
  set (s1 := setA p (Pleaf slp bgp) (setA q (Qleaf (right_slots i) bgq bud) s0)) in *.
  assert (Hp1 : sA s1 !! p = Some (Pleaf slp bgp)) by apply setA_lookup.
  apply wp_bind. eapply wp_ikey; [done|exact Hp1|exact Hy|].
  apply wp_bind. eapply wp_keylenx; [done|exact Hp1|exact Hy|].
  (* the new slot of the right leaf *)
  assert (Hr0 : right_slots i = take i (drop pos (es L)) ++ slot0 :: replicate (24 - (i + 1)) slot0).
  { unfold right_slots. f_equal. replace (24 - i) with (Datatypes.S (24 - (i + 1))) by lia. done. }
  assert (Hln : length (take i (drop pos (es L))) = i).
  { rewrite take_length, drop_length. lia. }
  assert (Hr1 : forall x, <[i := x]> (right_slots i) = (take i (drop pos (es L)) ++ [x]) ++ replicate (24 - (i + 1)) slot0).
  { intros x. rewrite Hr0. by apply insert_mid. }
  assert (Hri : right_slots (i + 1) = <[i := e]> (right_slots i)).
  { rewrite Hr1. unfold right_slots. f_equal. replace (i + 1) with (Datatypes.S i) by lia. apply take_S_r. by rewrite lookup_drop. }
  assert (Hq0 : forall x, <[i := x]> (right_slots i) !! i = Some x).
  { intros x. apply list_lookup_insert. rewrite Hr0, app_length, Hln. cbn. lia. }
  assert (Hins : forall x y, <[i := x]> (<[i := y]> (right_slots i)) = <[i := x]> (right_slots i)) by (intros; apply list_insert_insert).
  assert (Hqi : right_slots i !! i = Some slot0).
  { rewrite Hr0, lookup_app_r by lia. by rewrite Hln, Nat.sub_diag. }
  assert (Hstate : forall X Y Y', setA q Y' (setA p X (setA q Y s0)) = setA p X (setA q Y' s0)).
  { intros X Y Y'. rewrite setA_comm by done. by rewrite setA_setA. }
  assert (Hstate2 : forall X X' Y, setA p X' (setA p X (setA q Y s0)) = setA p X' (setA q Y s0)).
  { intros X X' Y. by rewrite setA_setA. }
  assert (Hlq : forall X Y, sA (setA p X (setA q Y s0)) !! q = Some Y).
  { intros X Y. rewrite setA_lookup_ne by done. apply setA_lookup. }
  assert (Hfv : forall X Y, setfv (sfv s0) (setA p X (setA q Y s0)) = setA p X (setA q Y s0)) by (intros; by destruct s0).
  unfold s1 in *. clear s1.
  apply wp_bind. eapply wp_set_ikey; [exact HS|apply Hlq|exact Hqi|]. intros m1 H1. rewrite Hstate in H1.
  unfold lslot, lset_sl in H1; cbn [lb_perm lb_sl lb_bg lb_bud lb_nx lb_pv] in H1.
  apply wp_bind. eapply (wp_set_keylenx _ _ H1) with (fv' := sfv s0); [apply Hlq|apply Hq0|by rewrite !srefs_null|]. intros m2 H2.
  rewrite Hstate, Hfv in H2.
  unfold lslot, lset_sl, sset_kx, sset_ik in H2; cbn [lb_perm lb_sl lb_bg lb_bud lb_nx lb_pv s_ik s_kx s_ptr s_sf] in H2. rewrite Hins in H2.
  apply wp_bind. eapply (wp_take_val_ptr _ _ H2); [apply setA_lookup|exact Hy|reflexivity|]. intros m3 H3.
  rewrite Hstate2 in H3. unfold lslot, lset_sl, sset_ptr in H3; cbn [lb_perm lb_sl lb_bg lb_bud lb_nx lb_pv s_ik s_kx s_ptr s_sf] in H3.
  apply wp_bind. eapply (wp_set_val_ptr _ _ H3) with (fv' := sfv s0); [apply Hlq|apply Hq0|..].
  { cbn [sset_ptr s_ik s_kx s_ptr s_sf]. rewrite (srefs_null (mk_slot _ _ 0 _)) by done. cbn [app sfv setfv setA]. done. }
  intros m4 H4. change (setfv ?a (setA ?b ?c (setfv ?d ?e))) with (setfv a (setA b c e)) in H4. rewrite Hstate, Hfv in H4.
  unfold lslot, lset_sl, sset_ptr in H4; cbn [lb_perm lb_sl lb_bg lb_bud lb_nx lb_pv s_ik s_kx s_ptr s_sf slot0] in H4. rewrite Hins in H4.
  assert (Hleft' : forall kx, left_slots (i + 1) (<[os := mk_slot (s_ik e) kx 0 None]> slp)).
  { intros kx. split; [by rewrite insert_length|]. intros t x Hx. replace (i + 1) with (Datatypes.S i) by lia.
    rewrite (take_S_r _ i os) by (by rewrite lookup_drop). destruct (decide (t = os)) as [->|Hto].
    - eexists. rewrite list_lookup_insert by (rewrite Hlen; lia). split; [done|].
      rewrite decide_True; [done|]. apply elem_of_app. right. by apply elem_of_list_singleton.
    - rewrite list_lookup_insert_ne by done. destruct (Hleft t x Hx) as (y & Hy1 & Hy2). exists y. split; [done|].
      destruct (decide (t ∈ take i (drop pos (ids L)))) as [Hd|Hd].
      + rewrite decide_True; [done|]. apply elem_of_app. by left.
      + rewrite decide_False; [done|]. rewrite elem_of_app. intros [?|Hx1]; [done|]. by apply elem_of_list_singleton in Hx1. }
  destruct (N.eqb_spec (s_kx e) KSUF_KEYLENX) as [E64|E64].
  - assert (exists r, s_sf e = Some (drop 8 r) /\ length r <= 256) as (r & Hsf & Hr).
    { destruct Hent as [(r & v & Hr & Hr2 & _)|(Hk & _)]; [|rewrite Hk in E64; done].
      exists r. rewrite app_length in Hr2. split; [|lia]. destruct Hr as (_ & _ & Hr). destruct (Nat.leb_spec (length r) 8); [|apply Hr].
      rewrite E64 in Hr. unfold KSUF_KEYLENX in Hr. lia. }
    assert (Hsuf : (N.of_nat (length (drop 8 r)) <= 256)%N) by (rewrite drop_length; lia).
    apply wp_bind. eapply (wp_ksuf _ _ H4); [apply setA_lookup|apply list_lookup_insert; rewrite Hlen; lia|].
    cbn [s_kx s_sf]. rewrite E64, N.eqb_refl, Hsf. apply wp_bind.
    eapply (wp_assign_ksuf _ _ H4) with (fv' := sfv s0); [apply Hlq|apply Hq0|lia| | |].
    { cbn [lb_bud]. apply U32_big. lia. }
    { cbn [sset_kx s_ik s_kx s_ptr s_sf]. rewrite E64. done. }
    intros b5 m5 H5. rewrite Hstate, Hfv in H5.
    cbn [lb_perm lb_sl lb_bg lb_bud lb_nx lb_pv s_ik s_kx s_ptr s_sf] in H5. rewrite Hins in H5.
    eapply (wp_clear_ksuf _ _ H5) with (fv' := sfv s0); [apply setA_lookup|apply list_lookup_insert; rewrite Hlen; lia|by rewrite !srefs_null|].
    intros b6 m6 H6. rewrite Hstate2, Hfv in H6.
    cbn [lb_perm lb_sl lb_bg lb_bud lb_nx lb_pv s_ik s_kx s_ptr s_sf] in H6. rewrite list_insert_insert in H6.
    exists (<[os := mk_slot (s_ik e) 0 0 None]> slp), b6, b5, (bud + N.of_nat (length (drop 8 r)))%N.
    split; [|split; [done|lia]]. rewrite Hri. destruct e as [eik ekx eptr esf]. cbn [s_ik s_kx s_ptr s_sf] in *. subst esf ekx. exact H6.
  - apply wp_ret. assert (Hsf : s_sf e = None) by (by eapply (lk_sf _ _ _ _ _ _ HL)).
    eexists _, bgp, bgq, bud. split; [|split; [apply (Hleft' (s_kx e))|lia]].
    rewrite Hri. destruct e as [eik ekx eptr esf]. cbn [s_ik s_kx s_ptr s_sf] in *. subst esf. exact H4.
Qed.
End Move.

Definition new_leaf : lbody := mk_lbody perm_empty (replicate 24 slot0) 0 0 0 0.
Lemma leaf_new_rel gq bgs : node_rel bgs (NLeaf leaf_new) (LF gq MFree false 0%N new_leaf).
Proof.
  split; [apply vbits_new|]. split; [done|]. split; try done.
  unfold bag_rel. rewrite decide_True by done. intros i x Hx. apply lookup_replicate in Hx as [-> _]. done.
Qed.
Lemma leaf_root_rel gq bgs : node_rel bgs (NLeaf leaf_new_root) (LF gq MFree true 0%N new_leaf).
Proof.
  split; [apply (vbits_root _ _ _ _ (vbits_new true))|]. split; [done|]. split; try done.
  unfold bag_rel. rewrite decide_True by done. intros i x Hx. apply lookup_replicate in Hx as [-> _]. done.
Qed.
Lemma new_leaf_refs gq md rt pa : nrefs (LF gq md rt pa new_leaf) = [] /\ nbags (LF gq md rt pa new_leaf) = [].
Proof. split; reflexivity. Qed.

Section Split.
Context (K : bytes -> N -> Prop) (B : N) (S : gmap N snode) (V : gmap N N) (s0 : ast).
Context (p q : N) (Hne : p <> q) (g gq : ghost) (rt : bool) (pa : N) (L : lbody).
Context (HL : leaf_ok K B S V g L) (Hsz : perm_size (lb_perm L) = 24) (pos : nat) (Hpos : 1 <= pos < 24).

Definition left_leaf (slp : list slot) (bg nx : N) : lbody :=
  mk_lbody (perm_set_size (lb_perm L) pos) slp bg (lb_bud L) nx (lb_pv L).
Definition right_leaf (bg bud nx pv : N) : lbody :=
  mk_lbody (perm_make_sorted (24 - pos)) (right_slots L pos (24 - pos)) bg bud nx pv.

Lemma wp_split_into F m (Q : N -> mem -> Prop) : 0 < F ->
  St m (setA p (LF g MSpl rt pa L) (setA q (LF gq MFree false 0%N new_leaf) s0)) ->
  (forall e slp bgp bgq bud m', es L !! pos = Some e ->
     St m' (setA p (LF g MSpl rt pa (left_leaf slp bgp (lb_nx L))) (setA q (LF gq MSpl false 0%N (right_leaf bgq bud 0 0)) s0)) ->
     left_slots L pos (24 - pos) slp -> (bud <= 6144)%N -> Q (s_ik e) m') ->
  wp (split_into_preallocated F p q pos) m Q.
Proof.
  intros HF HS HQ. unfold split_into_preallocated.
  assert (Hstate : forall X Y Y', setA q Y' (setA p X (setA q Y s0)) = setA p X (setA q Y' s0)).
  { intros X Y Y'. rewrite setA_comm by done. by rewrite setA_setA. }
  assert (Hlq : forall X Y, sA (setA p X (setA q Y s0)) !! q = Some Y).
  { intros X Y. rewrite setA_lookup_ne by done. apply setA_lookup. }
  apply wp_bind. eapply wp_version; [exact HS|apply setA_lookup|]. intros src _ Hsrc. cbn [is_leafb] in Hsrc.
  rewrite (vbits_lockedf _ _ _ _ Hsrc).
  apply wp_bind. eapply wp_leaf_init_ver; [exact HS|apply Hlq|exact (vbits_new_split _ _ _ _ Hsrc)|].
  intros m1 H1. rewrite Hstate in H1. apply wp_bind. unfold freeze_permutation.
  apply wp_bind. eapply wp_flag_locked; [exact H1|apply setA_lookup|].
  apply wp_bind. eapply wp_flag_splitting; [exact H1|apply setA_lookup|]. cbn [andb].
  destruct F as [|F]; [lia|]. cbn [freeze_loop]. apply wp_bind. eapply wp_permutation; [exact H1|apply setA_lookup|].
  rewrite (ids_not_frozen _ (lk_perm _ _ _ _ _ _ HL)). apply wp_bind.
  eapply wp_cas_permutation; [exact H1|apply setA_lookup|]. intros m2 H2. rewrite setA_setA in H2. apply wp_ret.
  cbv zeta. rewrite Hsz. destruct (Nat.ltb_spec 0 pos); [|lia]. destruct (Nat.ltb_spec pos 24); [|lia]. cbn [andb].
  assert (Hes : length (es L) = 24) by (rewrite (es_size L); done).
  apply wp_bind. eapply (wp_for_seq (moving s0 p q g gq rt pa L (freeze_raw (lb_perm L)) pos) _ _ 0).
  - exists (lb_sl L), (lb_bg L), 0%N, 0%N. split; [exact H2|]. split; [|lia]. split; [apply HL|].
    intros t x Hx. exists x. split; [done|]. rewrite decide_False; [done|]. cbn. apply not_elem_of_nil.
  - intros i m' Hi HJ. eapply wp_move_entry; [done|exact HL|lia|lia|exact HJ].
  - intros m3 (slp & bgp & bgq & bud & H3 & Hleft & Hbud). cbn [Nat.add] in *.
    apply wp_bind. eapply wp_set_permutation; [exact H3|apply Hlq|]. intros m4 H4. rewrite Hstate in H4.
    apply wp_bind. eapply wp_set_permutation; [exact H4|apply setA_lookup|]. intros m5 H5. rewrite setA_setA in H5.
    destruct (lookup_lt_is_Some_2 (es L) pos) as [e He]; [lia|].
    assert (Hq0 : right_slots L pos (24 - pos) !! 0 = Some e).
    { unfold right_slots. rewrite lookup_app_l by (rewrite take_length, drop_length; lia).
      rewrite lookup_take, lookup_drop by lia. by rewrite Nat.add_0_r. }
    assert (E0 : perm_get (perm_make_sorted (24 - pos)) 0 = 0).
    { assert (H24 : 24 - pos <= 24) by lia. destruct (make_sorted_law_holds P24 P24_ok (24 - pos) H24) as (Hw & Ha & _).
      assert (Hx : active P24 (perm_make_sorted (24 - pos)) !! 0 = Some 0).
      { unfold perm_make_sorted. rewrite Ha. apply lookup_seq. lia. }
      unfold active, slots_of in Hx. destruct (p_size P24 (perm_make_sorted (24 - pos))) eqn:Es; [done|]. rewrite lookup_take in Hx by lia.
      rewrite list_lookup_fmap in Hx. cbn in Hx. by injection Hx as Hx. }
    rewrite E0. eapply wp_ikey; [exact H5|apply Hlq|exact Hq0|].
    eapply HQ; [exact He|exact H5|exact Hleft|]. cbn [lb_bud]. lia.
Qed.
End Split.

(** leaf24.rs:1432-1490 with nobody else around *)
Lemma mark_even p : N.even p = true -> unmark_ptr (mark_ptr p) = p.
Proof.
  intros He. unfold unmark_ptr, mark_ptr. apply N.bits_inj. intros i. rewrite N.ldiff_spec, N.lor_spec.
  destruct (N.eq_dec i 0) as [->|Hi].
  - cbn. rewrite andb_false_r. symmetry. rewrite N.bit0_odd, <- N.negb_even, He. done.
  - rewrite (N.bits_above_log2 1 i) by (cbn; lia). by rewrite orb_false_r, andb_true_r.
Qed.
Section Link.
Context (s0 : ast) (p q : N) (Hne : p <> q) (g gq : ghost) (md mdq : vmode) (rt rtq : bool) (pa paq : N) (L Lq : lbody).
(** the old right neighbour gets a new left neighbour *)
Definition relink (s : ast) : ast :=
  match sA s !! lb_nx L with
  | Some (LF g' md' rt' pa' L') => setA (lb_nx L) (LF g' md' rt' pa' (lset_pv q L')) s
  | _ => s
  end.
Lemma wp_link_sibling F m (Q : unit -> mem -> Prop) : 0 < F ->
  St m (setA p (LF g md rt pa L) (setA q (LF gq mdq rtq paq Lq) s0)) ->
  (lb_nx L = 0%N /\ sA s0 !! 0%N = None \/ (lb_nx L <> p /\ lb_nx L <> q /\ N.even (lb_nx L) = true /\ lb_nx L <> 0%N /\
     exists g' md' rt' pa' L', sA s0 !! lb_nx L = Some (LF g' md' rt' pa' L'))) ->
  (forall m', St m' (setA p (LF g md rt pa (lset_nx q L)) (setA q (LF gq mdq rtq paq (lset_nx (lb_nx L) (lset_pv p Lq))) (relink s0))) -> Q tt m') ->
  wp (link_sibling F p q) m Q.
Proof.
  intros HF HS Hnx HQ. unfold link_sibling.
  assert (Hstate : forall X Y Y' s, setA q Y' (setA p X (setA q Y s)) = setA p X (setA q Y' s)).
  { intros X Y Y' s. rewrite setA_comm by done. by rewrite setA_setA. }
  assert (Hlq : forall X Y s, sA (setA p X (setA q Y s)) !! q = Some Y).
  { intros X Y s. rewrite setA_lookup_ne by done. apply setA_lookup. }
  destruct F as [|F]; [lia|]. cbn [lock_next]. apply wp_bind. apply wp_bind.
  eapply wp_next_raw; [exact HS|apply setA_lookup|].
  assert (Hev : N.even (lb_nx L) = true) by (destruct Hnx as [[-> _]|(_ & _ & ? & _)]; done).
  destruct (even_unmarked _ Hev) as [-> _].
  apply wp_bind. eapply (wp_cas_next _ _ HS _ _ _ _ _ _ (setA_lookup _ _ _)). intros m1 H1. rewrite setA_setA in H1. apply wp_ret.
  apply wp_bind. eapply wp_set_prev; [exact H1|apply Hlq|]. intros m2 H2. rewrite Hstate in H2.
  apply wp_bind. eapply wp_set_next; [exact H2|apply Hlq|]. intros m3 H3. rewrite Hstate in H3.
  apply wp_bind. destruct Hnx as [[Hz Hz0]|(N1 & N2 & _ & Hz & g' & md' & rt' & pa' & L' & HL')].
  - rewrite Hz in *. cbn [N.eqb]. apply wp_ret. eapply wp_set_next; [exact H3|apply setA_lookup|].
    intros m4 H4. rewrite setA_setA in H4. apply HQ. unfold relink. rewrite Hz, Hz0. exact H4.
  - destruct (N.eqb_spec (lb_nx L) 0) as [|_]; [done|].
    eapply wp_set_prev; [exact H3|by rewrite !setA_lookup_ne by done|]. intros m4 H4.
    rewrite setA_comm in H4 by done. rewrite (setA_comm (lb_nx L)) in H4 by done.
    eapply wp_set_next; [exact H4|apply setA_lookup|]. intros m5 H5. rewrite setA_setA in H5. apply HQ.
    unfold relink. rewrite HL'. exact H5.
Qed.
End Link.
