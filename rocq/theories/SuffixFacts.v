(** Proofs about the suffix bag. *)
From Verif Require Import Base Key Suffix SpecKey SpecSuffix.

Definition mlive (m : meta) : nat := if meta_has m then m_len m else 0.
Definition total_live (b : bag) : nat := sum_list (map mlive (b_slots b)).

(** [b] represents the slot map [m]; [bound] limits everything ever written *)
Record bag_inv (width : nat) (bound : N) (b : bag) (m : smap) : Prop := {
  bi_len : length (b_slots b) = width;
  bi_data : (N.of_nat (length (b_data b)) <= bound)%N;
  bi_live : (N.of_nat (total_live b) <= bound)%N;
  bi_none : forall s, width <= s -> m s = None;
  bi_slot : forall s me, b_slots b !! s = Some me ->
     if meta_has me then N.to_nat (m_off me) + m_len me <= length (b_data b) /\
                         m s = Some (take (m_len me) (drop (N.to_nat (m_off me)) (b_data b)))
     else m s = None;
  bi_disj : forall s t me mt, s <> t -> b_slots b !! s = Some me -> b_slots b !! t = Some mt ->
     meta_has me = true -> meta_has mt = true ->
     N.to_nat (m_off me) + m_len me <= N.to_nat (m_off mt)
     \/ N.to_nat (m_off mt) + m_len mt <= N.to_nat (m_off me) }.

Lemma sum_cons x l : sum_list (x :: l) = x + sum_list l.
Proof. done. Qed.
Lemma sum_list_app a b : sum_list (a ++ b) = sum_list a + sum_list b.
Proof. induction a as [|x a IH]; cbn [app]; [done|]. rewrite !sum_cons, IH. lia. Qed.
Lemma sum_insert {A} (f : A -> nat) (l : list A) i x y : l !! i = Some x ->
  sum_list (map f (<[i := y]> l)) + f x = sum_list (map f l) + f y.
Proof.
  revert i. induction l as [|a l IH]; intros [|i] H; try done.
  - injection H as ->. change (<[0:=y]> (x :: l)) with (y :: l). cbn [map]. rewrite !sum_cons. lia.
  - change (<[S i:=y]> (a :: l)) with (a :: <[i:=y]> l). cbn [map]. rewrite !sum_cons.
    specialize (IH i H). lia.
Qed.
Lemma live_len_mlive b s : live_len b s = from_option mlive 0 (b_slots b !! s).
Proof. unfold live_len. by destruct (b_slots b !! s). Qed.
Lemma sum_nodup_le {A} (f : A -> nat) (l : list A) (idx : list nat) : NoDup idx ->
  sum_list (map (fun i => from_option f 0 (l !! i)) idx) <= sum_list (map f l).
Proof.
  revert idx. induction l as [|a l IH]; intros idx Hnd.
  - cbn. induction idx; cbn; [done|]. inversion Hnd; subst. auto.
  - assert (Hp : exists rest, NoDup rest /\
        sum_list (map (fun i => from_option f 0 ((a :: l) !! i)) idx)
        <= f a + sum_list (map (fun i => from_option f 0 (l !! i)) rest)).
    { assert (Hs : forall js, 0 ∉ js -> NoDup js -> exists rest, NoDup rest /\ (forall r, r ∈ rest -> S r ∈ js) /\
         sum_list (map (fun i => from_option f 0 ((a :: l) !! i)) js)
         = sum_list (map (fun i => from_option f 0 (l !! i)) rest)).
      { induction js as [|j js IHj]; intros H0 Hn; [exists []; repeat split; [constructor|by intros ? ?%elem_of_nil]|].
        inversion Hn; subst. destruct (IHj) as [rest [H1' [H2' H3']]]; [set_solver|done|].
        destruct j as [|j]; [set_solver|]. exists (j :: rest). split_and!.
        - constructor; [|done]. intros Hin%H2'. done.
        - intros r [->|Hr]%elem_of_cons; [by left|right; auto].
        - cbn [map]. rewrite !sum_cons, H3'. done. }
      destruct (decide (0 ∈ idx)) as [Hin|Hnin].
      - apply elem_of_Permutation in Hin as [js Hjs].
        rewrite Hjs in Hnd. inversion Hnd; subst.
        destruct (Hs js) as [rest [H1' [_ H3']]]; [done..|]. exists rest. split; [done|].
        assert (Hperm : forall x y : list nat, x ≡ₚ y -> sum_list x = sum_list y).
        { induction 1; rewrite ?sum_cons; lia. }
        rewrite (Hperm _ (map (fun i => from_option f 0 ((a :: l) !! i)) (0 :: js)))
          by (by apply fmap_Permutation).
        cbn [map]. rewrite sum_cons, H3'. done.
      - destruct (Hs idx) as [rest [H1' [_ H3']]]; [done..|]. exists rest. split; [done|]. lia. }
    destruct Hp as [rest [Hr Hle]]. specialize (IH rest Hr). cbn [map]. rewrite sum_cons. lia.
Qed.

Lemma as_u32_small n : (N.of_nat n < U32_MAX)%N -> as_u32 n = N.of_nat n.
Proof.
  intros H. unfold as_u32, U32_MAX in *. change (2^32 - 1)%N with (N.ones 32).
  rewrite N.land_ones. apply N.mod_small. lia.
Qed.
Lemma as_u32_has n l : (N.of_nat n < U32_MAX)%N -> meta_has {| m_off := as_u32 n; m_len := l |} = true.
Proof.
  intros H. unfold meta_has. cbn [m_off]. rewrite as_u32_small by done.
  apply negb_true_iff, N.eqb_neq. lia.
Qed.

Lemma bag_new_inv width cap bound : bag_inv width bound (bag_with_capacity width cap) (fun _ => None).
Proof.
  split; cbn [b_slots b_data bag_with_capacity length].
  - apply repeat_length.
  - lia.
  - unfold total_live. cbn [b_slots bag_with_capacity].
    assert (sum_list (map mlive (repeat meta_empty width)) = 0) as ->; [|lia].
    induction width; cbn [repeat map]; rewrite ?sum_cons; done.
  - done.
  - intros s me Hs. apply elem_of_list_lookup_2, elem_of_list_In, repeat_spec in Hs. by subst.
  - intros s t me mt _ Hs _ Hh. apply elem_of_list_lookup_2, elem_of_list_In, repeat_spec in Hs. by subst.
Qed.

Lemma bag_get_inv w bound b m s : bag_inv w bound b m -> s < w -> bag_get b s = Ok (m s).
Proof.
  intros H Hs. unfold bag_get. destruct (b_slots b !! s) as [me|] eqn:E.
  - pose proof (bi_slot _ _ _ _ H s me E) as Hm. destruct (meta_has me); [|by rewrite Hm].
    destruct Hm as [Hle ->]. destruct (Nat.leb_spec (N.to_nat (m_off me) + m_len me) (length (b_data b))); [done|lia].
  - apply lookup_ge_None in E. rewrite (bi_len _ _ _ _ H) in E. lia.
Qed.

(** appending a suffix at the end of the data *)
Lemma append_inv w bound b m s x cap :
  bag_inv w bound b m -> s < w -> (bound + N.of_nat (length x) < U32_MAX)%N ->
  bag_inv w (bound + N.of_nat (length x))
    {| b_slots := <[s := {| m_off := as_u32 (length (b_data b)); m_len := length x |}]> (b_slots b);
       b_data := b_data b ++ x; b_cap := cap |}
    (fun t => if Nat.eqb t s then Some x else m t).
Proof.
  intros H Hs Hb.
  assert (Hd : (N.of_nat (length (b_data b)) < U32_MAX)%N) by (destruct H; lia).
  assert (Hlk : s < length (b_slots b)) by (destruct H; lia).
  split; cbn [b_slots b_data b_cap].
  - rewrite insert_length. apply H.
  - rewrite app_length. destruct H. lia.
  - destruct (lookup_lt_is_Some_2 _ _ Hlk) as [old Hold].
    pose proof (sum_insert mlive _ s old {| m_off := as_u32 (length (b_data b)); m_len := length x |} Hold) as Hsum.
    unfold total_live. cbn [b_slots]. unfold mlive at 4 in Hsum. rewrite as_u32_has in Hsum by done. cbn in Hsum.
    pose proof (bi_live _ _ _ _ H) as HL. unfold total_live in HL. lia.
  - intros t Ht. destruct (Nat.eqb_spec t s); [lia|]. by apply (bi_none _ _ _ _ H).
  - intros t me Ht. destruct (Nat.eqb_spec t s) as [->|Hne].
    + rewrite list_lookup_insert in Ht by done. injection Ht as <-.
      rewrite as_u32_has by done. cbn. rewrite as_u32_small, Nat2N.id, app_length by done. split; [lia|].
      rewrite drop_app, firstn_all. done.
    + rewrite list_lookup_insert_ne in Ht by done.
      pose proof (bi_slot _ _ _ _ H t me Ht) as Hm. destruct (meta_has me); [|done].
      destruct Hm as [Hle ->]. rewrite app_length. split; [lia|].
      rewrite drop_app_le by lia. rewrite take_app_le; [done|]. rewrite drop_length. lia.
  - intros t u mt mu Htu Ht Hu Hht Hhu.
    assert (Hone : forall v mv, v <> s -> b_slots b !! v = Some mv -> meta_has mv = true ->
              N.to_nat (m_off mv) + m_len mv <= length (b_data b)).
    { intros v mv _ Hv Hh. pose proof (bi_slot _ _ _ _ H v mv Hv) as Hm. rewrite Hh in Hm. apply Hm. }
    apply list_lookup_insert_Some in Ht as [(<- & <- & _)|(Hts & Ht)];
      apply list_lookup_insert_Some in Hu as [(<- & <- & _)|(Hus & Hu)]; try done.
    + cbn. rewrite as_u32_small, Nat2N.id by done. right. by apply (Hone u).
    + cbn. rewrite as_u32_small, Nat2N.id by done. left. by apply (Hone t).
    + by apply (bi_disj _ _ _ _ H t u).
Qed.

Lemma inv_mono w b1 b2 b m : bag_inv w b1 b m -> (b1 <= b2)%N -> bag_inv w b2 b m.
Proof. intros [] ?. split; try done; lia. Qed.

Lemma take_drop_overwrite {A} (l x : list A) st o n :
  st + length x <= length l ->
  (o + n <= st \/ st + length x <= o) ->
  take n (drop o (take st l ++ x ++ drop (st + length x) l)) = take n (drop o l).
Proof.
  intros Hl Hd. apply list_eq. intros i.
  destruct (decide (i < n)) as [Hi|Hi]; [|by rewrite !lookup_take_ge by lia].
  rewrite !lookup_take, !lookup_drop by done.
  destruct Hd as [Hd|Hd].
  - rewrite lookup_app_l by (rewrite take_length; lia). by rewrite lookup_take by lia.
  - rewrite lookup_app_r by (rewrite take_length; lia). rewrite take_length.
    rewrite lookup_app_r by lia. rewrite lookup_drop. f_equal. lia.
Qed.

Lemma overwrite_inv w bound b m s x me :
  bag_inv w bound b m -> s < w -> b_slots b !! s = Some me -> meta_has me = true ->
  length x <= m_len me ->
  let start := N.to_nat (m_off me) in
  start + length x <= length (b_data b) /\
  bag_inv w bound
    {| b_slots := <[s := {| m_off := m_off me; m_len := length x |}]> (b_slots b);
       b_data := take start (b_data b) ++ x ++ drop (start + length x) (b_data b); b_cap := b_cap b |}
    (fun t => if Nat.eqb t s then Some x else m t).
Proof.
  intros H Hs Hme Hh Hx start.
  pose proof (bi_slot _ _ _ _ H s me Hme) as Hm. rewrite Hh in Hm. destruct Hm as [Hle Hms].
  assert (Hlk : s < length (b_slots b)) by (by apply lookup_lt_Some in Hme).
  assert (Hlen : length (take start (b_data b) ++ x ++ drop (start + length x) (b_data b)) = length (b_data b)).
  { rewrite !app_length, take_length, drop_length. lia. }
  split; [lia|]. split; cbn [b_slots b_data b_cap].
  - rewrite insert_length. apply H.
  - rewrite Hlen. apply H.
  - pose proof (sum_insert mlive _ s me {| m_off := m_off me; m_len := length x |} Hme) as Hsum.
    pose proof (bi_live _ _ _ _ H) as HL. unfold total_live in *. cbn [b_slots].
    unfold mlive at 2 4 in Hsum. cbn in Hsum.
    change (meta_has {| m_off := m_off me; m_len := length x |}) with (meta_has me) in Hsum.
    rewrite Hh in Hsum. lia.
  - intros t Ht. destruct (Nat.eqb_spec t s); [lia|]. by apply (bi_none _ _ _ _ H).
  - intros t mt Ht. destruct (Nat.eqb_spec t s) as [->|Hne].
    + rewrite list_lookup_insert in Ht by done. injection Ht as <-.
      change (meta_has {| m_off := m_off me; m_len := length x |}) with (meta_has me).
      rewrite Hh. cbn [m_off m_len]. fold start. rewrite Hlen. split; [lia|].
      rewrite drop_app_ge by (rewrite take_length; lia). rewrite take_length.
      replace (start - start `min` length (b_data b)) with 0 by lia. rewrite drop_0.
      rewrite take_app. done.
    + rewrite list_lookup_insert_ne in Ht by done.
      pose proof (bi_slot _ _ _ _ H t mt Ht) as Hm. destruct (meta_has mt) eqn:Hmt; [|done].
      destruct Hm as [Hle' ->]. rewrite Hlen. split; [done|]. f_equal. symmetry.
      apply take_drop_overwrite; [lia|].
      destruct (bi_disj _ _ _ _ H t s mt me) as [Hd|Hd]; try done; unfold start; lia.
  - intros t u mt mu Htu Ht Hu Hht Hhu.
    apply list_lookup_insert_Some in Ht as [(<- & <- & _)|(Hts & Ht)];
      apply list_lookup_insert_Some in Hu as [(<- & <- & _)|(Hus & Hu)]; try done.
    + cbn [m_off m_len].
      destruct (bi_disj _ _ _ _ H s u me mu) as [Hd|Hd]; try done; lia.
    + cbn [m_off m_len].
      destruct (bi_disj _ _ _ _ H t s mt me) as [Hd|Hd]; try done; lia.
    + by apply (bi_disj _ _ _ _ H t u).
Qed.

Lemma clear_inv w bound b m s :
  bag_inv w bound b m -> s < w ->
  bag_inv w bound {| b_slots := <[s := meta_empty]> (b_slots b); b_data := b_data b; b_cap := b_cap b |}
    (fun t => if Nat.eqb t s then None else m t).
Proof.
  intros H Hs. assert (Hlk : s < length (b_slots b)) by (destruct H; lia).
  split; cbn [b_slots b_data b_cap].
  - rewrite insert_length. apply H.
  - apply H.
  - destruct (lookup_lt_is_Some_2 _ _ Hlk) as [old Hold].
    pose proof (sum_insert mlive _ s old meta_empty Hold) as Hsum.
    pose proof (bi_live _ _ _ _ H) as HL. unfold total_live in *. cbn [b_slots].
    change (mlive meta_empty) with 0 in Hsum. lia.
  - intros t Ht. destruct (Nat.eqb_spec t s); [lia|]. by apply (bi_none _ _ _ _ H).
  - intros t mt Ht. destruct (Nat.eqb_spec t s) as [->|Hne].
    + rewrite list_lookup_insert in Ht by done. by injection Ht as <-.
    + rewrite list_lookup_insert_ne in Ht by done. by apply (bi_slot _ _ _ _ H).
  - intros t u mt mu Htu Ht Hu Hht Hhu.
    apply list_lookup_insert_Some in Ht as [(<- & <- & _)|(Hts & Ht)];
      apply list_lookup_insert_Some in Hu as [(<- & <- & _)|(Hus & Hu)]; try done.
    by apply (bi_disj _ _ _ _ H t u).
Qed.

Lemma if_bd {A} (P Q : Prop) `{!Decision P, !Decision Q} (a b : A) :
  (P <-> Q) -> (if bool_decide P then a else b) = (if bool_decide Q then a else b).
Proof. intros H. by rewrite (bool_decide_ext P Q H). Qed.

(** one iteration of compaction keeps the slots not yet copied unchanged *)
Lemma compact_loop_inv w bound b m active : bag_inv w bound b m -> (bound < U32_MAX)%N ->
  forall ns nd cap m0 done_,
  bag_inv w (N.of_nat (length nd)) {| b_slots := ns; b_data := nd; b_cap := cap |} m0 ->
  (forall t, m0 t = if bool_decide (t ∈ done_) then m t else None) ->
  NoDup active -> (forall t, t ∈ active -> t ∉ done_) ->
  (N.of_nat (length nd) + N.of_nat (sum_list (map (live_len b) active)) <= bound)%N ->
  exists b', compact_loop b active ns nd cap = Ok b' /\
    length (b_data b') = length nd + sum_list (map (live_len b) active) /\
    bag_inv w (N.of_nat (length (b_data b'))) b'
      (fun t => if bool_decide (t ∈ done_ ++ active) then m t else None).
Proof.
  intros H HB. induction active as [|s active IH]; intros ns nd cap m0 done_ Hi Hm0 Hnd Hdone Hsum.
  - exists {| b_slots := ns; b_data := nd; b_cap := cap |}. cbn. split; [done|]. split; [lia|].
    assert (Heq : forall t, m0 t = (if bool_decide (t ∈ done_ ++ []) then m t else None)).
    { intros t. rewrite Hm0. by rewrite app_nil_r. }
    destruct Hi as [H1' H2' H3' H4' H5' H6']. split; try done.
    + intros t Ht. rewrite <- Heq. by apply H4'.
    + intros t me Ht. rewrite <- Heq. by apply H5'.
  - cbn [compact_loop map] in *. rewrite sum_cons in Hsum |- *.
    inversion Hnd; subst. unfold live_len at 1 in Hsum.
    assert (Hskip : (forall t, t = s -> m t = None) -> live_len b s = 0 ->
      exists b', compact_loop b active ns nd cap = Ok b' /\
      length (b_data b') = length nd + (live_len b s + sum_list (map (live_len b) active)) /\
      bag_inv w (N.of_nat (length (b_data b'))) b'
        (fun t => if bool_decide (t ∈ done_ ++ s :: active) then m t else None)).
    { intros Hnone Hz. destruct (IH ns nd cap m0 (done_ ++ [s])) as [b' [Hb1 [Hb2 Hb3]]]; try done.
      - intros t. rewrite Hm0. destruct (decide (t = s)) as [->|Hne].
        + rewrite (Hnone s eq_refl). by destruct (bool_decide _), (bool_decide _).
        + apply if_bd. rewrite elem_of_app, elem_of_list_singleton. tauto.
      - intros t Ht. rewrite elem_of_app, elem_of_list_singleton. intros [Hd| ->]; [|done].
        apply (Hdone t); [by right|done].
      - fold (live_len b s) in Hsum. lia.
      - exists b'. split; [done|]. split; [lia|].
        rewrite <- app_assoc in Hb3. done. }
    destruct (b_slots b !! s) as [me|] eqn:Es; cbn [from_option] in Hsum.
    + pose proof (bi_slot _ _ _ _ H s me Es) as Hm. destruct (meta_has me) eqn:Hh.
      * destruct Hm as [Hle Hms].
        destruct (Nat.leb_spec (N.to_nat (m_off me) + m_len me) (length (b_data b))); [|lia].
        set (suf := take (m_len me) (drop (N.to_nat (m_off me)) (b_data b))).
        assert (Hsl : length suf = m_len me) by (unfold suf; rewrite take_length, drop_length; lia).
        assert (Hsw : s < w) by (rewrite <- (bi_len _ _ _ _ H); by apply lookup_lt_Some in Es).
        assert (Hlb : live_len b s = m_len me) by (unfold live_len; by rewrite Es, Hh).
        assert (HHU : (U32_MAX = 4294967295)%N) by done.
        pose proof (append_inv w (N.of_nat (length nd)) {| b_slots := ns; b_data := nd; b_cap := cap |}
          m0 s suf (vec_grow cap (length nd + length suf)) Hi Hsw) as Happ.
        cbn [b_slots b_data] in Happ. rewrite Hsl in Happ.
        specialize (Happ ltac:(lia)).
        destruct (IH (<[s:={| m_off := as_u32 (length nd); m_len := m_len me |}]> ns) (nd ++ suf)
                    (vec_grow cap (length nd + length suf))
                    (fun t => if Nat.eqb t s then Some suf else m0 t) (done_ ++ [s]))
          as [b' [Hb1 [Hb2 Hb3]]]; try done.
        -- rewrite app_length, Hsl, Nat2N.inj_add. exact Happ.
        -- intros t. destruct (Nat.eqb_spec t s) as [->|Hne].
           ++ rewrite bool_decide_true by (rewrite elem_of_app, elem_of_list_singleton; by right). done.
           ++ rewrite Hm0. apply if_bd.
              rewrite elem_of_app, elem_of_list_singleton. tauto.
        -- intros t Ht. rewrite elem_of_app, elem_of_list_singleton. intros [Hd| ->]; [|done].
           apply (Hdone t); [by right|done].
        -- rewrite app_length. lia.
        -- exists b'. split; [done|]. split.
           ++ rewrite Hb2, app_length, Hsl, Hlb. lia.
           ++ rewrite <- app_assoc in Hb3. done.
      * apply Hskip; [by intros t ->|]. unfold live_len. by rewrite Es, Hh.
    + apply Hskip; [|unfold live_len; by rewrite Es]. intros t ->.
      apply (bi_none _ _ _ _ H). rewrite <- (bi_len _ _ _ _ H). by apply lookup_ge_None.
Qed.

Lemma compact_inv w bound b m active : bag_inv w bound b m -> (bound < U32_MAX)%N -> NoDup active ->
  exists b', bag_compact b active = Ok (length (b_data b) - length (b_data b'), b') /\
    length (b_data b') = sum_list (map (live_len b) active) /\
    bag_inv w bound b' (fun t => if bool_decide (t ∈ active) then m t else None).
Proof.
  intros H HB Hnd. unfold bag_compact. rewrite (bi_len _ _ _ _ H).
  pose proof (bag_new_inv w (Nat.max (N.to_nat (2 ^ N.log2_up (N.of_nat (sum_list (map (live_len b) active))))) INITIAL_CAPACITY) 0) as Hnew.
  assert (Hle : (N.of_nat (sum_list (map (live_len b) active)) <= bound)%N).
  { pose proof (sum_nodup_le mlive (b_slots b) active Hnd) as Hs.
    pose proof (bi_live _ _ _ _ H) as HL. unfold total_live in HL.
    assert (map (live_len b) active = map (fun i => from_option mlive 0 (b_slots b !! i)) active) as ->
      by (apply map_ext; intros; apply live_len_mlive). lia. }
  destruct (compact_loop_inv w bound b m active H HB (repeat meta_empty w) [] _ _ [] Hnew) as [b' [H1' [H2' H3']]]; try done.
  - set_solver.
  - rewrite H1'. cbn [res_bind]. exists b'. split; [done|]. split; [done|].
    eapply inv_mono; [exact H3'|]. cbn in H2'. lia.
Qed.

Lemma clone_inv w bound b m : bag_inv w bound b m -> bag_inv w bound (bag_clone b) m.
Proof. intros []. by split. Qed.

Lemma run1_inv w bound b m o :
  bag_inv w bound b m -> op_in_range w o ->
  (bound + bytes_written [o] < U32_MAX)%N ->
  exists ok b', bag_run1 b o = Ok (ok, b') /\ bag_inv w (bound + bytes_written [o]) b' (smap_run1 m o ok).
Proof.
  intros H Hr HB. unfold bytes_written in *. cbn [map fold_right] in *.
  destruct o as [s x|s x|s|l|]; cbn [bag_run1 op_in_range smap_run1] in *.
  - destruct Hr as [Hs Hx]. unfold bag_assign, U16_MAX.
    destruct (N.ltb_spec 65535 (N.of_nat (length x))); [lia|].
    assert (Hlk : s < length (b_slots b)) by (destruct H; lia).
    destruct (lookup_lt_is_Some_2 _ _ Hlk) as [old Hold]. rewrite Hold. cbn [res_bind].
    do 2 eexists. split; [done|]. rewrite N.add_0_r in *. apply append_inv; done.
  - destruct Hr as [Hs Hx]. unfold bag_try_assign, U16_MAX.
    destruct (N.ltb_spec 65535 (N.of_nat (length x))); [lia|].
    assert (Hlk : s < length (b_slots b)) by (destruct H; lia).
    destruct (lookup_lt_is_Some_2 _ _ Hlk) as [old Hold]. rewrite Hold. rewrite N.add_0_r in *.
    destruct (meta_has old) eqn:Hh; cbn [andb]; [destruct (Nat.leb_spec (length x) (m_len old))|].
    + destruct (overwrite_inv w bound b m s x old H Hs Hold Hh ltac:(done)) as [Hle Hi].
      destruct (Nat.leb_spec (N.to_nat (m_off old) + length x) (length (b_data b))); [|lia].
      do 2 eexists. split; [done|]. eapply inv_mono; [exact Hi|lia].
    + destruct (Nat.leb_spec (length (b_data b) + length x) (b_cap b)); do 2 eexists; (split; [done|]).
      * apply append_inv; done.
      * eapply inv_mono; [exact H|lia].
    + destruct (Nat.leb_spec (length (b_data b) + length x) (b_cap b)); do 2 eexists; (split; [done|]).
      * apply append_inv; done.
      * eapply inv_mono; [exact H|lia].
  - unfold bag_clear. assert (Hlk : s < length (b_slots b)) by (destruct H; lia).
    destruct (lookup_lt_is_Some_2 _ _ Hlk) as [old Hold]. rewrite Hold. cbn [res_bind].
    do 2 eexists. split; [done|]. rewrite N.add_0_r. by apply clear_inv.
  - destruct (compact_inv w bound b m l H ltac:(lia) Hr) as [b' [H1' [_ H3']]].
    rewrite H1'. cbn. do 2 eexists. split; [done|]. by rewrite N.add_0_r.
  - do 2 eexists. split; [done|]. rewrite N.add_0_r. by apply clone_inv.
Qed.

Lemma run_inv w l : forall bound b m,
  bag_inv w bound b m -> Forall (op_in_range w) l -> (bound + bytes_written l < U32_MAX)%N ->
  exists b' m', bag_run b m l = Ok (b', m') /\ bag_inv w (bound + bytes_written l) b' m'.
Proof.
  induction l as [|o l IH]; intros bound b m H Hl HB.
  - exists b, m. split; [done|]. cbn. by rewrite N.add_0_r.
  - inversion Hl; subst.
    assert (Hbw : bytes_written (o :: l) = (bytes_written [o] + bytes_written l)%N)
      by (unfold bytes_written; cbn; lia).
    rewrite Hbw in HB |- *.
    destruct (run1_inv w bound b m o H) as [ok [b' [H1' H2']]]; [done|lia|].
    cbn [bag_run]. rewrite H1'. destruct (IH _ _ _ H2') as [b'' [m'' [H3' H4']]]; [done|lia|].
    exists b'', m''. split; [done|]. by rewrite N.add_assoc.
Qed.

Lemma faithful w cap l :
  Forall (op_in_range w) l -> (bytes_written l < 2^32 - 1)%N ->
  exists b m, bag_run (bag_with_capacity w cap) (fun _ => None) l = Ok (b, m) /\
    forall s, s < w -> bag_get b s = Ok (m s).
Proof.
  intros Hl HB. destruct (run_inv w l 0 _ _ (bag_new_inv w cap 0) Hl) as [b [m [H1' H2']]]; [done|].
  exists b, m. split; [done|]. intros s Hs. eapply bag_get_inv; done.
Qed.

Lemma live_len_get w bound b m s : bag_inv w bound b m ->
  live_len b s = match m s with Some x => length x | None => 0 end.
Proof.
  intros H. unfold live_len. destruct (b_slots b !! s) as [me|] eqn:E.
  - pose proof (bi_slot _ _ _ _ H s me E) as Hm. destruct (meta_has me).
    + destruct Hm as [Hle ->]. rewrite take_length, drop_length. lia.
    + by rewrite Hm.
  - apply lookup_ge_None in E. rewrite (bi_len _ _ _ _ H) in E.
    by rewrite (bi_none _ _ _ _ H).
Qed.

Lemma compact_faithful w cap l active :
  Forall (op_in_range w) l -> (bytes_written l < 2^32 - 1)%N -> NoDup active ->
  forall b m, bag_run (bag_with_capacity w cap) (fun _ => None) l = Ok (b, m) ->
  exists b', bag_compact b active = Ok (bag_used b - bag_used b', b') /\
    (forall s, s < w -> bag_get b' s = Ok (if bool_decide (s ∈ active) then m s else None)) /\
    bag_used b' = sum_list (map (fun s => match m s with Some x => length x | None => 0 end) active).
Proof.
  intros Hl HB Hnd b m Hrun.
  destruct (run_inv w l 0 _ _ (bag_new_inv w cap 0) Hl) as [b1 [m1 [H1' H2']]]; [done|].
  rewrite H1' in Hrun. injection Hrun as -> ->.
  destruct (compact_inv w _ b m active H2' ltac:(done) Hnd) as [b' [H3' [H4' H5']]].
  exists b'. split; [done|]. split.
  - intros s Hs. eapply (bag_get_inv w _ b' _ s H5' Hs).
  - unfold bag_used. rewrite H4'. f_equal. apply map_ext. intros s. eapply live_len_get; done.
Qed.

Lemma compact_with_faithful w cap l active exclude :
  Forall (op_in_range w) l -> (bytes_written l < 2^32 - 1)%N -> NoDup active ->
  forall b m, bag_run (bag_with_capacity w cap) (fun _ => None) l = Ok (b, m) ->
  exists n b', bag_compact_with b active exclude = Ok (n, b') /\
    forall s, s < w -> bag_get b' s = Ok (if bool_decide (s ∈ active /\ exclude <> Some s) then m s else None).
Proof.
  intros Hl HB Hnd b m Hrun. unfold bag_compact_with.
  destruct (compact_faithful w cap l (filter (fun s => Some s <> exclude) active) Hl HB) with (b := b) (m := m)
    as (b' & H1 & H2 & _); [by apply NoDup_filter|done|].
  eexists _, b'. split; [exact H1|]. intros s Hs. rewrite (H2 s Hs). f_equal. apply if_bd.
  rewrite elem_of_list_filter. split; intros [H3 H4]; (split; [done|congruence]).
Qed.

(** ** the other accessors *)
Lemma bag_has_inv w bound b m s : bag_inv w bound b m -> s < w ->
  bag_has b s = Ok (match m s with Some _ => true | None => false end).
Proof.
  intros H Hs. unfold bag_has. assert (Hlk : s < length (b_slots b)) by (destruct H; lia).
  destruct (lookup_lt_is_Some_2 _ _ Hlk) as [me Hme]. rewrite Hme.
  pose proof (bi_slot _ _ _ _ H s me Hme) as Hm. destruct (meta_has me); [destruct Hm as [_ ->]|rewrite Hm]; done.
Qed.
Lemma count_slots (m : smap) (l : list meta) : forall o,
  (forall s me, l !! s = Some me -> meta_has me = match m (o + s) with Some _ => true | None => false end) ->
  length (filter (fun me => meta_has me = true) l)
  = length (filter (fun s => m s <> None) (seq o (length l))).
Proof.
  induction l as [|me l IH]; intros o H; [done|]. cbn [length seq]. rewrite !filter_cons.
  pose proof (H 0 me eq_refl) as H0. rewrite Nat.add_0_r in H0. rewrite H0.
  assert (IH' : length (filter (fun me => meta_has me = true) l)
                = length (filter (fun s => m s <> None) (seq (S o) (length l)))).
  { apply IH. intros s me' Hs. specialize (H (S s) me' Hs). by rewrite <- Nat.add_succ_comm in H. }
  destruct (m o); repeat case_decide; try done; cbn [length]; by rewrite IH'.
Qed.
Lemma bag_count_inv w bound b m : bag_inv w bound b m ->
  bag_count b = length (filter (fun s => m s <> None) (seq 0 w)).
Proof.
  intros H. unfold bag_count. rewrite <- (bi_len _ _ _ _ H). apply count_slots. intros s me Hs.
  pose proof (bi_slot _ _ _ _ H s me Hs) as Hm. cbn [Nat.add].
  destruct (meta_has me); [destruct Hm as [_ ->]|rewrite Hm]; done.
Qed.
Lemma bytes_cmp_lex a : forall b, bytes_cmp a b = lex a b.
Proof. induction a as [|x a IH]; intros [|y b]; cbn; done. Qed.
Lemma accessors w cap l :
  Forall (op_in_range w) l -> (bytes_written l < 2^32 - 1)%N ->
  forall b m, bag_run (bag_with_capacity w cap) (fun _ => None) l = Ok (b, m) ->
  bag_count b = length (filter (fun s => m s <> None) (seq 0 w)) /\
  forall s, s < w ->
    bag_has b s = Ok (match m s with Some _ => true | None => false end) /\
    bag_get_or_empty b s = Ok (match m s with Some x => x | None => [] end) /\
    (forall x, bag_equals b s x = Ok (bool_decide (m s = Some x))) /\
    (forall x, bag_compare b s x = Ok (match m s with Some y => Some (lex y x) | None => None end)).
Proof.
  intros Hl HB b m Hrun. destruct (run_inv w l 0 _ _ (bag_new_inv w cap 0) Hl) as [b1 [m1 [H1 H2]]]; [done|].
  rewrite H1 in Hrun. injection Hrun as -> ->. split; [by eapply bag_count_inv|].
  intros s Hs. split; [by eapply bag_has_inv|].
  unfold bag_get_or_empty, bag_equals, bag_compare. rewrite (bag_get_inv _ _ _ _ _ H2 Hs). cbn [res_bind].
  split; [by destruct (m s)|]. split.
  - intros x. f_equal. destruct (m s) as [y|].
    + apply bool_decide_ext. split; congruence.
    + symmetry. by apply bool_decide_eq_false.
  - intros x. destruct (m s); cbn; [by rewrite bytes_cmp_lex|done].
Qed.

(** ** in-place assignment never reallocates *)
Definition fits (b : bag) : Prop := length (b_data b) <= b_cap b.
Lemma grow_ge cap n : n <= vec_grow cap n.
Proof. unfold vec_grow. destruct (Nat.leb_spec n cap); lia. Qed.
Lemma compact_loop_fits b active : forall ns nd cap b', length nd <= cap ->
  compact_loop b active ns nd cap = Ok b' -> fits b'.
Proof.
  induction active as [|a act IH]; cbn [compact_loop]; intros ns nd cap b' Hc H.
  - injection H as <-. exact Hc.
  - destruct (b_slots b !! a) as [me|]; [|eauto]. destruct (meta_has me); [|eauto].
    destruct (Nat.leb _ _); [|done]. eapply IH; [|exact H]. rewrite app_length. apply grow_ge.
Qed.
Lemma try_fits b s x ok b' : fits b -> bag_try_assign b s x = Ok (ok, b') ->
  fits b' /\ b_cap b' = b_cap b.
Proof.
  unfold fits, bag_try_assign. intros Hf H. destruct (N.ltb _ _); [done|].
  destruct (b_slots b !! s) as [me|]; [|done]. destruct (meta_has me && _) eqn:E.
  - destruct (Nat.leb_spec (N.to_nat (m_off me) + length x) (length (b_data b))); [|done].
    injection H as <- <-. cbn [b_data b_cap]. rewrite !app_length, take_length, drop_length. split; [lia|done].
  - destruct (Nat.leb_spec (length (b_data b) + length x) (b_cap b)); injection H as <- <-; [|done].
    cbn [b_data b_cap]. rewrite app_length. done.
Qed.
Lemma run1_fits b o ok b' : fits b -> bag_run1 b o = Ok (ok, b') -> fits b'.
Proof.
  intros Hf H. destruct o as [s x|s x|s|act| ]; cbn [bag_run1] in H.
  - unfold bag_assign in H. destruct (N.ltb _ _); [done|]. destruct (b_slots b !! s); [|done].
    injection H as <- <-. unfold fits. cbn [b_data b_cap]. rewrite app_length. apply grow_ge.
  - by eapply try_fits.
  - unfold bag_clear in H. destruct (b_slots b !! s); [|done]. by injection H as <- <-.
  - unfold bag_compact in H. destruct (compact_loop _ _ _ _ _) as [b1|] eqn:E; [|done].
    injection H as <- <-. eapply compact_loop_fits; [|exact E]. cbn. lia.
  - injection H as <- <-. unfold fits. cbn. done.
Qed.
Lemma run_fits l : forall b m b' m', fits b -> bag_run b m l = Ok (b', m') -> fits b'.
Proof.
  induction l as [|o l IH]; intros b m b' m' Hf H; cbn [bag_run] in H.
  - by injection H as <- _.
  - destruct (bag_run1 b o) as [[ok b1]|] eqn:E; [|done]. eapply IH; [|exact H]. by eapply run1_fits.
Qed.
Lemma try_assign_spec w cap l s x :
  Forall (op_in_range w) l -> (bytes_written (l ++ [BTry s x]) < 2^32 - 1)%N -> op_in_range w (BTry s x) ->
  forall b m, bag_run (bag_with_capacity w cap) (fun _ => None) l = Ok (b, m) ->
  exists ok b', bag_try_assign b s x = Ok (ok, b') /\
    b_cap b' = b_cap b /\ bag_used b' <= b_cap b /\
    (ok = true <-> (exists y, m s = Some y /\ length x <= length y) \/ bag_used b + length x <= b_cap b) /\
    (ok = false -> b' = b) /\ (ok = true -> bag_get b' s = Ok (Some x)) /\
    forall t, t < w -> t <> s -> b_slots b' !! t = b_slots b !! t /\ bag_get b' t = bag_get b t.
Proof.
  intros Hl HB Hr b m Hrun.
  assert (Hbw : bytes_written (l ++ [BTry s x]) = (bytes_written l + N.of_nat (length x))%N).
  { unfold bytes_written. rewrite map_app, fold_right_app. cbn [map fold_right]. rewrite N.add_0_r.
    clear. induction l as [|o l IH]; cbn [map fold_right]; [lia|]. rewrite IH. lia. }
  rewrite Hbw in HB.
  destruct (run_inv w l 0 _ _ (bag_new_inv w cap 0) Hl) as [b1 [m1 [H1 H2]]]; [unfold U32_MAX; lia|].
  rewrite H1 in Hrun. injection Hrun as -> ->.
  assert (Hf : fits b).
  { eapply run_fits; [|exact H1]. unfold fits. cbn. lia. }
  destruct (run1_inv w _ b m (BTry s x) H2 Hr) as (ok & b' & E & H3).
  { unfold bytes_written. cbn [map fold_right]. unfold U32_MAX. fold (bytes_written l). lia. }
  cbn [bag_run1] in E. exists ok, b'. split; [done|].
  destruct (try_fits _ _ _ _ _ Hf E) as [F1 F2]. split; [done|]. split; [unfold fits in F1; unfold bag_used; lia|].
  destruct Hr as [Hs Hx].
  assert (Hlk : s < length (b_slots b)) by (destruct H2; lia).
  destruct (lookup_lt_is_Some_2 _ _ Hlk) as [me Hme].
  pose proof (bi_slot _ _ _ _ H2 s me Hme) as Hm.
  assert (Hgets : forall t, t < w -> bag_get b' t = Ok (smap_run1 m (BTry s x) ok t)).
  { intros t Ht. by eapply bag_get_inv. }
  assert (Hsl : forall t, t <> s -> b_slots b' !! t = b_slots b !! t).
  { intros t Ht. unfold bag_try_assign in E. destruct (N.ltb _ _); [done|]. rewrite Hme in E.
    destruct (meta_has me && _).
    - destruct (Nat.leb (N.to_nat (m_off me) + length x) (length (b_data b))); [|done].
      injection E as <- <-. cbn [b_slots]. by rewrite list_lookup_insert_ne.
    - destruct (Nat.leb (length (b_data b) + length x) (b_cap b)); injection E as <- <-; [|done].
      cbn [b_slots]. by rewrite list_lookup_insert_ne. }
  split; [|split; [|split]].
  - unfold bag_try_assign in E. destruct (N.ltb_spec U16_MAX (N.of_nat (length x))); [done|]. rewrite Hme in E.
    unfold bag_used. destruct (meta_has me) eqn:Hh; cbn [andb] in E.
    + destruct Hm as [Hle Hms].
      assert (Hly : forall y, m s = Some y -> length y = m_len me).
      { intros y Hy. rewrite Hms in Hy. injection Hy as <-. rewrite take_length, drop_length. lia. }
      destruct (Nat.leb_spec (length x) (m_len me)).
      * destruct (Nat.leb_spec (N.to_nat (m_off me) + length x) (length (b_data b))); [|done].
        injection E as <- <-. split; [|done]. intros _. left. eexists. split; [exact Hms|].
        by rewrite (Hly _ Hms).
      * destruct (Nat.leb_spec (length (b_data b) + length x) (b_cap b)); injection E as <- <-.
        -- split; [|done]. intros _. by right.
        -- split; [done|]. intros [(y & Hy & Hle')|]; [rewrite (Hly _ Hy) in Hle'|]; lia.
    + destruct (Nat.leb_spec (length (b_data b) + length x) (b_cap b)); injection E as <- <-.
      * split; [|done]. intros _. by right.
      * split; [done|]. intros [(y & Hy & Hle')|]; [congruence|lia].
  - intros ->. unfold bag_try_assign in E. destruct (N.ltb _ _); [done|]. rewrite Hme in E.
    destruct (meta_has me && _); repeat (destruct (Nat.leb _ _)); congruence.
  - intros ->. rewrite (Hgets s Hs). cbn [smap_run1]. by rewrite Nat.eqb_refl.
  - intros t Ht Hne. split; [by apply Hsl|]. rewrite (Hgets t Ht), (bag_get_inv _ _ _ _ _ H2 Ht). f_equal.
    cbn [smap_run1]. destruct ok; [|done]. destruct (Nat.eqb_spec t s); [done|done].
Qed.

(** a bag filled by appending [n] bytes at a time beyond 4 GiB mixes up offsets:
    the offset cast wraps *)
Lemma offset_wraps n : (N.of_nat n = 2^32)%N -> as_u32 n = 0%N.
Proof. intros H. unfold as_u32. rewrite H. reflexivity. Qed.

Lemma repeat_len {A} (x : A) n : length (repeat x n) = n.
Proof. apply repeat_length. Qed.
Lemma fill_run x n : (N.of_nat (length x) <= 65535)%N -> forall b m,
  length (b_slots b) = 2 ->
  exists b' m', bag_run b m (repeat (BAssign 0 x) n) = Ok (b', m') /\ length (b_slots b') = 2 /\
    N.of_nat (length (b_data b')) = (N.of_nat (length (b_data b)) + N.of_nat n * N.of_nat (length x))%N.
Proof.
  intros Hx. induction n as [|n IH]; intros b m Hb.
  - exists b, m. split; [done|]. split; [done|]. lia.
  - cbn [repeat bag_run bag_run1]. unfold bag_assign, U16_MAX.
    destruct (N.ltb_spec 65535 (N.of_nat (length x))); [lia|].
    destruct (b_slots b) as [|m0 [|m1 [|]]] eqn:E; try done. cbn [lookup list_lookup res_bind].
    destruct (IH {| b_slots := <[0:={| m_off := as_u32 (length (b_data b)); m_len := length x |}]> [m0; m1];
                    b_data := b_data b ++ x;
                    b_cap := vec_grow (b_cap b) (length (b_data b) + length x) |}
                 (smap_run1 m (BAssign 0 x) true) ltac:(done)) as [b' [m' [H1' [H2' H3']]]].
    exists b', m'. split; [done|]. split; [done|]. rewrite H3'. cbn [b_data]. rewrite app_length. lia.
Qed.
Lemma beyond_aux (x : bytes) n : N.of_nat (length x) = 65535%N -> N.of_nat n = 65537%N ->
  exists l b m, Forall (op_in_range 2) l /\
    bag_run (bag_new 2) (fun _ => None) l = Ok (b, m) /\
    m 1 = Some [7%N] /\ bag_get b 1 = Ok None.
Proof.
  intros Hx Hn.
  destruct (fill_run x n ltac:(lia) (bag_new 2) (fun _ => None) ltac:(done)) as [b [m [H1' [H2' H3']]]].
  rewrite Hx, Hn in H3'. cbn [b_data bag_new bag_with_capacity length] in H3'.
  assert (Hbl : as_u32 (length (b_data b)) = U32_MAX).
  { unfold as_u32. rewrite H3'. reflexivity. }
  destruct (b_slots b) as [|m0 [|m1 [|]]] eqn:E; try done.
  exists (repeat (BAssign 0 x) n ++ [BAssign 1 [7%N]]).
  exists {| b_slots := [m0; {| m_off := U32_MAX; m_len := 1 |}]; b_data := b_data b ++ [7%N];
            b_cap := vec_grow (b_cap b) (length (b_data b) + 1) |}.
  exists (smap_run1 m (BAssign 1 [7%N]) true).
  split; [|split; [|split]].
  - apply Forall_app. split.
    + apply Forall_forall. intros o Ho%elem_of_list_In%repeat_spec. subst o.
      cbn [op_in_range]. split; lia.
    + constructor; [|constructor]. cbn. lia.
  - assert (Happ : forall l1 b0 m0 l2 b1 m1, bag_run b0 m0 l1 = Ok (b1, m1) ->
        bag_run b0 m0 (l1 ++ l2) = bag_run b1 m1 l2).
    { clear. induction l1 as [|o l1 IH]; intros b0 m0 l2 b1 m1; cbn [bag_run app].
      - by intros [= -> ->].
      - destruct (bag_run1 b0 o) as [[ok b']|]; [|done]. apply IH. }
    rewrite (Happ _ _ _ _ _ _ H1'). cbn [bag_run bag_run1]. unfold bag_assign.
    rewrite E. cbn [lookup list_lookup]. rewrite Hbl. reflexivity.
  - reflexivity.
  - reflexivity.
Qed.
Lemma exists_list_length n : exists x : bytes, N.of_nat (length x) = n.
Proof. exists (repeat 0%N (N.to_nat n)). rewrite repeat_len. apply N2Nat.id. Qed.
Lemma exists_nat n : exists x : nat, N.of_nat x = n.
Proof. exists (N.to_nat n). apply N2Nat.id. Qed.
Lemma beyond_4GiB :
  exists l b m, Forall (op_in_range 2) l /\
    bag_run (bag_new 2) (fun _ => None) l = Ok (b, m) /\
    m 1 = Some [7%N] /\ bag_get b 1 = Ok None.
Proof.
  destruct (exists_list_length 65535) as [x Hx]. destruct (exists_nat 65537) as [n Hn].
  exact (beyond_aux x n Hx Hn).
Qed.
