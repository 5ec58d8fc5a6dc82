(** The order in which an insertion brings its value, puts it in the place of another, and
    gives that one up; a refinement of ConcVal.v's account of what calls do with values. *)
From Verif Require Import Base Perm Key Suffix Prog Version Mem Tree SpecTree SpecLin SpecConc ConcVar ConcVal.

(** handle [hd] is in slot [s] of the leaf [p] *)
Definition slot_in (m : mem) (p : N) (s : nat) (hd : N) : Prop := exists l, heap m !! p = Some (NLeaf l) /\ l_val l !! s = Some hd.
(** no slot of a leaf changes *)
Definition slotless {R} (f : mem -> res (R * mem)) : Prop := forall m r m', f m = Ok (r, m') ->
  forall p s hd, slot_in m' p s hd <-> slot_in m p s hd.

(** the value of the call: not yet in memory; in its hands, to replace another; put over the
    value [y] at [ho], which is then given up; on its way into a free slot *)
Inductive phase := PNone | PHeld (h : N) | PPut (h ho y : N) | PGone (h ho y : N) | PPlaced (h : N).
Record did := E { esn : list N; erd : list (N * N); eph : phase }.
Definition pending (d : did) : Prop := match eph d with PPut _ _ _ => True | _ => False end.
(** the value of the call has taken the place of another *)
Definition late (d : did) : Prop := match eph d with PPut _ _ _ | PGone _ _ _ => True | _ => False end.
Lemma late_pend d : ~ late d -> ~ pending d. Proof. unfold late, pending. destruct (eph d); tauto. Qed.
Definition esee (h : N) (d : did) : did := E (h :: esn d) (erd d) (eph d).
Definition eat (ph : phase) (d : did) : did := E (esn d) (erd d) ph.
Fixpoint goes {A} (v : option N) (d : did) (p : P A) (Q : did -> A -> Prop) : Prop :=
  match p with
  | Ret a => ~ pending d /\ Q d a
  | Fail e => late d -> e = Panic
  | @Step _ _ R f k =>
      match eph d with
      | PNone =>
          (quietly f /\ forall r, goes v d (k r) Q) \/
          (exists out : R -> N, reads_slot f out /\ forall r, goes v (esee (out r) d) (k r) Q) \/
          (exists h out, reads_val f h out /\ h ∈ esn d /\ h <> 0%N /\
             forall r, goes v (E (esn d) ((h, out r) :: erd d) (eph d)) (k r) Q) \/
          (exists x out, v = Some x /\ brings f x /\ slotless f /\ (forall m r m', f m = Ok (r, m') -> out r = nxt m) /\
             ((forall r, goes v (eat (PHeld (out r)) d) (k r) Q) \/ (forall r, goes v (eat (PPlaced (out r)) d) (k r) Q)))
      | PHeld h =>
          (quietly f /\ slotless f /\ forall r, goes v d (k r) Q) \/
          (quietly f /\ exists ho y, (ho, y) ∈ erd d /\ forall r, goes v (eat (PPut h ho y) d) (k r) Q)
      | PPut h ho y =>
          (quietly f /\ slotless f /\ forall r, goes v d (k r) Q) \/
          (gives_up f ho /\ slotless f /\ forall r, goes v (eat (PGone h ho y) d) (k r) Q)
      | PGone _ _ _ | PPlaced _ => quietly f /\ forall r, goes v d (k r) Q
      end
  end.
Lemma goes_bind {A B} v d (p : P A) (f : A -> P B) Q : goes v d p (fun d a => goes v d (f a) Q) -> goes v d (bind p f) Q.
Proof.
  revert d. induction p as [a|e|R g k IH]; intros d; [by intros [_ H]|done|]. cbn [goes bind]. destruct (eph d) as [|h|h ho y|h ho y|h].
  - intros [[H1 H2]|[(o & H1 & H2)|[(h & o & H1 & H2 & H3 & H4)|(x & o & H1 & H2 & H3 & H4 & [H5|H5])]]].
    + left. split; [done|]. intros r. by apply IH.
    + right. left. exists o. split; [done|]. intros r. by apply IH.
    + right. right. left. exists h, o. repeat (split; [done|]). intros r. by apply IH.
    + right. right. right. exists x, o. repeat (split; [done|]). left. intros r. by apply IH.
    + right. right. right. exists x, o. repeat (split; [done|]). right. intros r. by apply IH.
  - intros [(H1 & H2 & H3)|(H1 & ho & y & H2 & H3)].
    + left. split; [done|]. split; [done|]. intros r. by apply IH.
    + right. split; [done|]. exists ho, y. split; [done|]. intros r. by apply IH.
  - intros [(H1 & H2 & H3)|(H1 & H2 & H3)].
    + left. split; [done|]. split; [done|]. intros r. by apply IH.
    + right. split; [done|]. split; [done|]. intros r. by apply IH.
  - intros (H1 & H2). split; [done|]. intros r. by apply IH.
  - intros (H1 & H2). split; [done|]. intros r. by apply IH.
Qed.
Lemma goes_end {A B} v d (p : P A) (f : A -> P B) Q : goes v d p (fun d a => ~ pending d -> goes v d (f a) Q) -> goes v d (bind p f) Q.
Proof.
  intros H. apply goes_bind. revert d H. induction p as [a|e|R g k IH]; intros d; [by intros [Hn H]; split; [|apply H]|done|]. cbn [goes bind].
  destruct (eph d) as [|h|h ho y|h ho y|h].
  - intros [[H1 H2]|[(o & H1 & H2)|[(h & o & H1 & H2 & H3 & H4)|(x & o & H1 & H2 & H3 & H4 & [H5|H5])]]].
    + left. split; [done|]. intros r. by apply IH.
    + right. left. exists o. split; [done|]. intros r. by apply IH.
    + right. right. left. exists h, o. repeat (split; [done|]). intros r. by apply IH.
    + right. right. right. exists x, o. repeat (split; [done|]). left. intros r. by apply IH.
    + right. right. right. exists x, o. repeat (split; [done|]). right. intros r. by apply IH.
  - intros [(H1 & H2 & H3)|(H1 & ho & y & H2 & H3)].
    + left. split; [done|]. split; [done|]. intros r. by apply IH.
    + right. split; [done|]. exists ho, y. split; [done|]. intros r. by apply IH.
  - intros [(H1 & H2 & H3)|(H1 & H2 & H3)].
    + left. split; [done|]. split; [done|]. intros r. by apply IH.
    + right. split; [done|]. split; [done|]. intros r. by apply IH.
  - intros (H1 & H2). split; [done|]. intros r. by apply IH.
  - intros (H1 & H2). split; [done|]. intros r. by apply IH.
Qed.
Lemma goes_mono {A} v d (p : P A) (Q Q' : did -> A -> Prop) : goes v d p Q -> (forall d a, Q d a -> Q' d a) -> goes v d p Q'.
Proof.
  intros H HQ. revert d H. induction p as [a|e|R g k IH]; intros d; [intros [? ?]; split; auto|done|]. cbn [goes]. destruct (eph d) as [|h|h ho y|h ho y|h].
  - intros [[H1 H2]|[(o & H1 & H2)|[(h & o & H1 & H2 & H3 & H4)|(x & o & H1 & H2 & H3 & H4 & [H5|H5])]]].
    + left. split; [done|]. intros r. by apply IH.
    + right. left. exists o. split; [done|]. intros r. by apply IH.
    + right. right. left. exists h, o. repeat (split; [done|]). intros r. by apply IH.
    + right. right. right. exists x, o. repeat (split; [done|]). left. intros r. by apply IH.
    + right. right. right. exists x, o. repeat (split; [done|]). right. intros r. by apply IH.
  - intros [(H1 & H2 & H3)|(H1 & ho & y & H2 & H3)].
    + left. split; [done|]. split; [done|]. intros r. by apply IH.
    + right. split; [done|]. exists ho, y. split; [done|]. intros r. by apply IH.
  - intros [(H1 & H2 & H3)|(H1 & H2 & H3)].
    + left. split; [done|]. split; [done|]. intros r. by apply IH.
    + right. split; [done|]. split; [done|]. intros r. by apply IH.
  - intros (H1 & H2). split; [done|]. intros r. by apply IH.
  - intros (H1 & H2). split; [done|]. intros r. by apply IH.
Qed.
(** the call has not brought its value, or not to replace another *)
Definition easy (d : did) : Prop := match eph d with PNone | PPlaced _ => True | _ => False end.
Lemma easy_late d : easy d -> ~ late d.
Proof. unfold easy, late. destruct (eph d); tauto. Qed.
Lemma easy_pend d : easy d -> ~ pending d.
Proof. intros H. by apply late_pend, easy_late. Qed.
Lemma goes_still {A} v d (p : P A) (Q : did -> A -> Prop) : still p -> easy d -> (forall a, Q d a) -> goes v d p Q.
Proof.
  intros H Hd HQ. pose proof (easy_late _ Hd) as Hp. induction p as [a|e|R g k IH]; [split; [by apply late_pend|by apply HQ]|by intros Hx; destruct (Hp Hx)|]. destruct H as [H1 H2]. cbn [goes].
  unfold easy in Hd. destruct (eph d) as [|h|h ho y|h ho y|h] eqn:Ep; try done; [left|..]; (split; [done|]); intros r; by apply IH.
Qed.
(** accesses to versions only *)
Fixpoint calm {A} (p : P A) : Prop :=
  match p with
  | Step f k => quietly f /\ slotless f /\ forall r, calm (k r)
  | Fail e => e = Panic
  | Ret _ => True
  end.
Lemma calm_bind {A B} (p : P A) (f : A -> P B) : calm p -> (forall a, calm (f a)) -> calm (bind p f).
Proof. induction p as [a|e|R h k IH]; cbn; [auto|done|]. intros (H1 & H2 & H3) Hf. split; [done|]. split; [done|]. intros r. by apply IH. Qed.
Lemma goes_calm {A} v d (p : P A) (Q : did -> A -> Prop) : calm p -> ~ pending d -> (forall a, Q d a) -> goes v d p Q.
Proof.
  intros H Hp HQ. induction p as [a|e|R g k IH]; [split; [exact Hp|by apply HQ]|by intros Hx|]. destruct H as (H1 & H2 & H3). cbn [goes].
  destruct (eph d) as [|h|h ho y|h ho y|h] eqn:Ep; [left| left |left|..]; (split; [done|]); try (split; [done|]); intros r; by apply IH.
Qed.
(** the same in the middle of a program *)
Lemma goes_calm_bind {A B} v d (p : P A) (f : A -> P B) (Q : did -> B -> Prop) : calm p -> (forall a, goes v d (f a) Q) -> goes v d (bind p f) Q.
Proof.
  intros H HQ. induction p as [a|e|R g k IH]; [apply HQ|by intros Hx|]. destruct H as (H1 & H2 & H3). cbn [goes bind].
  destruct (eph d) as [|h|h ho y|h ho y|h] eqn:Ep; [left| left |left|..]; (split; [done|]); try (split; [done|]); intros r; by apply IH.
Qed.
Lemma slotless_same {R} (f : mem -> res (R * mem)) : (forall m r m', f m = Ok (r, m') -> heap m' = heap m) -> slotless f.
Proof. intros H m r m' E p s hd. unfold slot_in. by rewrite (H _ _ _ E). Qed.
Lemma slotless_wr {R} p (g : mem -> res (R * mem)) : (forall m r m', g m = Ok (r, m') -> exists v, m' = wr_ver p v m) -> slotless g.
Proof.
  intros H m r m' E q s hd. destruct (H _ _ _ E) as [v ->]. unfold slot_in, wr_ver. destruct (heap m !! p) as [[l|i]|] eqn:Ep; cbn; [| |done].
  - destruct (decide (q = p)) as [->|Hne]; [|by rewrite lookup_insert_ne].
    rewrite lookup_insert, Ep. split; intros (l' & [= <-] & Hl); eexists; (split; [done|done]).
  - destruct (decide (q = p)) as [->|Hne]; [|by rewrite lookup_insert_ne].
    rewrite lookup_insert, Ep. split; intros (l' & ? & _); done.
Qed.
Lemma calm_ver_load p : calm (ver_load (rd_ver p)).
Proof. split; [sstep|]. split; [|done]. apply slotless_same. intros m r m'. cbn. case_match; [|done]. by intros [= <- <-]. Qed.
Lemma calm_ver_store p v : calm (ver_store (rd_ver p) (wr_ver p) v).
Proof. split; [sstep|]. split; [|done]. apply (slotless_wr p). intros m r m'. cbn. case_match; [|done]. intros [= <- <-]. by exists v. Qed.
Lemma calm_mark_insert p lv : calm (mark_insert p lv).
Proof.
  unfold mark_insert, guard_mark_insert. destruct (v_is_inserting lv); [done|]. apply calm_bind; [apply calm_ver_load|]. intros v.
  apply calm_bind; [apply calm_ver_store|done].
Qed.
Lemma calm_unlock p lv : calm (unlock p lv). Proof. apply calm_ver_store. Qed.

(** ** lookups *)
Definition esees (l : list N) (d : did) : did := E (l ++ esn d) (erd d) (eph d).
Lemma esees_nil d : esees [] d = d. Proof. by destruct d. Qed.
Lemma esees_app l l' d : esees l (esees l' d) = esees (l ++ l') d. Proof. unfold esees. cbn. by rewrite app_assoc. Qed.
Definition idle (d : did) : Prop := eph d = PNone.
Lemma idle_easy d : idle d -> easy d. Proof. unfold easy. by intros ->. Qed.
Lemma idle_sees l d : idle d -> idle (esees l d). Proof. done. Qed.
Lemma goes_val_ptr v d p s (Q : did -> N -> Prop) : idle d -> (forall h, Q (esees [h] d) h) -> goes v d (val_ptr p s) Q.
Proof.
  intros Hd H. cbn [val_ptr leaf_ld atomic goes]. rewrite Hd. right. left. exists (fun h => h). split.
  - intros m r m'. cbn. repeat case_match; try done. intros [= <- <-]. split; [done|]. eexists _, _, _. done.
  - intros r. split; [apply easy_pend, idle_easy, Hd|]. apply H.
Qed.
Ltac ez := solve [done | by apply idle_easy | by apply idle_easy, idle_sees].
Ltac gz := repeat lazymatch goal with
  | |- goes _ _ (bind (scan_leaf _ _ _) _) _ => fail
  | |- goes _ _ (bind (scan_leaf_ref _ _ _) _) _ => fail
  | |- goes _ _ (bind (get_loop _ _ _ _) _) _ => fail
  | |- goes _ _ (bind (get_ref_loop _ _ _ _) _) _ => fail
  | |- goes _ _ (bind (output_from_raw _) _) _ => fail
  | |- goes _ _ (bind (search_for_insert _ _ _) _) _ => fail
  | |- forall _, _ => intros
  | |- goes _ _ (bind (val_ptr _ _) _) _ => apply goes_bind, goes_val_ptr; [done|]
  | |- goes _ _ (bind _ _) _ => apply goes_bind, goes_still; [solve [stl]|ez|]
  | |- goes _ _ (Fail _) _ => by (intros []%easy_late; ez)
  | |- goes _ _ (if ?x then _ else _) _ => destruct x eqn:?
  end.
Lemma goes_ret {A} v d (a : A) (Q : did -> A -> Prop) : easy d -> Q d a -> goes v d (Ret a) Q.
Proof. intros H HQ. split; [by apply easy_pend|done]. Qed.
Lemma goes_scan v p k slots : forall d (Q : did -> option (N * N) -> Prop), idle d ->
  (forall l r, from_seen (l ++ esn d) r -> Q (esees l d) r) -> goes v d (scan_leaf p k slots) Q.
Proof.
  assert (forall d (Q : did -> option (N * N) -> Prop) h,
    (forall l r, from_seen (l ++ esn d) r -> Q (esees l d) r) -> forall l r, from_seen (l ++ esn (esees [h] d)) r -> Q (esees l (esees [h] d)) r) as Hw.
  { intros d Q h H l r Hf. rewrite esees_app. apply H. by rewrite <- app_assoc. }
  assert (forall d (Q : did -> option (N * N) -> Prop) h x, idle d -> (h =? 0)%N = false ->
    (forall l r, from_seen (l ++ esn d) r -> Q (esees l d) r) -> goes v (esees [h] d) (Ret (Some (x, h))) Q) as Hr.
  { intros d Q h x Hd Hz H. apply goes_ret; [ez|]. apply H. intros y h' [= <- <-]. split; [by left|]. by apply N.eqb_neq. }
  assert (forall d (Q : did -> option (N * N) -> Prop), idle d -> (forall l r, from_seen (l ++ esn d) r -> Q (esees l d) r) -> goes v d (Ret None) Q) as Hn.
  { intros d Q Hd H. apply goes_ret; [ez|]. rewrite <- (esees_nil d) at 1. by apply H. }
  induction slots as [|s slots IH]; intros d Q Hd H; cbn [scan_leaf]; [by apply Hn|]. gz.
  all: try (apply IH; [done|done|by apply Hw]); try (by apply Hr). all: apply IH; try done; by apply Hw.
Qed.
Lemma goes_scan_ref v p k slots : forall d (Q : did -> option (N * N) -> Prop), idle d ->
  (forall l r, from_seen (l ++ esn d) r -> Q (esees l d) r) -> goes v d (scan_leaf_ref p k slots) Q.
Proof.
  assert (forall d (Q : did -> option (N * N) -> Prop) h,
    (forall l r, from_seen (l ++ esn d) r -> Q (esees l d) r) -> forall l r, from_seen (l ++ esn (esees [h] d)) r -> Q (esees l (esees [h] d)) r) as Hw.
  { intros d Q h H l r Hf. rewrite esees_app. apply H. by rewrite <- app_assoc. }
  assert (forall d (Q : did -> option (N * N) -> Prop) h x, idle d -> (h =? 0)%N = false ->
    (forall l r, from_seen (l ++ esn d) r -> Q (esees l d) r) -> goes v (esees [h] d) (Ret (Some (x, h))) Q) as Hr.
  { intros d Q h x Hd Hz H. apply goes_ret; [ez|]. apply H. intros y h' [= <- <-]. split; [by left|]. by apply N.eqb_neq. }
  assert (forall d (Q : did -> option (N * N) -> Prop), idle d -> (forall l r, from_seen (l ++ esn d) r -> Q (esees l d) r) -> goes v d (Ret None) Q) as Hn.
  { intros d Q Hd H. apply goes_ret; [ez|]. rewrite <- (esees_nil d) at 1. by apply H. }
  induction slots as [|s slots IH]; intros d Q Hd H; cbn [scan_leaf_ref]; [by apply Hn|]. gz.
  all: try (apply IH; [done|done|by apply Hw]); try (by apply Hr). all: apply IH; try done; by apply Hw.
Qed.
Lemma goes_get_loop v F n : forall k st d (Q : did -> option N -> Prop), idle d ->
  (forall l r, one_seen (l ++ esn d) r -> Q (esees l d) r) -> goes v d (get_loop F n k st) Q.
Proof.
  induction n as [|n IH]; intros k st d Q Hd H; cbn [get_loop]; [by (intros []%easy_late; ez)|].
  assert (forall l, (forall l' r, one_seen (l' ++ esn (esees l d)) r -> Q (esees l' (esees l d)) r)) as Hw.
  { intros l l' r Hf. rewrite esees_app. apply H. by rewrite <- app_assoc. }
  assert (forall l, goes v (esees l d) (Ret None) Q) as Hn by (intros l; apply goes_ret; [ez|]; by apply H).
  destruct st as [r|r p|r p ver]; gz; try (by apply IH).
  apply goes_bind, goes_scan; [done|]. intros l snap Hsn. gz.
  - match goal with |- context [let (_, _) := ?a in _] => destruct a as [q v'] end. gz; (apply IH; [done|by apply Hw]).
  - destruct snap as [[kx ptr]|]; gz; try (apply IH; [done|by apply Hw]); try (by apply Hn).
    apply goes_ret; [ez|]. apply H. intros h [= <-]. by apply (Hsn kx ptr).
Qed.
Lemma goes_get_ref_loop v F n : forall k st d (Q : did -> option N -> Prop), idle d ->
  (forall l r, one_seen (l ++ esn d) r -> Q (esees l d) r) -> goes v d (get_ref_loop F n k st) Q.
Proof.
  induction n as [|n IH]; intros k st d Q Hd H; cbn [get_ref_loop]; [by (intros []%easy_late; ez)|].
  assert (forall l, (forall l' r, one_seen (l' ++ esn (esees l d)) r -> Q (esees l' (esees l d)) r)) as Hw.
  { intros l l' r Hf. rewrite esees_app. apply H. by rewrite <- app_assoc. }
  assert (forall l, goes v (esees l d) (Ret None) Q) as Hn by (intros l; apply goes_ret; [ez|]; by apply H).
  destruct st as [r|r p|r p ver]; gz; try (by apply IH).
  apply goes_bind, goes_scan_ref; [done|]. intros l snap Hsn. gz.
  - match goal with |- context [let (_, _) := ?a in _] => destruct a as [q v'] end. gz; (apply IH; [done|by apply Hw]).
  - destruct snap as [[kx ptr]|]; gz; try (apply IH; [done|by apply Hw]); try (by apply Hn).
    apply goes_ret; [ez|]. apply H. intros h [= <-]. by apply (Hsn kx ptr).
Qed.
Lemma goes_from_raw v d h (Q : did -> N -> Prop) : h ∈ esn d -> h <> 0%N -> idle d ->
  (forall x, Q (E (esn d) ((h, x) :: erd d) (eph d)) x) -> goes v d (output_from_raw h) Q.
Proof.
  intros H1 H2 Hd HQ. unfold idle in Hd. rewrite Hd in HQ. cbn [output_from_raw atomic goes]. rewrite Hd. right. right. left. exists h, (fun x => x). split.
  - intros m r m'. cbn. case_match; [|done]. by intros [= <- <-].
  - split; [done|]. split; [done|]. intros r. split; [by intros []|]. apply HQ.
Qed.
(** what the answer of a call says of what it did *)
Definition says (d : did) (a : ans) : Prop := match a with
  | AGet (Some x) => exists h, (h, x) ∈ erd d
  | AIns (Some y) => exists h ho, eph d = PGone h ho y /\ (ho, y) ∈ erd d
  | AIns None => exists h, eph d = PPlaced h
  | _ => True
  end.
Definition D0 : did := E [] [] PNone.
Lemma goes_get v F k : goes v D0 (get F k) (fun d r => says d (AGet r)).
Proof.
  unfold get. destruct (key_new k); [|by intros []]. gz. apply goes_bind, goes_get_loop; [done|]. intros l [h|] Hs; [|by apply goes_ret].
  destruct (Hs h eq_refl). apply goes_bind, goes_from_raw; [done..|]. intros x. apply goes_ret; [done|]. exists h. by left.
Qed.
Lemma goes_get_ref v F k : goes v D0 (get_ref F k) (fun d r => says d (AGet r)).
Proof.
  unfold get_ref. destruct (key_new k); [|by intros []]. gz. apply goes_bind, goes_get_ref_loop; [done|]. intros l [h|] Hs; [|by apply goes_ret].
  destruct (Hs h eq_refl). apply goes_bind, goes_from_raw; [done..|]. intros x. apply goes_ret; [done|]. exists h. by left.
Qed.

(** ** insertion *)
Lemma brings_raw x m r m' : Ok (nxt m, mwith_nxt (nxt m + 2) (mwith_vals (<[nxt m := x]> (vals m)) m)) = Ok (r, m') ->
  vals m' = <[nxt m := x]> (vals m) /\ retired m' = retired m /\ (nxt m < nxt m')%N.
Proof. intros [= <- <-]. cbn. split; [done|]. split; [done|]. lia. Qed.
Lemma goes_place v d x (Q : did -> N -> Prop) : v = Some x -> idle d ->
  (forall h, Q (eat (PPlaced h) d) h) -> goes v d (output_to_raw x) Q.
Proof.
  intros H1 Hd HQ. cbn [output_to_raw atomic goes]. rewrite Hd. right. right. right. exists x, (fun h => h). split; [done|].
  split; [intros m r m'; apply brings_raw|]. split; [apply slotless_same; by intros m r m' [= <- <-]|].
  split; [by intros m r m' [= <- <-]|]. right. intros r. split; [by intros []|]. apply HQ.
Qed.
Lemma goes_hold {B} v d x (f : N -> P B) (Q : did -> B -> Prop) : v = Some x -> idle d ->
  (forall h, goes v (eat (PHeld h) d) (f h) Q) -> goes v d (bind (output_to_raw x) f) Q.
Proof.
  intros H1 Hd HQ. cbn [output_to_raw atomic goes bind]. rewrite Hd. right. right. right. exists x, (fun h => h). split; [done|].
  split; [intros m r m'; apply brings_raw|]. split; [apply slotless_same; by intros m r m' [= <- <-]|].
  split; [by intros m r m' [= <- <-]|]. left. intros r. apply HQ.
Qed.
Lemma goes_puts {B} v d p s h ho y (f : unit -> P B) (Q : did -> B -> Prop) : eph d = PHeld h -> (ho, y) ∈ erd d ->
  (forall u, goes v (eat (PPut h ho y) d) (f u) Q) -> goes v d (bind (set_val_ptr p s h) f) Q.
Proof.
  intros H1 H2 HQ. cbn [set_val_ptr leaf_up atomic goes bind]. rewrite H1. right. split.
  - pose proof (still_leaf_up p (fun l => x ← list_set (l_val l) s h; Some (tt, with_val x l))) as [H _]. exact H.
  - exists ho, y. split; [done|]. intros r. apply HQ.
Qed.
Lemma goes_drops {B} v d h ho y (f : unit -> P B) (Q : did -> B -> Prop) : eph d = PPut h ho y ->
  (forall u, goes v (eat (PGone h ho y) d) (f u) Q) -> goes v d (bind (retire (GVal ho)) f) Q.
Proof.
  intros H1 HQ. cbn [retire atomic goes bind]. rewrite H1. right. split; [by intros m r m' [= <- <-]|].
  split; [apply slotless_same; by intros m r m' [= <- <-]|]. intros r. apply HQ.
Qed.
Lemma goes_assign_slot d p lv s k x (Q : did -> N -> Prop) : idle d ->
  (forall h a, Q (eat (PPlaced h) d) a) -> goes (Some x) d (assign_slot p lv s k x) Q.
Proof.
  intros H HQ. unfold assign_slot. apply goes_bind, goes_place; [done..|]. intros h. gz. apply goes_ret; [done|]. apply HQ.
Qed.
Definition says_ins (d : did) (r : ins_res) : Prop := match r with IOk r => says d (AIns r) | IErr => True end.
Lemma goes_insert_loop F n x : forall k r d, idle d -> goes (Some x) d (insert_loop_v F n k x r) says_ins.
Proof.
  induction n as [|n IH]; intros k r d Hd; cbn [insert_loop_v]; [by (intros []%easy_late; ez)|]. gz.
  match goal with |- context [let (_, _) := ?a in _] => destruct a as [p ex] end. gz; try (by apply IH). cbv zeta. gz; try (by apply IH).
  apply goes_bind, goes_still; [apply still_search|ez|]. intros [s|pos| |]; [| |by (intros []%easy_late; ez)..].
  - gz; [by apply IH|]. apply goes_bind, goes_from_raw; [by left|by apply N.eqb_neq|done|]. intros ov.
    apply goes_hold; [done|done|]. intros h'. apply goes_calm_bind; [apply calm_mark_insert|]. intros lv'.
    eapply goes_puts; [done|by left|]. intros []. apply goes_calm_bind; [apply calm_unlock|]. intros [].
    eapply goes_drops; [done|]. intros []. split; [by intros []|]. eexists _, _. split; [done|]. by left.
  - assert (goes (Some x) d (ok <- handle_leaf_split false F p a1 (k_ikey k);; if ok : bool then insert_loop_v F n k x a else Ret IErr) says_ins) as Hsplit.
    { gz; [by apply IH|]. apply goes_ret; [ez|done]. }
    destruct (Nat.leb WIDTH _); [exact Hsplit|]. apply goes_bind, goes_still; [stl|ez|]. intros [].
    + apply goes_bind, goes_assign_slot; [done|]. intros h lv'. destruct (perm_insert_from_back _ _). gz. apply goes_ret; [done|]. by exists h.
    + destruct (find_alt _ _) as [[alt off]|]; [|exact Hsplit]. apply goes_bind, goes_assign_slot; [done|]. intros h lv'.
      destruct (perm_insert_from_back _ _). gz. apply goes_ret; [done|]. by exists h.
Qed.
Lemma goes_call F o : conc_op o -> goes (own o) D0 (call insert_v F o) says.
Proof.
  intros [Ho Hk]. destruct o as [k x|k|k| |]; cbn [call own].
  - apply goes_end, goes_mono with says_ins.
    + unfold insert_v. destruct (key_new k) as [kk|] eqn:Ek; [|by intros []].
      apply goes_bind, goes_still; [stl|done|]. intros r. by apply goes_insert_loop.
    + intros d [r|] Hs Hp; done.
  - apply goes_end, (goes_mono _ _ _ _ _ (goes_get None F k)). done.
  - apply goes_end, (goes_mono _ _ _ _ _ (goes_get_ref None F k)). done.
  - unfold len. gz. by apply goes_ret.
  - done.
Qed.
