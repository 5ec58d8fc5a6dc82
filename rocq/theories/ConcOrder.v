(** Concurrent executions in which all inserted values are different: what callers are told
    of never goes back to a value that was replaced. *)
From Verif Require Import Base Perm SpecKey KeyFacts Prog Version Mem Tree SpecTree TreeState Suffix SuffixFacts SpecLin SpecConc SpecOrder ConcVar Conc ConcRead ConcBag ConcSys ConcTop ConcVal ConcOnce ConcDeed.
From Verif Require ConcLen.

Definition tagv (w : world) (hd x : N) : Prop := exists k, wtag w !! hd = Some (k, x).
Lemma tagv_some w hd x : tagv w hd x -> is_Some (wtag w !! hd). Proof. intros [k ->]. by eexists. Qed.
Lemma tagv_fun w hd x y : tagv w hd x -> tagv w hd y -> x = y. Proof. intros [k H] [k' H']. congruence. Qed.
Lemma tagv_mono w w' hd x : Mono w w' -> tagv w hd x -> tagv w' hd x.
Proof. intros M [k H]. exists k. by apply (mo_tag _ _ M). Qed.

(** ** places of handles *)
Lemma slot_place w p s hd : Inv w -> slot_in (wm w) p s hd -> hd <> 0%N -> wvl w !! hd = Some (VSlot p s).
Proof. intros I (l & Hp & Hs) Hz. destruct (iv_node _ I p _ Hp) as [_ Hl]. apply (lo_val _ _ _ Hl); [by apply lptrs_val|done]. Qed.
Lemma place_slot w p s hd : Inv w -> is_Some (wtag w !! hd) -> wvl w !! hd = Some (VSlot p s) -> slot_in (wm w) p s hd /\ hd <> 0%N.
Proof.
  intros I Ht Hv. pose proof (iv_hdl _ I _ _ Hv) as Hz. split; [|done]. destruct (iv_slot _ I _ _ _ Hv) as (l & Hp & Hs). exists l. split; [done|].
  destruct (iv_node _ I p _ Hp) as [_ Hl]. apply lookup_app_Some in Hs as [?|[Hge Hs]]; [done|].
  apply list_lookup_singleton_Some in Hs as [_ <-]. destruct (val_not_bag w (l_ksuf l) I Ht). eexists. by apply (lo_ksuf _ _ _ Hl).
Qed.
Lemma has_place w hd : Inv w -> is_Some (vals (wm w) !! hd) -> is_Some (wvl w !! hd).
Proof. intros I H. apply (iv_vals _ I). by left. Qed.
(** an access of thread [i] from [w] to [w'] that changes no slot: where a handle that thread
    [i] holds afterwards, or has just retired, was before *)
Lemma back_hold i w w' hd : Inv w -> Inv w' -> is_Some (wtag w !! hd) -> is_Some (wtag w' !! hd) -> is_Some (vals (wm w) !! hd) ->
  (forall j, j <> i -> wvl w !! hd = Some (VHold j) <-> wvl w' !! hd = Some (VHold j)) ->
  (forall p s, slot_in (wm w') p s hd <-> slot_in (wm w) p s hd) ->
  (GVal hd ∈ retired (wm w) -> wvl w' !! hd <> Some (VHold i) /\ (forall B, wvl w' !! hd <> Some (VRet B)) ) ->
  (wvl w' !! hd = Some (VHold i) \/ exists B, wvl w' !! hd = Some (VRet B)) -> wvl w !! hd = Some (VHold i).
Proof.
  intros I I' Ht Ht' Hv Hj Hs Hr Hw. destruct (has_place w hd I Hv) as [[p s|j|B] E].
  - exfalso. apply place_slot in E as [E Hz]; [|done|done]. apply Hs in E. apply slot_place in E; [|done|done].
    destruct Hw as [?|[B ?]]; congruence.
  - destruct (decide (j = i)) as [->|Hne]; [done|]. exfalso. apply Hj in E; [|done]. destruct Hw as [?|[B ?]]; congruence.
  - exfalso. apply retired_val in E; [|done|done]. destruct (Hr E) as [H1 H2]. destruct Hw as [?|[B' ?]]; [done|]. by apply (H2 B').
Qed.
Lemma room_quiet i w w' : Guar i w w' -> vals (wm w') = vals (wm w) -> room w -> room w'.
Proof.
  intros G E Hr Hl. pose proof (tags_quiet _ _ _ G E). unfold longs in Hl. rewrite (gu_called _ _ _ G) in Hl. specialize (Hr Hl). unfold bnd in *. lia.
Qed.
(** a value replaced and not yet given up is in the hands of the thread that replaced it *)
Lemma pend_hold {A} i v (p : P A) Q0 Q : forall d w h ho y, goes v d p Q0 -> eph d = PPut h ho y -> cwp i p w Q -> Inv w -> room w ->
  is_Some (wtag w !! ho) -> wvl w !! ho = Some (VHold i).
Proof.
  induction p as [a|e|R f k IH]; intros d w h ho y Hg Ed Hc I Hr Ht.
  - destruct Hg as [Hn _]. destruct Hn. unfold pending. by rewrite Ed.
  - cbn in Hg, Hc. assert (e = Panic) as -> by (apply Hg; unfold late; by rewrite Ed). by destruct Hc.
  - cbn [goes] in Hg. rewrite Ed in Hg. destruct (Hc w (rely_refl i w) I Hr) as (r & w2 & Hf & I2 & G & Hk).
    assert (forall j, j <> i -> wvl w !! ho = Some (VHold j) <-> wvl w2 !! ho = Some (VHold j)) as Hj.
    { intros j Hne. apply (rl_hold _ _ _ (gu_rely _ _ _ G j Hne)). }
    assert (is_Some (wtag w2 !! ho)) as Ht2. { destruct Ht as [x Hx]. exists x. by apply (mo_tag _ _ (guar_mono _ _ _ G)). }
    destruct Hg as [(H1 & H2 & H3)|(H1 & H2 & H3)].
    + destruct (H1 _ _ _ Hf) as (E1 & E2 & _).
      assert (wvl w2 !! ho = Some (VHold i)) as Hw. { eapply (IH r d w2 h ho y); try done. by eapply room_quiet. }
      eapply (back_hold i w w2); try done.
      * rewrite <- E1. apply tag_val; [done|done|by eexists].
      * intros p s. by apply (H2 _ _ _ Hf).
      * intros Hin. apply E2 in Hin. apply lookup_retired in Hin as (_ & B & HB); [|done]. congruence.
      * by left.
    + destruct (H1 _ _ _ Hf) as (E1 & E2 & _).
      assert (GVal ho ∈ retired (wm w2)) as Hin by (rewrite E2; by left). destruct (lookup_retired w2 ho I2 Hin) as (_ & B & HB).
      eapply (back_hold i w w2); try done.
      * rewrite <- E1. apply tag_val; [done|done|by eexists].
      * intros p s. by apply (H2 _ _ _ Hf).
      * intros Hin'. exfalso. destruct (iv_ret _ I2) as (Nd & _). rewrite E2 in Nd. cbn in Nd. apply NoDup_cons in Nd as [Nd _].
        apply Nd. apply (elem_of_list_fmap_1 gaddr _ _ Hin').
      * right. by exists B.
Qed.
(** a value in the hands of a thread stays there while no slot changes *)
Lemma still_hold i w w' hd : Inv w -> Inv w' -> is_Some (wtag w !! hd) -> is_Some (wtag w' !! hd) -> is_Some (vals (wm w') !! hd) ->
  (forall j, j <> i -> wvl w !! hd = Some (VHold j) <-> wvl w' !! hd = Some (VHold j)) ->
  (forall p s, slot_in (wm w') p s hd <-> slot_in (wm w) p s hd) ->
  (GVal hd ∈ retired (wm w') -> GVal hd ∈ retired (wm w)) ->
  wvl w !! hd = Some (VHold i) -> wvl w' !! hd = Some (VHold i).
Proof.
  intros I I' Ht Ht' Hv Hj Hs Hr Hw. destruct (has_place w' hd I' Hv) as [[p s|j|B] E].
  - exfalso. apply place_slot in E as [E Hz]; [|done|done]. apply Hs in E. apply slot_place in E; [|done|done]. congruence.
  - destruct (decide (j = i)) as [->|Hne]; [done|]. exfalso. apply Hj in E; [|done]. congruence.
  - exfalso. apply retired_val in E; [|done|done]. apply Hr in E. apply lookup_retired in E as (_ & B' & ?); [|done]. congruence.
Qed.
(** a value just made is in the hands of its thread *)
Lemma new_hold i w w' x : Inv w -> Inv w' -> vals (wm w') = <[nxt (wm w) := x]> (vals (wm w)) -> retired (wm w') = retired (wm w) ->
  (forall j, j <> i -> wvl w !! nxt (wm w) = Some (VHold j) <-> wvl w' !! nxt (wm w) = Some (VHold j)) ->
  (forall p s hd, slot_in (wm w') p s hd <-> slot_in (wm w) p s hd) ->
  wvl w' !! nxt (wm w) = Some (VHold i) /\ wvl w !! nxt (wm w) = None /\ tagv w' (nxt (wm w)) x.
Proof.
  intros I I' Ev Er Hj Hs. set (hd := nxt (wm w)) in *.
  assert (vals (wm w') !! hd = Some x) as Hv by (by rewrite Ev, lookup_insert).
  assert (tagv w' hd x) as Ht. { destruct (iv_tag _ I' _ _ Hv) as [k Hk]. by exists k. }
  assert (wvl w !! hd = None) as Hn.
  { destruct (wvl w !! hd) as [pl|] eqn:E; [|done]. exfalso. assert (is_Some (wvl w !! hd)) as Hpl by by eexists.
    apply (iv_vals _ I) in Hpl as [[y Hy]|[bg Hb]].
    - apply (iv_tag _ I) in Hy as [k Hk]. apply (iv_fresh _ I) in Hk. unfold hd in Hk. lia.
    - apply (iv_bags _ I) in Hb as [[q Hq] _]. apply (iv_bnew _ I) in Hq as [Hq _]. unfold hd in Hq. lia. }
  split; [|done]. destruct (has_place w' hd I' ltac:(by eexists)) as [[p s|j|B] E].
  - exfalso. apply place_slot in E as [E Hz]; [|done|by eapply tagv_some]. apply Hs in E. apply slot_place in E; [|done|done]. congruence.
  - destruct (decide (j = i)) as [->|Hne]; [done|]. exfalso. apply Hj in E; [|done]. congruence.
  - exfalso. apply retired_val in E; [|done|by eapply tagv_some]. rewrite Er in E. apply lookup_retired in E as (_ & B' & ?); [|done]. congruence.
Qed.

(** ** histories *)
Lemma told_app x h h' : told_of x h -> told_of x (h ++ h').
Proof. intros (h1 & t & i & a & h2 & -> & H). exists h1, t, i, a, (h2 ++ h'). split; [by rewrite <- app_assoc|done]. Qed.
Lemma told_snoc x h e : told_of x (h ++ [e]) -> told_of x h \/ exists i a, e.2 = ERet i a /\
  (a = AGet (Some x) \/ a = AIns (Some x) \/ exists k r t1, a = AIns r /\ last_at i h = Some (t1, ECall i (Insert k x))).
Proof.
  intros (h1 & t & i & a & h2 & E & H). apply ConcLen.snoc_mid in E as [(-> & <- & ->)|(h2' & -> & E)].
  - right. exists i, a. done.
  - left. by exists h1, t, i, a, h2'.
Qed.
Lemma replaces_snoc x y h e : replaces (h ++ [e]) x y -> replaces h x y \/ exists i t1 k, e.2 = ERet i (AIns (Some y)) /\ last_at i h = Some (t1, ECall i (Insert k x)).
Proof.
  intros (h1 & t & i & h2 & t1 & k & E & H). apply ConcLen.snoc_mid in E as [(-> & <- & ->)|(h2' & -> & E)].
  - right. by exists i, t1, k.
  - left. by exists h1, t, i, h2', t1, k.
Qed.

Section Order.
Context (scripts : list (list op)).
Hypothesis Hdis : NoDup (values_of (concat scripts)).
Hypothesis Hcalls : conc_calls scripts.

(** [oR]: the handle that a handle replaced; [oV]: the handles in place, or replaced; [oT]:
    for each thread what its call has done, and [oR] and [oV] when it began *)
Record og := mk_o { oR : gmap N N; oV : gset N; oT : nat -> did * (gmap N N * gset N) }.
Definition edge (R : gmap N N) (x y : N) : Prop := R !! x = Some y.
Definition out (R : gmap N N) (y : N) : Prop := exists x, R !! x = Some y.
Definition ph_ok (w : world) (R : gmap N N) (V : gset N) (i : nat) (o : op) (ph : phase) : Prop :=
  match ph with
  | PNone => True
  | PHeld h => wvl w !! h = Some (VHold i) /\ h ∉ V /\ exists x, own o = Some x /\ tagv w h x
  | PPut h ho y | PGone h ho y => h ∈ V /\ R !! h = Some ho /\ tagv w ho y /\ exists x, own o = Some x /\ tagv w h x
  | PPlaced h => h ∈ V /\ exists x, own o = Some x /\ tagv w h x
  end.
Record in_call (h : list (N * event)) (w : world) (R : gmap N N) (V : gset N) (i : nat) (o : op) (p : P ans) (T : did * (gmap N N * gset N)) : Prop := {
  ic_go : goes (own o) T.1 p says;
  ic_R : forall x y, T.2.1 !! x = Some y -> R !! x = Some y;
  ic_V : forall x, x ∈ T.2.2 -> x ∈ V;
  ic_old : forall x y, x ∈ T.2.2 -> tc (edge R) x y -> out T.2.1 y;
  ic_told : forall h1 t o' h2 x, h = h1 ++ (t, ECall i o') :: h2 -> ConcLen.quiet_for i h2 -> told_of x h1 -> exists hd, hd ∈ T.2.2 /\ tagv w hd x;
  ic_seen : forall hd, hd ∈ esn T.1 -> hd <> 0%N -> hd ∈ V /\ ~ out T.2.1 hd;
  ic_rd : forall hd x, (hd, x) ∈ erd T.1 -> hd ∈ V /\ ~ out T.2.1 hd /\ tagv w hd x;
  ic_ph : ph_ok w R V i o (eph T.1) }.
(** what the theorem says of a history, with handles for values *)
Definition order_ok (h : list (N * event)) (w : world) (R : gmap N N) : Prop :=
  forall h1 t i o h2 t' a h3 x y hx hy, h = h1 ++ (t, ECall i o) :: h2 ++ (t', ERet i a) :: h3 -> ConcLen.quiet_for i h2 ->
    (a = AGet (Some y) \/ a = AIns (Some y)) -> told_of x h1 -> tagv w hx x -> tagv w hy y -> tc (edge R) hx hy -> False.
Definition settled (m : mem) (thr : list (tstate * list op)) (T : nat -> did * (gmap N N * gset N)) (y : N) : Prop :=
  GVal y ∈ retired m \/ vals m !! y = None \/
  exists j p ops h x, thr !! j = Some (TRun p, ops) /\ eph (T j).1 = PPut h y x.
Record MInv (c : csys) (h : list (N * event)) (w : world) (g : ghost) (G : og) : Prop := {
  mi_dom : forall x y, oR G !! x = Some y -> x ∈ oV G /\ y ∈ oV G;
  mi_out : forall y, out (oR G) y -> settled (c_mem c) (c_thr c) (oT G) y;
  mi_tag : forall hd, hd ∈ oV G -> is_Some (wtag w !! hd);
  mi_one : forall hd x, tagv w hd x -> gA g !! x = Some hd;
  mi_thr : forall i p ops, c_thr c !! i = Some (TRun p, ops) -> exists t1 o, last_at i h = Some (t1, ECall i o) /\
    in_call h w (oR G) (oV G) i o p (oT G i);
  mi_rep : forall x y, replaces h x y -> exists hx hy, tagv w hx x /\ tagv w hy y /\ oR G !! hx = Some hy;
  mi_told : forall x, told_of x h -> exists hd, hd ∈ oV G /\ tagv w hd x;
  mi_ord : order_ok h w (oR G) }.

Lemma one_handle c h w g G hd hd' x : MInv c h w g G -> tagv w hd x -> tagv w hd' x -> hd = hd'.
Proof. intros M H1%(mi_one _ _ _ _ _ M) H2%(mi_one _ _ _ _ _ M). congruence. Qed.
(** a replaced handle is in no slot *)
Lemma out_slot c h w g G y : MInv c h w g G -> SInv scripts c h w -> out (oR G) y -> forall p s, wvl w !! y <> Some (VSlot p s).
Proof.
  intros M S Ho p s Hv. pose proof (si_inv _ _ _ _ S) as I. assert (is_Some (wtag w !! y)) as Ht.
  { destruct Ho as [x Hx]. apply (mi_tag _ _ _ _ _ M). by eapply (mi_dom _ _ _ _ _ M). }
  destruct (mi_out _ _ _ _ _ M y Ho) as [Hr|[Hn|(j & q & ops & hh & x & Hj & Ep)]].
  - rewrite <- (si_mem _ _ _ _ S) in Hr. apply lookup_retired in Hr as (_ & B & HB); [congruence|done].
  - rewrite <- (si_mem _ _ _ _ S) in Hn. destruct (tag_val w y I Ht) as [z Hz]; [by eexists|congruence].
  - destruct (mi_thr _ _ _ _ _ M j q ops Hj) as (t1 & o & L & Z). destruct (si_thr _ _ _ _ S j _ _ Hj) as [_ (t2 & o' & L' & Hc)].
    pose proof (pend_hold j _ q _ _ _ w hh y x (ic_go _ _ _ _ _ _ _ _ Z) Ep Hc I (sinv_room _ Hcalls _ _ _ S) Ht). congruence.
Qed.

(** following replacements from a handle in place leads to such handles, and new
    replacements do not change where it leads *)
Lemma tc_stable (R R' : gmap N N) (V : gset N) : (forall x y, R !! x = Some y -> y ∈ V) -> (forall x, x ∈ V -> R' !! x = R !! x) ->
  forall x y, tc (edge R') x y -> x ∈ V -> tc (edge R) x y.
Proof.
  intros HV HR x y H. induction H as [x y H|x y z H H' IH]; intros Hx.
  - apply tc_once. unfold edge in *. by rewrite <- HR.
  - unfold edge in H. rewrite HR in H by done. eapply tc_l; [exact H|]. apply IH. exact (HV _ _ H).
Qed.
Lemma tc_dom (R : gmap N N) (V : gset N) : (forall x y, R !! x = Some y -> x ∈ V /\ y ∈ V) -> forall x y, tc (edge R) x y -> x ∈ V /\ y ∈ V.
Proof. intros H x y Ht. induction Ht as [x y E|x y z E H' IH]; [by apply H|]. split; [exact (proj1 (H _ _ E))|apply IH]. Qed.

(** what changes when a step is made: [c], [h], [w] to [c'], [h ++ e], [w'] *)
Record goon (c : csys) (h : list (N * event)) (w : world) (G : og) (w' : world) (R' : gmap N N) (V' : gset N) : Prop := {
  gn_mono : Mono w w';
  gn_R : forall x, x ∈ oV G -> R' !! x = oR G !! x;
  gn_dom : forall x y, R' !! x = Some y -> x ∈ V' /\ y ∈ V';
  gn_V : forall x, x ∈ oV G -> x ∈ V';
  gn_tag : forall x, x ∈ V' -> is_Some (wtag w' !! x) }.
Lemma goon_tc c h w g G w' R' V' x y : MInv c h w g G -> goon c h w G w' R' V' -> x ∈ oV G -> tc (edge R') x y -> tc (edge (oR G)) x y.
Proof.
  intros M N Hx H. eapply (tc_stable (oR G) R' (oV G)); [|apply N|done|done]. intros x' y' E. by destruct (mi_dom _ _ _ _ _ M _ _ E).
Qed.
Lemma goon_edge c h w g G w' R' V' x y : MInv c h w g G -> goon c h w G w' R' V' -> oR G !! x = Some y -> R' !! x = Some y.
Proof. intros M N E. rewrite (gn_R _ _ _ _ _ _ _ N); [done|]. by apply (mi_dom _ _ _ _ _ M) in E as [? _]. Qed.
(** the thread that made no step *)
Lemma in_call_frame c h w g G w' R' V' e i o p : MInv c h w g G -> goon c h w G w' R' V' ->
  (forall hd, is_Some (wtag w !! hd) -> wvl w !! hd = Some (VHold i) -> wvl w' !! hd = Some (VHold i) /\ (hd ∉ oV G -> hd ∉ V')) ->
  match e with [] => True | [x] => event_of x.2 <> i | _ => False end ->
  in_call h w (oR G) (oV G) i o p (oT G i) -> in_call (h ++ e) w' R' V' i o p (oT G i).
Proof.
  intros M N Hh He [Z1 Z2 Z3 Z4 Z5 Z6 Z7 Z8]. pose proof (gn_mono _ _ _ _ _ _ _ N) as Mo. split; try done.
  - intros x y E. eapply goon_edge; [done|done|]. by apply Z2.
  - intros x Hx. apply (gn_V _ _ _ _ _ _ _ N). by apply Z3.
  - intros x y Hx Ht. eapply Z4; [done|]. eapply goon_tc; [done|done| |done]. by apply Z3.
  - intros h1 t' o' h2 x E Hq Hb. assert (exists hd, hd ∈ (oT G i).2.2 /\ tagv w hd x) as (hd & H1 & H2).
    { destruct e as [|y [|]]; [by rewrite app_nil_r in E; eapply Z5| |done].
      apply ConcLen.snoc_mid in E as [(_ & <- & _)|(h2' & -> & E)]; [done|]. apply Forall_app in Hq as [Hq _]. by eapply Z5. }
    exists hd. split; [done|]. by eapply tagv_mono.
  - intros hd Hs Hz. destruct (Z6 hd Hs Hz) as [? ?]. split; [by apply (gn_V _ _ _ _ _ _ _ N)|done].
  - intros hd x Hr. destruct (Z7 hd x Hr) as (? & ? & ?). split; [by apply (gn_V _ _ _ _ _ _ _ N)|]. split; [done|]. by eapply tagv_mono.
  - destruct (eph (oT G i).1) as [|hd|hd ho y|hd ho y|hd]; cbn in *; [done|..].
    + destruct Z8 as (H1 & H2 & x & H3 & H4). destruct (Hh hd (tagv_some _ _ _ H4) H1) as [H5 H6]. split; [done|]. split; [by apply H6|]. exists x. split; [done|]. by eapply tagv_mono.
    + destruct Z8 as (H1 & H2 & H3 & x & H4 & H5). split; [by apply (gn_V _ _ _ _ _ _ _ N)|]. split; [by eapply goon_edge|].
      split; [by eapply tagv_mono|]. exists x. split; [done|]. by eapply tagv_mono.
    + destruct Z8 as (H1 & H2 & H3 & x & H4 & H5). split; [by apply (gn_V _ _ _ _ _ _ _ N)|]. split; [by eapply goon_edge|].
      split; [by eapply tagv_mono|]. exists x. split; [done|]. by eapply tagv_mono.
    + destruct Z8 as (H1 & x & H4 & H5). split; [by apply (gn_V _ _ _ _ _ _ _ N)|]. exists x. split; [done|]. by eapply tagv_mono.
Qed.
(** the same handles before and after *)
Lemma tagv_back c h w g G w' hd x : MInv c h w g G -> Mono w w' -> hd ∈ oV G -> tagv w' hd x -> tagv w hd x.
Proof.
  intros M Mo Hd [k Hk]. destruct (mi_tag _ _ _ _ _ M hd Hd) as [[k' x'] H]. pose proof (mo_tag _ _ Mo _ _ H) as H'.
  rewrite Hk in H'. injection H' as <- <-. by exists k.
Qed.
Lemma one_next c h w g G c' h' w' g' a hd x : MInv c h w g G -> Mono w w' -> moved a w w' -> Inv w' -> wm w' = c_mem c' -> OInv scripts c' h' g' -> grows g g' ->
  tagv w' hd x -> gA g' !! x = Some hd.
Proof.
  intros M Mo [_ Mv2] I' Em' O' Hg Ht. destruct (wtag w !! hd) as [[k' x']|] eqn:E.
  - pose proof (mo_tag _ _ Mo _ _ E) as E'. destruct Ht as [k Hk]. rewrite Hk in E'. injection E' as <- <-. apply Hg, (mi_one _ _ _ _ _ M). by exists k.
  - destruct (Mv2 hd) as [[? ?]|[_ [v Hv]]]; [by eapply tagv_some|congruence|]. destruct (iv_tag _ I' _ _ Hv) as [k Hk].
    assert (v = x) as -> by (eapply tagv_fun; [by exists k|done]). rewrite Em' in Hv. by apply (oi_val _ _ _ _ O').
Qed.
Lemma tc_out R x y : tc (edge R) x y -> out R y.
Proof. intros H. induction H as [x y E|x y z E H IH]; [by exists x|done]. Qed.
Lemma mi_next c h w g G c' e w' g' R' V' T' i : MInv c h w g G -> goon c h w G w' R' V' -> Inv w' -> wm w' = c_mem c' -> moved (Thread i) w w' ->
  OInv scripts c' (h ++ e) g' -> grows g g' ->
  (forall y, out R' y -> settled (c_mem c') (c_thr c') T' y) ->
  match e with [] => True | [x] => event_of x.2 = i | _ => False end ->
  (forall hd j, j <> i -> wvl w !! hd = Some (VHold j) -> hd ∉ oV G -> hd ∉ V') ->
  (forall j p ops, j <> i -> c_thr c' !! j = Some (TRun p, ops) -> c_thr c !! j = Some (TRun p, ops) /\ T' j = oT G j) ->
  (forall p ops, c_thr c' !! i = Some (TRun p, ops) -> exists t1 o, last_at i (h ++ e) = Some (t1, ECall i o) /\ in_call (h ++ e) w' R' V' i o p (T' i)) ->
  (forall x, told_of x (h ++ e) -> told_of x h \/ exists hd, hd ∈ V' /\ tagv w' hd x) ->
  (forall x y, replaces (h ++ e) x y -> replaces h x y \/ exists hx hy, tagv w' hx x /\ tagv w' hy y /\ R' !! hx = Some hy) ->
  ((exists x, e = [x] /\ forall h1 t o h2 t' a, h ++ e = h1 ++ (t, ECall i o) :: h2 ++ [(t', ERet i a)] -> ConcLen.quiet_for i h2 -> 
     forall x y hx hy, (a = AGet (Some y) \/ a = AIns (Some y)) -> told_of x h1 -> tagv w' hx x -> tagv w' hy y -> tc (edge R') hx hy -> False) \/ e = []) ->
  MInv c' (h ++ e) w' g' (mk_o R' V' T').
Proof.
  intros M N I' Em' Mv O' Hg Hout He Hhold Hth Hi Htold Hrep Hord. pose proof (gn_mono _ _ _ _ _ _ _ N) as Mo. split; cbn.
  - apply N.
  - done.
  - apply N.
  - intros hd x Ht. by eapply (one_next c h w g G c' (h ++ e) w' g' (Thread i)).
  - intros j p ops Hj. destruct (decide (j = i)) as [->|Hne]; [by eapply Hi|]. destruct (Hth j p ops Hne Hj) as [Hc ET]. rewrite ET.
    destruct (mi_thr _ _ _ _ _ M j p ops Hc) as (t1 & o & L & Z). exists t1, o. split.
    { destruct e as [|x [|]]; [by rewrite app_nil_r| |done]. rewrite last_at_snoc, decide_False; [done|]. congruence. }
    eapply in_call_frame; [done|done| | |done].
    + intros hd _ Hd. split; [|by eapply Hhold]. apply Mv; [congruence|done].
    + destruct e as [|x [|]]; [done| |done]. congruence.
  - intros x y [(hx & hy & H1 & H2 & H3)%(mi_rep _ _ _ _ _ M)|H]%Hrep; [|done]. exists hx, hy. split; [by eapply tagv_mono|]. split; [by eapply tagv_mono|].
    by eapply goon_edge.
  - intros x [(hd & H1 & H2)%(mi_told _ _ _ _ _ M)|H]%Htold; [|done]. exists hd. split; [by apply N|by eapply tagv_mono].
  - assert (forall h1 t j o h2 t' a h3 x y hx hy, h = h1 ++ (t, ECall j o) :: h2 ++ (t', ERet j a) :: h3 -> ConcLen.quiet_for j h2 ->
      (a = AGet (Some y) \/ a = AIns (Some y)) -> told_of x h1 -> tagv w' hx x -> tagv w' hy y -> tc (edge R') hx hy -> False) as Hold.
    { intros h1 t j o h2 t' a h3 x y hx hy E Hq Ha Ht Hx Hy Htc. assert (told_of x h) as (hd & Hd & Hdx)%(mi_told _ _ _ _ _ M) by (rewrite E; by apply told_app).
      assert (hx = hd) as ->.
      { apply (tagv_mono _ _ _ _ Mo) in Hdx. assert (gA g' !! x = Some hx) as H1 by (by eapply (one_next c h w g G c' (h ++ e) w' g' (Thread i))).
        assert (gA g' !! x = Some hd) as H2 by (by eapply (one_next c h w g G c' (h ++ e) w' g' (Thread i))). congruence. }
      assert (tc (edge (oR G)) hd hy) as Htc' by (by eapply goon_tc).
      assert (hy ∈ oV G) as Hyv by (eapply (tc_dom (oR G)); [apply M|done]).
      eapply (mi_ord _ _ _ _ _ M); [exact E|done|done|done|done| |done]. by eapply tagv_back. }
    intros h1 t j o h2 t' a h3 x y hx hy E Hq Ha Ht Hx Hy Htc. destruct Hord as [(ev & -> & Hord)| ->]; cycle 1.
    { rewrite app_nil_r in E. by eapply Hold. }
    pose proof E as E0. rewrite app_comm_cons, app_assoc in E. apply ConcLen.snoc_mid in E as [(E & Ee & ->)|(h3' & -> & E)].
    + cbn in He. assert (j = i) as ->. { rewrite <- Ee in He. done. } by eapply Hord.
    + eapply Hold; [|exact Hq|exact Ha|exact Ht|exact Hx|exact Hy|exact Htc]. rewrite E. rewrite <- app_assoc, <- app_comm_cons. done.
Qed.

Lemma goon_id c h w g G w' : MInv c h w g G -> Mono w w' -> goon c h w G w' (oR G) (oV G).
Proof.
  intros M Mo. split; try done; [apply M|]. intros x Hx. destruct (mi_tag _ _ _ _ _ M x Hx) as [z Hz]. exists z. by apply (mo_tag _ _ Mo).
Qed.
Lemma set_same {A} (T : nat -> A) i x : (fun j => if decide (j = i) then x else T j) i = x.
Proof. cbv beta. by rewrite decide_True. Qed.
Lemma set_other {A} (T : nat -> A) i j x : j <> i -> (fun j => if decide (j = i) then x else T j) j = T j.
Proof. intros H. cbv beta. by rewrite decide_False. Qed.
(** nothing but time has passed *)
Lemma mi_noop c h w g G c' w' g' i : MInv c h w g G -> SInv scripts c h w -> SInv scripts c' (h ++ []) w' -> Mono w w' -> moved (Thread i) w w' ->
  OInv scripts c' (h ++ []) g' -> grows g g' -> c_mem c' = c_mem c -> c_thr c' = c_thr c -> MInv c' (h ++ []) w' g' (mk_o (oR G) (oV G) (oT G)).
Proof.
  intros M S S' Mo Mv O' Hg Em Et. pose proof (si_inv _ _ _ _ S) as I. pose proof (si_inv _ _ _ _ S') as I'.
  assert (wm w' = wm w) as Ew by (by rewrite (si_mem _ _ _ _ S'), (si_mem _ _ _ _ S)).
  pose proof (goon_id _ _ _ _ _ _ M Mo) as N.
  eapply (mi_next c h w g G c' [] w' g' _ _ _ i); try done.
  - by rewrite (si_mem _ _ _ _ S').
  - rewrite Em, Et. apply M.
  - intros j p ops _. by rewrite Et.
  - intros p ops Hi. rewrite Et in Hi. destruct (mi_thr _ _ _ _ _ M i p ops Hi) as (t1 & o & L & Z). exists t1, o. rewrite app_nil_r at 1. split; [done|].
    eapply in_call_frame; [done|done| |done|done]. intros hd Ht Hd. split; [|done].
    assert (is_Some (wtag w' !! hd)) as Ht'. { destruct Ht as [z Hz]. exists z. by apply (mo_tag _ _ Mo). }
    eapply (still_hold i w w'); try done.
    + rewrite Ew. apply tag_val; [done|done|by eexists].
    + intros j Hne. apply Mv. congruence.
    + by rewrite Ew.
    + by rewrite Ew.
  - intros x. rewrite app_nil_r. by left.
  - intros x y. rewrite app_nil_r. by left.
  - by right.
Qed.

(** thread [i] goes on *)
Lemma in_call_own c h w g G w' R' V' i o p p' d' : MInv c h w g G -> goon c h w G w' R' V' -> in_call h w (oR G) (oV G) i o p (oT G i) ->
  goes (own o) d' p' says -> (forall hd, hd ∈ esn d' -> hd <> 0%N -> hd ∈ V' /\ ~ out (oT G i).2.1 hd) ->
  (forall hd x, (hd, x) ∈ erd d' -> hd ∈ V' /\ ~ out (oT G i).2.1 hd /\ tagv w' hd x) -> ph_ok w' R' V' i o (eph d') ->
  in_call h w' R' V' i o p' (d', (oT G i).2).
Proof.
  intros M N [Z1 Z2 Z3 Z4 Z5 Z6 Z7 Z8] H1 H2 H3 H4. pose proof (gn_mono _ _ _ _ _ _ _ N) as Mo. split; cbn; try done.
  - intros x y E. eapply goon_edge; [done|done|]. by apply Z2.
  - intros x Hx. apply (gn_V _ _ _ _ _ _ _ N). by apply Z3.
  - intros x y Hx Ht. eapply Z4; [done|]. eapply goon_tc; [done|done| |done]. by apply Z3.
  - intros h1 t' o' h2 x E Hq Hb. destruct (Z5 _ _ _ _ _ E Hq Hb) as (hd & H5 & H6). exists hd. split; [done|]. by eapply tagv_mono.
Qed.
Lemma settled_set m m' thr T i p' ops d' sn y : settled m thr T y -> is_Some (thr !! i) ->
  (GVal y ∈ retired m -> GVal y ∈ retired m') -> (vals m !! y = None -> vals m' !! y = None) ->
  (forall h x, eph (T i).1 = PPut h y x -> GVal y ∈ retired m' \/ eph d' = PPut h y x) ->
  settled m' (<[i := (TRun p', ops)]> thr) (fun j => if decide (j = i) then (d', sn) else T j) y.
Proof.
  intros [H|[H|(j & q & opsj & h & x & Hj & Ep)]] Hi H1 H2 H3; [left; auto|right; left; auto|]. destruct (decide (j = i)) as [->|Hne].
  - destruct (H3 h x Ep) as [Hr|Hd]; [by left|]. right. right. exists i, p', ops, h, x. rewrite list_lookup_insert by (by apply lookup_lt_is_Some).
    by rewrite decide_True.
  - right. right. exists j, q, opsj, h, x. rewrite list_lookup_insert_ne by done. by rewrite decide_False.
Qed.
Lemma mi_act c h w g G c' w' g' i p p' ops R' V' d' o t1 : MInv c h w g G -> goon c h w G w' R' V' -> Inv w' -> wm w' = c_mem c' -> moved (Thread i) w w' ->
  OInv scripts c' (h ++ []) g' -> grows g g' -> c_thr c !! i = Some (TRun p, ops) -> c_thr c' = <[i := (TRun p', ops)]> (c_thr c) ->
  last_at i h = Some (t1, ECall i o) ->
  (forall y, out R' y -> settled (c_mem c') (<[i := (TRun p', ops)]> (c_thr c)) (fun j => if decide (j = i) then (d', (oT G i).2) else oT G j) y) ->
  (forall hd j, j <> i -> wvl w !! hd = Some (VHold j) -> hd ∉ oV G -> hd ∉ V') ->
  in_call h w' R' V' i o p' (d', (oT G i).2) ->
  exists G', MInv c' (h ++ []) w' g' G'.
Proof.
  intros M N I' Em' Mv O' Hg Hc Et L Hout Hhold Z. pose proof (lookup_lt_Some _ _ _ Hc) as Hi.
  exists (mk_o R' V' (fun j => if decide (j = i) then (d', (oT G i).2) else oT G j)).
  eapply (mi_next c h w g G c' [] w' g' _ _ _ i); try done.
  - rewrite Et. done.
  - intros j q opsj Hne Hj. rewrite Et, list_lookup_insert_ne in Hj by done. split; [done|]. by rewrite decide_False.
  - intros q opsj Hj. rewrite Et, list_lookup_insert in Hj by done. injection Hj as <- <-. exists t1, o. rewrite app_nil_r. split; [done|].
    by rewrite decide_True.
  - intros x. rewrite app_nil_r. by left.
  - intros x y. rewrite app_nil_r. by left.
  - by right.
Qed.

Lemma mi_step F a c h w g G w' g' : MInv c h w g G -> SInv scripts c h w -> SInv scripts (c_stepv F a c).1 (h ++ (c_stepv F a c).2) w' ->
  Mono w w' -> moved a w w' -> OInv scripts (c_stepv F a c).1 (h ++ (c_stepv F a c).2) g' -> grows g g' ->
  exists G', MInv (c_stepv F a c).1 (h ++ (c_stepv F a c).2) w' g' G'.
Proof.
  intros M S S' Mo Mv O' Hg. pose proof (si_inv _ _ _ _ S) as I. pose proof (si_inv _ _ _ _ S') as I'. pose proof (si_mem _ _ _ _ S) as Em. pose proof (si_mem _ _ _ _ S') as Em'.
  pose proof (goon_id _ _ _ _ _ _ M Mo) as N.
  destruct a as [i|j]; cbn [c_stepv] in *.
  - unfold sys_stepv in *. cbn [fst snd] in *. destruct (c_thr c !! i) as [[t ops]|] eqn:Hc; cycle 1.
    { eexists. eapply (mi_noop c h w g G _ w' g' i); done. }
    pose proof (lookup_lt_Some _ _ _ Hc) as Hi. destruct t as [|[a|e|R f k]].
    + destruct ops as [|o ops]; [eexists; eapply (mi_noop c h w g G _ w' g' i); done|]. cbn [fst snd map] in *.
      assert (conc_op o) as Ho. { apply (calls_op scripts Hcalls). destruct (si_thr _ _ _ _ S i _ _ Hc) as [Ho _]. apply Ho. by left. }
      set (T' := fun j => if decide (j = i) then (D0, (oR G, oV G)) else oT G j). exists (mk_o (oR G) (oV G) T').
      eapply (mi_next c h w g G _ [(c_time c, ECall i o)] w' g' _ _ _ i); try done; cbn [c_thr c_mem].
      * intros y Hy. destruct (mi_out _ _ _ _ _ M y Hy) as [?|[?|(j & q & opsj & hh & x & Hj & Ep)]]; [by left|right; by left|].
        assert (j <> i) as Hne by congruence. right. right. exists j, q, opsj, hh, x. rewrite list_lookup_insert_ne by done. subst T'. cbv beta. by rewrite decide_False.
      * intros j q opsj Hne Hj. rewrite list_lookup_insert_ne in Hj by done. split; [done|]. subst T'. cbv beta. by rewrite decide_False.
      * intros q opsj Hj. rewrite list_lookup_insert in Hj by done. injection Hj as <- <-. exists (c_time c), o.
        split; [by rewrite last_at_snoc, decide_True|]. subst T'. cbv beta. rewrite decide_True by done. split; cbn; try done.
        -- by apply goes_call.
        -- intros x y Hx Ht. by eapply tc_out.
        -- intros h1 t o' h2 x E Hq Hb. apply ConcLen.snoc_mid in E as [(-> & _ & _)|(h2' & -> & E)].
           ++ destruct (mi_told _ _ _ _ _ M x Hb) as (hd & H1 & H2). exists hd. split; [done|]. by eapply tagv_mono.
           ++ apply Forall_app in Hq as [_ Hq]. rewrite Forall_singleton in Hq. by destruct Hq.
        -- by intros hd ?%elem_of_nil.
        -- by intros hd x ?%elem_of_nil.
      * intros x [?|(j & a & E & _)]%told_snoc; [by left|discriminate E].
      * intros x y [?|(j & t1 & k & E & _)]%replaces_snoc; [by left|discriminate E].
      * left. eexists. split; [done|]. intros h1 t o' h2 t' a E. exfalso. rewrite app_comm_cons, app_assoc in E. by apply app_inj_tail in E as [_ E].
    + cbn [fst snd map] in *. destruct (mi_thr _ _ _ _ _ M i _ _ Hc) as (t1 & o & L & Z). pose proof (ic_go _ _ _ _ _ _ _ _ Z) as [Hp Hs].
      pose proof (ic_ph _ _ _ _ _ _ _ _ Z) as Hph.
      exists (mk_o (oR G) (oV G) (oT G)).
      eapply (mi_next c h w g G _ [(c_time c, ERet i a)] w' g' _ _ _ i); try done; cbn [c_thr c_mem].
      * intros y Hy. destruct (mi_out _ _ _ _ _ M y Hy) as [?|[?|(j & q & opsj & hh & x & Hj & Ep)]]; [by left|right; by left|].
        assert (j <> i) as Hne. { intros ->. apply Hp. unfold pending. by rewrite Ep. }
        right. right. exists j, q, opsj, hh, x. by rewrite list_lookup_insert_ne.
      * intros j q opsj Hne Hj. by rewrite list_lookup_insert_ne in Hj.
      * intros q opsj Hj. by rewrite list_lookup_insert in Hj.
      * intros x [?|(j & a' & [= <- <-] & Ha)]%told_snoc; [by left|]. right. destruct Ha as [->|[->|(k & r & t2 & -> & L')]].
        -- destruct Hs as [hd Hs]. destruct (ic_rd _ _ _ _ _ _ _ _ Z _ _ Hs) as (H1 & _ & H2). exists hd. split; [done|]. by eapply tagv_mono.
        -- destruct Hs as (hd & ho & _ & Hs). destruct (ic_rd _ _ _ _ _ _ _ _ Z _ _ Hs) as (H1 & _ & H2). exists ho. split; [done|]. by eapply tagv_mono.
        -- rewrite L in L'. injection L' as -> ->. destruct r as [y|].
           ++ destruct Hs as (hd & ho & Ep & _). rewrite Ep in Hph. destruct Hph as (H1 & _ & _ & x' & [= <-] & H2). exists hd. split; [done|]. by eapply tagv_mono.
           ++ destruct Hs as (hd & Ep). rewrite Ep in Hph. destruct Hph as (H1 & x' & [= <-] & H2). exists hd. split; [done|]. by eapply tagv_mono.
      * intros x y [?|(j & t2 & k & [= <- ->] & L')]%replaces_snoc; [by left|]. right. rewrite L in L'. injection L' as -> ->.
        destruct Hs as (hd & ho & Ep & _). rewrite Ep in Hph. destruct Hph as (_ & H1 & H2 & x' & [= <-] & H3). exists hd, ho.
        split; [by eapply tagv_mono|]. split; [by eapply tagv_mono|done].
      * left. eexists. split; [done|]. intros h1 t o' h2 t' a' E Hq x y hx hy Ha Ht Hx Hy Htc.
        rewrite app_comm_cons, app_assoc in E. apply app_inj_tail in E as [E [= <- <-]].
        destruct (ic_told _ _ _ _ _ _ _ _ Z _ _ _ _ x E Hq Ht) as (hd & H1 & H2).
        assert (exists hd', hd' ∈ oV G /\ ~ out (oT G i).2.1 hd' /\ tagv w hd' y) as (hd' & H3 & H4 & H5).
        { destruct Ha as [->| ->]; [destruct Hs as [hd' Hs]|destruct Hs as (_ & hd' & _ & Hs)]; exists hd'; by apply (ic_rd _ _ _ _ _ _ _ _ Z). }
        assert (forall hd x, tagv w' hd x -> gA g' !! x = Some hd) as Hone by (intros ? ?; by eapply (one_next c h w g G _ _ w' g' (Thread i))).
        apply (tagv_mono _ _ _ _ Mo), Hone in H2. apply (tagv_mono _ _ _ _ Mo), Hone in H5. apply Hone in Hx, Hy.
        assert (hx = hd) as -> by congruence. assert (hy = hd') as -> by congruence.
        apply H4. by eapply (ic_old _ _ _ _ _ _ _ _ Z).
    + eexists; eapply (mi_noop c h w g G _ w' g' i); done.
    + destruct (mi_thr _ _ _ _ _ M i _ _ Hc) as (t1 & o & L & Z). destruct (si_thr _ _ _ _ S i _ _ Hc) as [_ (t2 & o' & L' & Hcw)].
      destruct (Hcw w (rely_refl i w) I (sinv_room _ Hcalls _ _ _ S)) as (r & w2 & Hf & _). clear Hcw. generalize dependent (wm w2). intros m' Hf. clear w2.
      rewrite Em in Hf. rewrite Hf in *. cbn [fst snd map c_mem c_thr] in *.
      pose proof (ic_go _ _ _ _ _ _ _ _ Z) as Hgo. cbn [goes] in Hgo. pose proof (ic_ph _ _ _ _ _ _ _ _ Z) as Hph.
      pose proof (ic_seen _ _ _ _ _ _ _ _ Z) as Hsn. pose proof (ic_rd _ _ _ _ _ _ _ _ Z) as Hrd.
      assert (forall d', eph d' = eph (oT G i).1 -> vals m' = vals (c_mem c) -> (forall h, GVal h ∈ retired m' <-> GVal h ∈ retired (c_mem c)) ->
        forall y, out (oR G) y -> settled m' (<[i := (TRun (k r), ops)]> (c_thr c)) (fun j => if decide (j = i) then (d', (oT G i).2) else oT G j) y) as Hquiet.
      { intros d' Ed E1 E2 y Hy. eapply settled_set; [by apply (mi_out _ _ _ _ _ M)|by eexists|by apply E2|by rewrite E1|]. intros hh x Hx. right. by rewrite Ed. }
      assert (forall hd x, (hd, x) ∈ erd (oT G i).1 -> hd ∈ oV G /\ ~ out (oT G i).2.1 hd /\ tagv w' hd x) as Hrd'.
      { intros hd x Hx. destruct (Hrd hd x Hx) as (? & ? & ?). split; [done|]. split; [done|]. by eapply tagv_mono. }
      assert (forall j hd, j <> i -> wvl w !! hd = Some (VHold j) <-> wvl w' !! hd = Some (VHold j)) as Hoth by (intros j hd Hne; apply Mv; congruence).
      destruct (eph (oT G i).1) as [|hd|hd ho y|hd ho y|hd] eqn:Ep.
      * destruct Hgo as [[H1 H2]|[(od & H1 & H2)|[(hd & od & H1 & H2 & H3 & H4)|(x & od & Hx & H1 & H2 & H3 & H4)]]].
        -- destruct (H1 _ _ _ Hf) as (E1 & E2 & E3). eapply (mi_act c h w g G _ w' g' i _ (k r) ops _ _ (oT G i).1 o t1); try done.
           ++ by apply Hquiet.
           ++ eapply in_call_own; try done. by rewrite Ep.
        -- destruct (H1 _ _ _ Hf) as (-> & p & l & s & Hp & Hs). set (hd := od r) in *.
           assert (Mono w w' -> goon c h w G w' (oR G) (if decide (hd = 0%N) then oV G else {[hd]} ∪ oV G)) as N'.
           { intros _. case_decide as Hz; [done|]. split; try done.
             - intros x y E. destruct (mi_dom _ _ _ _ _ M x y E). set_solver.
             - set_solver.
             - intros x [->%elem_of_singleton|Hx]%elem_of_union; [|by apply N].
               rewrite <- Em in Hp. destruct (iv_node _ I p _ Hp) as [_ Hl]. destruct (lo_isval _ _ _ Hl s hd Hs Hz) as [z Hz']. exists z. by apply (mo_tag _ _ Mo). }
           specialize (N' Mo).
           assert (hd <> 0%N -> wvl w !! hd = Some (VSlot p s)) as Hpl. { intros Hz. apply slot_place; [done| |done]. rewrite Em. by exists l. }
           eapply (mi_act c h w g G _ w' g' i _ (k r) ops (oR G) (if decide (hd = 0%N) then oV G else {[hd]} ∪ oV G) (esee hd (oT G i).1) o t1); try done; cbn [c_mem].
           ++ by apply Hquiet.
           ++ intros hd' j Hne Hh Hn. case_decide as Hz; [done|]. rewrite not_elem_of_union, not_elem_of_singleton. split; [|done]. intros ->. rewrite (Hpl Hz) in Hh. done.
           ++ eapply in_call_own; try done.
              ** apply H2.
              ** intros hd' Hin Hz. cbn in Hin. assert (hd' ∈ oV G -> hd' ∈ (if decide (hd = 0%N) then oV G else {[hd]} ∪ oV G)) as Hsub by (apply N').
                 apply elem_of_cons in Hin as [->|Hin]; [|destruct (Hsn hd' Hin Hz); auto]. rewrite decide_False by done. split; [set_solver|].
                 intros [x Hx]. apply (ic_R _ _ _ _ _ _ _ _ Z) in Hx. apply (out_slot c h w g G hd M S (ex_intro _ x Hx) p s). by apply Hpl.
              ** intros hd' x Hin. destruct (Hrd' hd' x Hin) as (? & ? & ?). split; [by apply N'|done].
              ** cbn. by rewrite Ep.
        -- destruct (H1 _ _ _ Hf) as (-> & Hv). eapply (mi_act c h w g G _ w' g' i _ (k r) ops _ _ (E (esn (oT G i).1) ((hd, od r) :: erd (oT G i).1) PNone) o t1); try done; cbn [c_mem].
           ++ by apply Hquiet.
           ++ eapply in_call_own; try done.
              intros hd' x Hin. cbn in Hin. apply elem_of_cons in Hin as [[= -> ->]|Hin]; [|by apply Hrd']. destruct (Hsn hd H2 H3) as [? ?].
                 split; [done|]. split; [done|]. rewrite <- Em in Hv. destruct (iv_tag _ I _ _ Hv) as [kk Hk]. exists kk. by apply (mo_tag _ _ Mo).
        -- destruct (H1 _ _ _ Hf) as (E1 & E2 & E3). pose proof (H3 _ _ _ Hf) as Eo. rewrite <- Em in E1, E2, Eo.
           destruct (new_hold i w w' x I I') as (Hn1 & Hn2 & Hn3).
           { by rewrite Em', E1. } { by rewrite Em', E2. } { intros j Hne. by apply Hoth. } { intros p s hd. rewrite Em', Em. apply (H2 _ _ _ Hf). }
           rewrite <- Eo in *. set (hd := od r) in *.
           assert (hd ∉ oV G) as HnV. { intros Hin. destruct (mi_tag _ _ _ _ _ M hd Hin) as [z Hz]. apply (iv_fresh _ I) in Hz. rewrite <- Eo in Hz. lia. }
           assert (forall d', (forall h y x, eph d' <> PPut h y x) -> forall y, out (oR G) y -> settled m' (<[i := (TRun (k r), ops)]> (c_thr c)) (fun j => if decide (j = i) then (d', (oT G i).2) else oT G j) y) as Hst.
           { intros d' _ y Hy. eapply settled_set; [by apply (mi_out _ _ _ _ _ M)|by eexists|by rewrite E2, Em| |intros ? ?; congruence].
             rewrite E1, Em. intros Hy'. rewrite lookup_insert_ne; [done|]. intros ->. destruct Hy as [z Hz]. by apply (mi_dom _ _ _ _ _ M) in Hz as [_ ?]. }
           destruct H4 as [H4|H4].
           ++ eapply (mi_act c h w g G _ w' g' i _ (k r) ops _ _ (eat (PHeld hd) (oT G i).1) o t1); try done; cbn [c_mem].
              ** by apply Hst.
              ** eapply in_call_own; try done; [apply H4|]. cbn. split; [done|]. split; [done|]. by exists x.
           ++ eapply (mi_act c h w g G _ w' g' i _ (k r) ops (oR G) ({[hd]} ∪ oV G) (eat (PPlaced hd) (oT G i).1) o t1); try done; cbn [c_mem].
              ** split; try done.
                 --- intros a b E. destruct (mi_dom _ _ _ _ _ M a b E). set_solver.
                 --- set_solver.
                 --- intros a [->%elem_of_singleton|Ha]%elem_of_union; [by eapply tagv_some|by apply N].
              ** by apply Hst.
              ** intros hd' j Hne Hh Hn. rewrite not_elem_of_union, not_elem_of_singleton. split; [|done]. intros ->. congruence.
              ** eapply in_call_own; try done.
                 --- split; try done.
                     +++ intros a b E. destruct (mi_dom _ _ _ _ _ M a b E). set_solver.
                     +++ set_solver.
                     +++ intros a [->%elem_of_singleton|Ha]%elem_of_union; [by eapply tagv_some|by apply N].
                 --- apply H4.
                 --- intros hd' Hin Hz. destruct (Hsn hd' Hin Hz). split; [set_solver|done].
                 --- intros hd' z Hin. destruct (Hrd' hd' z Hin) as (? & ? & ?). split; [set_solver|done].
                 --- cbn. split; [set_solver|]. by exists x.
      * destruct Hph as (Hh & HnV & x & Ho & Ht). destruct Hgo as [(H1 & H2 & H3)|(H1 & ho & y & H2 & H3)].
        -- destruct (H1 _ _ _ Hf) as (E1 & E2 & E3). eapply (mi_act c h w g G _ w' g' i _ (k r) ops (oR G) (oV G) (oT G i).1 o t1); try done.
           ++ by apply Hquiet.
           ++ eapply in_call_own; try done. rewrite Ep. pose proof (tagv_mono _ _ _ _ Mo Ht) as Ht'. cbn. split; [|split; [done|by exists x]].
              eapply (still_hold i w w'); try done; try (by eapply tagv_some).
              ** rewrite Em', E1, <- Em. apply tag_val; [done|by eapply tagv_some|by eexists].
              ** intros j Hne. by apply Hoth.
              ** intros p s. rewrite Em', Em. apply (H2 _ _ _ Hf).
              ** rewrite Em', Em. apply E2.
        -- destruct (H1 _ _ _ Hf) as (E1 & E2 & E3). destruct (Hrd ho y H2) as (Hho & Hho' & Hhy).
           assert (goon c h w G w' (<[hd := ho]> (oR G)) ({[hd]} ∪ oV G)) as N'.
           { split; try done.
             - intros a Ha. rewrite lookup_insert_ne; [done|]. congruence.
             - intros a b [[<- <-]|[_ E]]%lookup_insert_Some; [set_solver|]. destruct (mi_dom _ _ _ _ _ M a b E). set_solver.
             - set_solver.
             - intros a [->%elem_of_singleton|Ha]%elem_of_union; [|by apply N]. eapply tagv_some. by eapply tagv_mono. }
           eapply (mi_act c h w g G _ w' g' i _ (k r) ops _ _ (eat (PPut hd ho y) (oT G i).1) o t1); try exact N'; try done; cbn [c_mem].
           ++ intros z [a [[<- <-]|[_ E]]%lookup_insert_Some].
              ** right. right. exists i, (k r), ops, hd, y. rewrite list_lookup_insert by done. by rewrite decide_True.
              ** eapply settled_set; [apply (mi_out _ _ _ _ _ M); by exists a|by eexists|by apply E2|by rewrite E1|]. intros ? ?. congruence.
           ++ intros hd' j Hne Hh' Hn. rewrite not_elem_of_union, not_elem_of_singleton. split; [|done]. intros ->. congruence.
           ++ eapply in_call_own; try exact N'; try done.
              ** intros hd' Hin Hz. destruct (Hsn hd' Hin Hz). split; [set_solver|done].
              ** intros hd' z Hin. destruct (Hrd' hd' z Hin) as (? & ? & ?). split; [set_solver|done].
              ** cbn. split; [set_solver|]. rewrite lookup_insert. split; [done|]. split; [by eapply tagv_mono|]. exists x. split; [done|]. by eapply tagv_mono.
      * assert (ph_ok w' (oR G) (oV G) i o (PPut hd ho y)) as Hph'.
        { destruct Hph as (P1 & P2 & P3 & x & P4 & P5). cbn. split; [done|]. split; [done|]. split; [by eapply tagv_mono|]. exists x. split; [done|]. by eapply tagv_mono. }
        destruct Hgo as [(H1 & H2 & H3)|(H1 & H2 & H3)].
        -- destruct (H1 _ _ _ Hf) as (E1 & E2 & E3). eapply (mi_act c h w g G _ w' g' i _ (k r) ops (oR G) (oV G) (oT G i).1 o t1); try done.
           ++ by apply Hquiet.
           ++ eapply in_call_own; try done. by rewrite Ep.
        -- destruct (H1 _ _ _ Hf) as (E1 & E2 & E3). eapply (mi_act c h w g G _ w' g' i _ (k r) ops (oR G) (oV G) (eat (PGone hd ho y) (oT G i).1) o t1); try done; cbn [c_mem].
           ++ intros z Hz. eapply settled_set; [by apply (mi_out _ _ _ _ _ M)|by eexists|rewrite E2; by right|by rewrite E1|]. intros ? ? Hx.
              left. rewrite Ep in Hx. injection Hx as _ -> _. rewrite E2. by left.
           ++ eapply in_call_own; done.
      * assert (ph_ok w' (oR G) (oV G) i o (PGone hd ho y)) as Hph'.
        { destruct Hph as (P1 & P2 & P3 & x & P4 & P5). cbn. split; [done|]. split; [done|]. split; [by eapply tagv_mono|]. exists x. split; [done|]. by eapply tagv_mono. }
        destruct Hgo as (H1 & H3). destruct (H1 _ _ _ Hf) as (E1 & E2 & E3). eapply (mi_act c h w g G _ w' g' i _ (k r) ops (oR G) (oV G) (oT G i).1 o t1); try done.
        -- by apply Hquiet.
        -- eapply in_call_own; try done. by rewrite Ep.
      * assert (ph_ok w' (oR G) (oV G) i o (PPlaced hd)) as Hph'.
        { destruct Hph as (P1 & x & P4 & P5). cbn. split; [done|]. exists x. split; [done|]. by eapply tagv_mono. }
        destruct Hgo as (H1 & H3). destruct (H1 _ _ _ Hf) as (E1 & E2 & E3). eapply (mi_act c h w g G _ w' g' i _ (k r) ops (oR G) (oV G) (oT G i).1 o t1); try done.
        -- by apply Hquiet.
        -- eapply in_call_own; try done. by rewrite Ep.
  - assert (moved (Thread (length (c_thr c))) w w') as Mv'. { destruct Mv as [Mv1 Mv2]. split; [|done]. intros j' hd _. by apply Mv1. }
    destruct (retired (c_mem c) !! j) as [gb|] eqn:Ej; [|eexists; eapply (mi_noop c h w g G _ w' g'); done].
    destruct (c_blk c !! j) as [[|x B]|] eqn:Eb; [|eexists; eapply (mi_noop c h w g G _ w' g'); done..].
    destruct (reclaim1 gb (mwith_retired (delete j (retired (c_mem c))) (c_mem c))) as [m'|er] eqn:Er; [|eexists; eapply (mi_noop c h w g G _ w' g'); done].
    cbn [fst snd c_mem c_thr] in *. exists (mk_o (oR G) (oV G) (oT G)).
    eapply (mi_next c h w g G _ [] w' g' _ _ _ (length (c_thr c))); try done; cbn [c_mem c_thr].
    + assert (forall y, vals (c_mem c) !! y = None -> vals m' !! y = None) as Hn.
      { intros y Hy. destruct gb as [hh|bb]; cbn in Er; repeat case_match; try done; injection Er as <-; cbn; [|done].
        rewrite lookup_delete_None. by right. }
      assert (forall y, GVal y ∈ retired (c_mem c) -> GVal y ∈ retired m' \/ vals m' !! y = None) as Hr.
      { intros y Hy. assert (gb = GVal y \/ gb <> GVal y) as [->|Hne] by (destruct gb as [hh|]; [destruct (decide (hh = y)) as [->|]; [by left|right; congruence]|by right]).
        - right. cbn in Er. case_match; [|done]. injection Er as <-. cbn. apply lookup_delete.
        - left. assert (retired m' = delete j (retired (c_mem c))) as ->. { destruct gb as [hh|bb]; cbn in Er; repeat case_match; try done; by injection Er as <-. }
          apply elem_of_list_lookup in Hy as [n Hn']. apply elem_of_list_lookup. destruct (decide (n < j)) as [Hlt|Hge].
          + exists n. by rewrite lookup_delete_lt.
          + assert (n <> j) by congruence. exists (pred n). rewrite lookup_delete_ge by lia. by replace (Datatypes.S (pred n)) with n by lia. }
      intros y Hy. destruct (mi_out _ _ _ _ _ M y Hy) as [Hy'|[Hy'|H]].
      * destruct (Hr y Hy'); [by left|right; by left].
      * right. left. by apply Hn.
      * right. by right.
    + intros p ops Hp. apply lookup_lt_Some in Hp. lia.
    + intros y. rewrite app_nil_r. by left.
    + intros y z. rewrite app_nil_r. by left.
    + by right.
Qed.
Lemma mi_run F acts : forall c h w g G, MInv c h w g G -> OInv scripts c h g -> SInv scripts c h w ->
  exists w' g' G', MInv (c_runv F acts c).1 (h ++ (c_runv F acts c).2) w' g' G'.
Proof.
  induction acts as [|a acts IH]; intros c h w g G M O S; cbn [c_runv].
  - exists w, g, G. cbn. by rewrite app_nil_r.
  - destruct (c_step_ok scripts Hcalls F a c h w S) as (w1 & S1 & _ & Mo & Mv).
    destruct (oi_step scripts Hdis F a c h g w w1 O) as (g1 & O1 & Hg); [apply S|apply S|apply S1|apply S1|apply S1|].
    destruct (mi_step F a c h w g G w1 g1 M S S1 Mo Mv O1 Hg) as [G1 M1]. destruct (c_stepv F a c) as [c1 h1]. cbn [fst snd] in *.
    destruct (IH c1 (h ++ h1) w1 g1 G1 M1 O1 S1) as (w2 & g2 & G2 & M2). destruct (c_runv F acts c1) as [c2 h2]. cbn [fst snd] in *.
    exists w2, g2, G2. by rewrite app_assoc.
Qed.
Lemma mi_start : MInv (c_start scripts) [] w_start (mk_g ∅ ∅ (fun _ => (D [] [] false None, []))) (mk_o ∅ ∅ (fun _ => (D0, (∅, ∅)))).
Proof.
  split; cbn; try done.
  - intros y [x Hx]. done.
  - intros hd x [k Hk]. done.
  - intros i p ops Hi. apply list_lookup_fmap_Some in Hi as (ops' & _ & Hs). done.
  - intros x y (h1 & t & i & h2 & t1 & k & E & _). by destruct h1.
  - intros x (h1 & t & i & a & h2 & E & _). by destruct h1.
  - intros h1 t i o h2 t' a h3 x y hx hy E. by destruct h1.
Qed.
Lemma conc_order F acts c h h1 t i o h2 t' a h3 v v' : c_run F acts (c_start scripts) = (c, h) ->
  h = h1 ++ (t, ECall i o) :: h2 ++ (t', ERet i a) :: h3 -> Forall (fun e => event_of e.2 <> i) h2 ->
  a = AGet (Some v') \/ a = AIns (Some v') -> told_of v h1 -> ~ newer h v v'.
Proof.
  intros Hrun E Hq Ha Ht Hn. destruct (sim_run F acts _ _ (sim_start scripts)) as [Eh Hs].
  { intros acts'. destruct (conc_ok_v F scripts acts' Hcalls) as [w S]. by eapply sinv_running. }
  destruct (mi_run F acts (c_start scripts) [] _ _ _ mi_start (oi_start scripts Hdis Hcalls) (sinv_start scripts)) as (w & g & G & M).
  rewrite Hrun in Eh. cbn [fst snd app] in Eh, M. rewrite <- Eh in M. clear Eh Hs.
  assert (exists hv hv', tagv w hv v /\ tagv w hv' v' /\ tc (edge (oR G)) hv hv') as (hv & hv' & H1 & H2 & H3).
  { clear -M Hn. induction Hn as [x y H|x y z H H' IH].
    - destruct (mi_rep _ _ _ _ _ M x y H) as (hx & hy & H1 & H2 & H3). exists hx, hy. split; [done|]. split; [done|]. by apply tc_once.
    - destruct (mi_rep _ _ _ _ _ M x y H) as (hx & hy & H1 & H2 & H3). destruct IH as (hy' & hz & H4 & H5 & H6).
      assert (hy' = hy) as -> by (by eapply one_handle). exists hx, hz. split; [done|]. split; [done|]. by eapply tc_l. }
  by eapply (mi_ord _ _ _ _ _ M).
Qed.
End Order.
