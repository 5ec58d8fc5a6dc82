(** Concurrent executions in which all inserted values are different: the history is one of
    an atomic collection of entries. *)
From Verif Require Import Base Perm SpecKey KeyFacts Prog Version Mem Tree SpecTree TreeState Suffix SuffixFacts SpecLin SpecConc SpecAtomic ConcVar Conc ConcRead ConcBag ConcSys ConcTop ConcVal ConcOnce ConcDeed ConcOrder ConcItem.
From Verif Require ConcLen.

Lemma follows_other j Y : forall X q, Forall (fun y => item_of y <> j) Y -> follows j Out X q -> follows j Out (X ++ Y) q.
Proof.
  induction Y as [|y Y IH]; intros X q HY H; [by rewrite app_nil_r|]. apply Forall_cons in HY as [Hy HY].
  rewrite cons_middle, app_assoc. apply IH; [done|]. eapply follows_snoc; [done|]. by rewrite decide_False.
Qed.
Lemma plays_app s X s1 Y s' : plays s X s1 -> plays s1 Y s' -> plays s (X ++ Y) s'.
Proof. revert s. induction X as [|y X IH]; intros s; cbn; [by intros ->|]. intros (s2 & H1 & H2) H3. exists s2. split; [done|]. by apply IH. Qed.
Lemma value_key (l : list op) k k' x : NoDup (values_of l) -> Insert k x ∈ l -> Insert k' x ∈ l -> k = k'.
Proof.
  assert (forall l k x, Insert k x ∈ l -> x ∈ values_of l) as Hin.
  { intros l0 k0 x0 H. unfold values_of. apply elem_of_list_omap. by exists (Insert k0 x0). }
  induction l as [|o l IH]; intros Hd H H'; [by apply elem_of_nil in H|].
  assert (NoDup (values_of l)) as Hd'. { destruct o; cbn in Hd; try done. by apply NoDup_cons in Hd as [_ ?]. }
  apply elem_of_cons in H as [<-|H], H' as [E|H'].
  - by injection E as ->.
  - cbn in Hd. apply NoDup_cons in Hd as [Hd _]. destruct Hd. by eapply Hin.
  - subst o. cbn in Hd. apply NoDup_cons in Hd as [Hd _]. destruct Hd. by eapply Hin.
  - by apply IH.
Qed.

(** the value that an insertion has replaced had the same key *)
Lemma pend_key i v (p : P ans) k0 x0 t : forall d w h ho y, goes v d p says -> eph d = PPut h ho y \/ eph d = PGone h ho y ->
  cwp i p w (fin i (Insert k0 x0) t) -> Inv w -> room w -> (k0, y) ∈ wcalled w.
Proof.
  induction p as [a|e|R f k IH]; intros d w h ho y Hg Ed Hc I Hr.
  - destruct Hg as [Hn Hs]. destruct Ed as [Ed|Ed]; [destruct Hn; unfold pending; by rewrite Ed|]. destruct Hc as [_ Ha].
    destruct a as [[z|]| | | |]; cbn in Ha; try done; cbn in Hs.
    + destruct Hs as (h' & ho' & E & _). rewrite Ed in E. by injection E as _ _ ->.
    + destruct Hs as (h' & E). congruence.
  - cbn in Hg, Hc. assert (e = Panic) as -> by (apply Hg; unfold late; by destruct Ed as [-> | ->]). by destruct Hc.
  - destruct (Hc w (rely_refl i w) I Hr) as (r & w2 & Hf & I2 & G & Hk). rewrite <- (gu_called _ _ _ G). cbn [goes] in Hg.
    assert (forall d', goes v d' (k r) says -> eph d' = PPut h ho y \/ eph d' = PGone h ho y -> vals (wm w2) = vals (wm w) -> (k0, y) ∈ wcalled w2) as Hgo.
    { intros d' H1 H2 H3. eapply (IH r d' w2); try done. by eapply room_quiet. }
    destruct Ed as [Ed|Ed]; rewrite Ed in Hg.
    + destruct Hg as [(H1 & H2 & H3)|(H1 & H2 & H3)]; destruct (H1 _ _ _ Hf) as (E1 & _).
      * apply (Hgo d); [by apply H3|by left|done].
      * eapply Hgo; [by apply H3|by right|done].
    + destruct Hg as (H1 & H3). destruct (H1 _ _ _ Hf) as (E1 & _). apply (Hgo d); [by apply H3|by right|done].
Qed.

Section Atomic.
Context (scripts : list (list op)).
Hypothesis Hdis : NoDup (values_of (concat scripts)).
Hypothesis Hcalls : conc_calls scripts.

(** [lV]: the handles in place, or replaced; [lO]: those replaced; [lT]: for each thread what
    its call has done; [lX]: the record so far; [lS]: the entries after it *)
Record lg := mk_l { lV : gset N; lO : gset N; lT : nat -> did; lX : list item; lS : entries }.
Definition saw (q : place) (k : bytes) (x : N) : Prop := match q with Busy _ l => (k, x) ∈ l | _ => True end.
Definition ph_at (w : world) (V O : gset N) (i : nat) (o : op) (ph : phase) (q : place) : Prop :=
  match ph with
  | PNone => exists l, q = Busy o l
  | PHeld h => (exists l, q = Busy o l) /\ wvl w !! h = Some (VHold i) /\ h ∉ V /\ exists k x, o = Insert k x /\ wtag w !! h = Some (k, x)
  | PPut h ho y | PGone h ho y => q = Put (AIns (Some y)) /\ ho ∈ O /\ tagv w ho y /\ own o <> None
  | PPlaced h => q = Put (AIns None) /\ own o <> None
  end.
Record call_at (w : world) (V O : gset N) (i : nat) (o : op) (p : P ans) (d : did) (q : place) : Prop := {
  ca_go : goes (own o) d p says;
  ca_op : o ∈ concat scripts;
  ca_seen : forall hd, hd ∈ esn d -> hd <> 0%N -> hd ∈ V /\ exists k x, wtag w !! hd = Some (k, x) /\ saw q k x;
  ca_rd : forall hd x, (hd, x) ∈ erd d -> hd ∈ V /\ exists k, wtag w !! hd = Some (k, x) /\ saw q k x;
  ca_ph : ph_at w V O i o (eph d) q }.
Definition taken (m : mem) (thr : list (tstate * list op)) (T : nat -> did) (y : N) : Prop :=
  GVal y ∈ retired m \/ vals m !! y = None \/
  exists j p ops h x, thr !! j = Some (TRun p, ops) /\ eph (T j) = PPut h y x.
Definition held (thr : list (tstate * list op)) (T : nat -> did) (hd : N) : Prop :=
  exists j p ops, thr !! j = Some (TRun p, ops) /\ eph (T j) = PHeld hd.
Record LInv (c : csys) (h : list (N * event)) (w : world) (g : ghost) (G : lg) : Prop := {
  li_ev : events (lX G) = map snd h;
  li_dom : Forall (fun y => item_of y < length (c_thr c)) (lX G);
  li_play : plays ∅ (lX G) (lS G);
  li_s : forall k x, (k, x) ∈ lS G <-> exists hd, wtag w !! hd = Some (k, x) /\ hd ∈ lV G /\ hd ∉ lO G;
  li_V : forall hd, hd ∈ lV G -> is_Some (wtag w !! hd);
  li_O : forall hd, hd ∈ lO G -> hd ∈ lV G /\ taken (c_mem c) (c_thr c) (lT G) hd;
  li_one : forall hd x, tagv w hd x -> gA g !! x = Some hd;
  li_thr : forall i p ops, c_thr c !! i = Some (TRun p, ops) -> exists t1 o q, last_at i h = Some (t1, ECall i o) /\
    follows i Out (lX G) q /\ call_at w (lV G) (lO G) i o p (lT G i) q;
  li_idle : forall i ops, c_thr c !! i = Some (TIdle, ops) -> follows i Out (lX G) Out;
  li_held : forall hd, is_Some (wtag w !! hd) -> hd ∈ lV G \/ held (c_thr c) (lT G) hd;
  li_back : forall x, handed_back x h -> exists hd, hd ∈ lO G /\ tagv w hd x;
  li_nodup : NoDup (puts (lX G));
  li_puts : forall x, x ∈ puts (lX G) -> exists hd, hd ∈ lV G /\ tagv w hd x;
  li_asked : forall t i o, (t, ECall i o) ∈ h -> o ∈ concat scripts }.

Lemma l_one_next c h w g G c' h' w' g' a hd x : LInv c h w g G -> Mono w w' -> moved a w w' -> Inv w' -> wm w' = c_mem c' -> OInv scripts c' h' g' -> grows g g' ->
  tagv w' hd x -> gA g' !! x = Some hd.
Proof.
  intros M Mo [_ Mv2] I' Em' O' Hg Ht. destruct (wtag w !! hd) as [[k' x']|] eqn:E.
  - pose proof (mo_tag _ _ Mo _ _ E) as E'. destruct Ht as [k Hk]. rewrite Hk in E'. injection E' as <- <-. apply Hg, (li_one _ _ _ _ _ M). by exists k.
  - destruct (Mv2 hd) as [[? ?]|[_ [v Hv]]]; [by eapply tagv_some|congruence|]. destruct (iv_tag _ I' _ _ Hv) as [k Hk].
    assert (v = x) as -> by (eapply tagv_fun; [by exists k|done]). rewrite Em' in Hv. by apply (oi_val _ _ _ _ O').
Qed.
(** a replaced handle is in no slot *)
Lemma l_out_slot c h w g G y : LInv c h w g G -> SInv scripts c h w -> y ∈ lO G -> forall p s, wvl w !! y <> Some (VSlot p s).
Proof.
  intros M S Ho p s Hv. pose proof (si_inv _ _ _ _ S) as I. destruct (li_O _ _ _ _ _ M y Ho) as [HV Hst]. pose proof (li_V _ _ _ _ _ M y HV) as Ht.
  destruct Hst as [Hr|[Hn|(j & q & ops & hh & x & Hj & Ep)]].
  - rewrite <- (si_mem _ _ _ _ S) in Hr. apply lookup_retired in Hr as (_ & B & HB); [congruence|done].
  - rewrite <- (si_mem _ _ _ _ S) in Hn. destruct (tag_val w y I Ht) as [z Hz]; [by eexists|congruence].
  - destruct (li_thr _ _ _ _ _ M j q ops Hj) as (t1 & o & pl & L & _ & Z). destruct (si_thr _ _ _ _ S j _ _ Hj) as [_ (t2 & o' & L' & Hc)].
    pose proof (pend_hold j _ q _ _ _ w hh y x (ca_go _ _ _ _ _ _ _ _ Z) Ep Hc I (sinv_room _ Hcalls _ _ _ S) Ht). congruence.
Qed.
(** a handle in a slot is in place *)
Lemma l_slot_in c h w g G p s hd : LInv c h w g G -> Inv w -> is_Some (wtag w !! hd) -> wvl w !! hd = Some (VSlot p s) -> hd ∈ lV G.
Proof.
  intros M I Ht Hv. destruct (li_held _ _ _ _ _ M hd Ht) as [?|(j & q & ops & Hj & Ep)]; [done|].
  destruct (li_thr _ _ _ _ _ M j q ops Hj) as (t1 & o & pl & L & _ & Z). pose proof (ca_ph _ _ _ _ _ _ _ _ Z) as Hp. rewrite Ep in Hp.
  destruct Hp as (_ & Hp & _). congruence.
Qed.
Lemma call_frame w w' V O V' O' i o p d q : Mono w w' -> (forall x, x ∈ V -> x ∈ V') -> (forall x, x ∈ O -> x ∈ O') ->
  (forall hd, is_Some (wtag w !! hd) -> wvl w !! hd = Some (VHold i) -> hd ∉ V -> wvl w' !! hd = Some (VHold i) /\ hd ∉ V') ->
  call_at w V O i o p d q -> call_at w' V' O' i o p d q.
Proof.
  intros Mo HV HO Hh [Z1 Z2 Z3 Z4 Z5]. split; try done.
  - intros hd H1 H2. destruct (Z3 hd H1 H2) as (? & k & x & ? & ?). split; [auto|]. exists k, x. split; [by apply (mo_tag _ _ Mo)|done].
  - intros hd x H1. destruct (Z4 hd x H1) as (? & k & ? & ?). split; [auto|]. exists k. split; [by apply (mo_tag _ _ Mo)|done].
  - destruct (eph d) as [|hd|hd ho y|hd ho y|hd]; cbn in *; [done|..|done].
    + destruct Z5 as (H1 & H2 & H3 & k & x & H4 & H5). destruct (Hh hd ltac:(by eexists) H2 H3). split; [done|]. split; [done|]. split; [done|].
      exists k, x. split; [done|]. by apply (mo_tag _ _ Mo).
    + destruct Z5 as (H1 & H2 & H3 & H4). split; [done|]. split; [auto|]. split; [by eapply tagv_mono|done].
    + destruct Z5 as (H1 & H2 & H3 & H4). split; [done|]. split; [auto|]. split; [by eapply tagv_mono|done].
Qed.
(** thread [i], or the collector if there is no such thread, made a step *)
Lemma li_next c h w g G c' e w' g' V' O' T' Y s' i : LInv c h w g G -> Mono w w' -> Inv w' -> wm w' = c_mem c' -> moved (Thread i) w w' ->
  OInv scripts c' (h ++ e) g' -> grows g g' -> length (c_thr c') = length (c_thr c) ->
  events Y = map snd e -> Forall (fun y => item_of y = i /\ i < length (c_thr c)) Y -> plays (lS G) Y s' ->
  (forall k x, (k, x) ∈ s' <-> exists hd, wtag w' !! hd = Some (k, x) /\ hd ∈ V' /\ hd ∉ O') ->
  (forall hd, hd ∈ lV G -> hd ∈ V') -> (forall hd, hd ∈ lO G -> hd ∈ O') -> (forall hd, hd ∈ V' -> is_Some (wtag w' !! hd)) ->
  (forall hd, hd ∈ O' -> hd ∈ V' /\ taken (c_mem c') (c_thr c') T' hd) ->
  (forall hd j, j <> i -> wvl w !! hd = Some (VHold j) -> hd ∉ lV G -> hd ∉ V') ->
  (forall j, j <> i -> c_thr c' !! j = c_thr c !! j /\ T' j = lT G j) ->
  match e with [] => True | [x] => event_of x.2 = i | _ => False end ->
  (forall p ops, c_thr c' !! i = Some (TRun p, ops) -> exists t1 o q, last_at i (h ++ e) = Some (t1, ECall i o) /\
    follows i Out (lX G ++ Y) q /\ call_at w' V' O' i o p (T' i) q) ->
  (forall ops, c_thr c' !! i = Some (TIdle, ops) -> follows i Out (lX G ++ Y) Out) ->
  (forall hd, is_Some (wtag w' !! hd) -> hd ∈ V' \/ held (c_thr c') T' hd) ->
  (forall x, handed_back x (h ++ e) -> handed_back x h \/ exists hd, hd ∈ O' /\ tagv w' hd x) ->
  match Y with [IPut _ _ x _] => exists hd, hd ∉ lV G /\ hd ∈ V' /\ tagv w' hd x | [_] | [] => True | _ => False end ->
  (forall t j o, (t, ECall j o) ∈ e -> o ∈ concat scripts) ->
  LInv c' (h ++ e) w' g' (mk_l V' O' T' (lX G ++ Y) s').
Proof.
  intros M Mo I' Em' Mv O1 Hg El Hev HY Hpl Hs HV HO HVt HOt Hhold Hth He Hi Hid Hheld Hback Hput Hask.
  assert (forall hd x, tagv w' hd x -> gA g' !! x = Some hd) as Hone by (intros hd x Ht; by eapply (l_one_next c h w g G c' (h ++ e) w' g' (Thread i))).
  assert (forall j, j <> i -> Forall (fun y => item_of y <> j) Y) as HYo.
  { intros j Hne. eapply Forall_impl; [exact HY|]. cbn. intros y [-> _]. congruence. }
  split; cbn; try done.
  - rewrite events_app, Hev, map_app. f_equal. apply M.
  - rewrite El. apply Forall_app. split; [apply M|]. eapply Forall_impl; [exact HY|]. cbn. intros y [-> ?]. done.
  - eapply plays_app; [apply M|done].
  - intros j p ops Hj. destruct (decide (j = i)) as [->|Hne]; [by eapply Hi|]. destruct (Hth j Hne) as [Hc ET]. rewrite ET. rewrite Hc in Hj.
    destruct (li_thr _ _ _ _ _ M j p ops Hj) as (t1 & o & q & L & Hf & Z). exists t1, o, q. split.
    { destruct e as [|x [|]]; [by rewrite app_nil_r| |done]. rewrite last_at_snoc, decide_False; [done|]. congruence. }
    split; [apply follows_other; auto|]. eapply call_frame; [done..| |done]. intros hd _ H1 H2. split; [|by eapply Hhold]. apply Mv; [congruence|done].
  - intros j ops Hj. destruct (decide (j = i)) as [->|Hne]; [by eapply Hid|]. destruct (Hth j Hne) as [Hc _]. rewrite Hc in Hj.
    apply follows_other; [auto|]. by eapply (li_idle _ _ _ _ _ M).
  - intros x [(hd & H1 & H2)%(li_back _ _ _ _ _ M)|H]%Hback; [|done]. exists hd. split; [auto|by eapply tagv_mono].
  - rewrite puts_app. apply NoDup_app. split; [apply M|]. destruct Y as [|[ev|j k x r|j o k x] [|]]; cbn; try done; try (split; [by intros ? _ ?%elem_of_nil|by constructor]).
    destruct Hput as (hd & H1 & H2 & H3). split; [|by apply NoDup_singleton]. intros z Hz ->%elem_of_list_singleton.
    destruct (li_puts _ _ _ _ _ M x Hz) as (hd' & H4 & H5). apply (tagv_mono _ _ _ _ Mo), Hone in H5. apply Hone in H3. by assert (hd = hd') as -> by congruence.
  - intros x. rewrite puts_app, elem_of_app. intros [(hd & H1 & H2)%(li_puts _ _ _ _ _ M)|Hx].
    + exists hd. split; [auto|by eapply tagv_mono].
    + destruct Y as [|[ev|j k z r|j o k z] [|]]; cbn in Hx; try (by apply elem_of_nil in Hx); try done. apply elem_of_list_singleton in Hx as ->.
      destruct Hput as (hd & H1 & H2 & H3). by exists hd.
  - intros t j o [Hin|Hin]%elem_of_app; [by eapply (li_asked _ _ _ _ _ M)|by eapply Hask].
Qed.
(** the entries when no handle is put in place or replaced *)
Lemma s_same c h w g G w' : LInv c h w g G -> Mono w w' -> forall k x, (k, x) ∈ lS G <-> exists hd, wtag w' !! hd = Some (k, x) /\ hd ∈ lV G /\ hd ∉ lO G.
Proof.
  intros M Mo k x. rewrite (li_s _ _ _ _ _ M). split; intros (hd & H1 & H2 & H3); exists hd; (split; [|done]).
  - by apply (mo_tag _ _ Mo).
  - destruct (li_V _ _ _ _ _ M hd H2) as [z Hz]. pose proof (mo_tag _ _ Mo _ _ Hz). congruence.
Qed.
Lemma V_same c h w g G w' : LInv c h w g G -> Mono w w' -> forall hd, hd ∈ lV G -> is_Some (wtag w' !! hd).
Proof. intros M Mo hd H. destruct (li_V _ _ _ _ _ M hd H) as [z Hz]. exists z. by apply (mo_tag _ _ Mo). Qed.
(** nothing but time has passed *)
Lemma li_noop c h w g G c' w' g' i : LInv c h w g G -> SInv scripts c h w -> SInv scripts c' (h ++ []) w' -> Mono w w' -> moved (Thread i) w w' ->
  OInv scripts c' (h ++ []) g' -> grows g g' -> c_mem c' = c_mem c -> c_thr c' = c_thr c -> exists G', LInv c' (h ++ []) w' g' G'.
Proof.
  intros M S S' Mo Mv O' Hg Em Et. pose proof (si_inv _ _ _ _ S) as I. pose proof (si_inv _ _ _ _ S') as I'.
  assert (wm w' = wm w) as Ew by (by rewrite (si_mem _ _ _ _ S'), (si_mem _ _ _ _ S)).
  exists (mk_l (lV G) (lO G) (lT G) (lX G ++ []) (lS G)). eapply (li_next c h w g G c' [] w' g' _ _ _ [] _ i); try done.
  - by rewrite (si_mem _ _ _ _ S').
  - by rewrite Et.
  - by eapply s_same.
  - by eapply V_same.
  - rewrite Em, Et. apply M.
  - intros j _. by rewrite Et.
  - intros p ops Hi. rewrite Et in Hi. destruct (li_thr _ _ _ _ _ M i p ops Hi) as (t1 & o & q & L & Hf & Z). exists t1, o, q. rewrite !app_nil_r. split; [done|].
    split; [done|]. eapply call_frame; [done|done|done| |done]. intros hd Ht Hd Hn. split; [|done].
    assert (is_Some (wtag w' !! hd)) as Ht'. { destruct Ht as [z Hz]. exists z. by apply (mo_tag _ _ Mo). }
    eapply (still_hold i w w'); try done.
    + rewrite Ew. apply tag_val; [done|done|by eexists].
    + intros j Hne. apply Mv. congruence.
    + by rewrite Ew.
    + by rewrite Ew.
  - intros ops Hi. rewrite Et in Hi. rewrite app_nil_r. by eapply (li_idle _ _ _ _ _ M).
  - intros hd Ht. rewrite Et. apply (li_held _ _ _ _ _ M). destruct (proj2 Mv hd Ht) as [?|[H1 [z H2]]]; [done|]. rewrite Ew in H2. congruence.
  - intros x. rewrite app_nil_r. by left.
  - by intros t j o ?%elem_of_nil.
Qed.
(** thread [i] goes on *)
Lemma call_own w w' V O V' O' i o p d q p' d' q' : call_at w V O i o p d q -> Mono w w' -> (forall x, x ∈ V -> x ∈ V') ->
  (forall k x, saw q k x -> saw q' k x) -> goes (own o) d' p' says ->
  (forall hd, hd ∈ esn d' -> hd <> 0%N -> hd ∈ esn d \/ hd ∈ V' /\ exists k x, wtag w' !! hd = Some (k, x) /\ saw q' k x) ->
  (forall hd x, (hd, x) ∈ erd d' -> (hd, x) ∈ erd d \/ hd ∈ V' /\ exists k, wtag w' !! hd = Some (k, x) /\ saw q' k x) ->
  ph_at w' V' O' i o (eph d') q' -> call_at w' V' O' i o p' d' q'.
Proof.
  intros [Z1 Z2 Z3 Z4 Z5] Mo HV Hq Hg Hs Hr Hp. split; try done.
  - intros hd H1 H2. destruct (Hs hd H1 H2) as [H|H]; [|done]. destruct (Z3 hd H H2) as (? & k & x & ? & ?). split; [auto|]. exists k, x. split; [by apply (mo_tag _ _ Mo)|auto].
  - intros hd x H1. destruct (Hr hd x H1) as [H|H]; [|done]. destruct (Z4 hd x H) as (? & k & ? & ?). split; [auto|]. exists k. split; [by apply (mo_tag _ _ Mo)|auto].
Qed.
Lemma taken_set m m' thr T i p' ops d' y : taken m thr T y -> is_Some (thr !! i) ->
  (GVal y ∈ retired m -> GVal y ∈ retired m') -> (vals m !! y = None -> vals m' !! y = None) ->
  (forall h x, eph (T i) = PPut h y x -> GVal y ∈ retired m' \/ eph d' = PPut h y x) ->
  taken m' (<[i := (TRun p', ops)]> thr) (fun j => if decide (j = i) then d' else T j) y.
Proof.
  intros [H|[H|(j & q & opsj & h & x & Hj & Ep)]] Hi H1 H2 H3; [left; auto|right; left; auto|]. destruct (decide (j = i)) as [->|Hne].
  - destruct (H3 h x Ep) as [Hr|Hd]; [by left|]. right. right. exists i, p', ops, h, x. rewrite list_lookup_insert by (by apply lookup_lt_is_Some).
    by rewrite decide_True.
  - right. right. exists j, q, opsj, h, x. rewrite list_lookup_insert_ne by done. by rewrite decide_False.
Qed.
Lemma li_act c h w g G c' w' g' i p p' ops V' O' d' Y s' o t1 q' : LInv c h w g G -> Mono w w' -> Inv w' -> wm w' = c_mem c' -> moved (Thread i) w w' ->
  OInv scripts c' (h ++ []) g' -> grows g g' -> c_thr c !! i = Some (TRun p, ops) -> c_thr c' = <[i := (TRun p', ops)]> (c_thr c) ->
  last_at i h = Some (t1, ECall i o) -> plays (lS G) Y s' ->
  match Y with [] => True | [IPut j _ x _] => j = i /\ exists hd, hd ∉ lV G /\ hd ∈ V' /\ tagv w' hd x | [ISaw j _ _ _] => j = i | _ => False end ->
  (forall k x, (k, x) ∈ s' <-> exists hd, wtag w' !! hd = Some (k, x) /\ hd ∈ V' /\ hd ∉ O') ->
  (forall hd, hd ∈ lV G -> hd ∈ V') -> (forall hd, hd ∈ lO G -> hd ∈ O') -> (forall hd, hd ∈ V' -> is_Some (wtag w' !! hd)) ->
  (forall hd, hd ∈ O' -> hd ∈ V' /\ taken (c_mem c') (<[i := (TRun p', ops)]> (c_thr c)) (fun j => if decide (j = i) then d' else lT G j) hd) ->
  (forall hd j, j <> i -> wvl w !! hd = Some (VHold j) -> hd ∉ lV G -> hd ∉ V') ->
  follows i Out (lX G ++ Y) q' -> call_at w' V' O' i o p' d' q' ->
  (forall hd, is_Some (wtag w' !! hd) -> ~ is_Some (wtag w !! hd) -> hd ∈ V' \/ eph d' = PHeld hd) ->
  (forall hd, eph (lT G i) = PHeld hd -> hd ∈ V' \/ eph d' = PHeld hd) ->
  exists G', LInv c' (h ++ []) w' g' G'.
Proof.
  intros M Mo I' Em' Mv O1 Hg Hc Et L Hpl HY Hs HV HO HVt HOt Hhold Hf Z Hh1 Hh2. pose proof (lookup_lt_Some _ _ _ Hc) as Hi.
  exists (mk_l V' O' (fun j => if decide (j = i) then d' else lT G j) (lX G ++ Y) s').
  eapply (li_next c h w g G c' [] w' g' _ _ _ _ _ i); try done.
  - by rewrite Et, insert_length.
  - destruct Y as [|[e|j k x r|j o' k x] [|]]; done.
  - destruct Y as [|[e|j k x r|j o' k x] [|]]; try done; apply Forall_singleton; cbn; [by destruct HY as [-> _]|by subst j].
  - by rewrite Et.
  - intros j Hne. rewrite Et, list_lookup_insert_ne by done. split; [done|]. by rewrite decide_False.
  - intros q opsj Hj. rewrite Et, list_lookup_insert in Hj by done. injection Hj as <- <-. exists t1, o, q'. rewrite app_nil_r. split; [done|].
    by rewrite decide_True.
  - intros opsj Hj. by rewrite Et, list_lookup_insert in Hj.
  - rewrite Et. assert (forall hd, eph d' = PHeld hd -> held (<[i := (TRun p', ops)]> (c_thr c)) (fun j => if decide (j = i) then d' else lT G j) hd) as Hme.
    { intros hd E. exists i, p', ops. rewrite list_lookup_insert by done. by rewrite decide_True. }
    intros hd Ht. destruct (decide (is_Some (wtag w !! hd))) as [Ho|Ho].
    + destruct (li_held _ _ _ _ _ M hd Ho) as [?|(j & q & opsj & Hj & Ep)]; [by left; apply HV|]. destruct (decide (j = i)) as [->|Hne].
      * destruct (Hh2 hd Ep); [by left|right]. by apply Hme.
      * right. exists j, q, opsj. rewrite list_lookup_insert_ne by done. by rewrite decide_False.
    + destruct (Hh1 hd Ht Ho); [by left|right]. by apply Hme.
  - intros x. rewrite app_nil_r. by left.
  - destruct Y as [|[e|j k x r|j o' k x] [|]]; try done. by destruct HY.
  - by intros t j o' ?%elem_of_nil.
Qed.
(** what the tags say was asked for *)
Lemma tag_asked c h w hd k x : SInv scripts c h w -> wtag w !! hd = Some (k, x) -> Insert k x ∈ concat scripts.
Proof.
  intros S H. apply (iv_called _ (si_inv _ _ _ _ S)), (si_ins _ _ _ _ S) in H. apply elem_of_list_omap in H as (o & H1 & H2).
  destruct o; try done. by injection H2 as -> ->.
Qed.

Lemma li_step F a c h w g G w' g' : LInv c h w g G -> SInv scripts c h w -> SInv scripts (c_stepv F a c).1 (h ++ (c_stepv F a c).2) w' ->
  Mono w w' -> moved a w w' -> OInv scripts (c_stepv F a c).1 (h ++ (c_stepv F a c).2) g' -> grows g g' -> prompt (h ++ (c_stepv F a c).2) ->
  exists G', LInv (c_stepv F a c).1 (h ++ (c_stepv F a c).2) w' g' G'.
Proof.
  intros M S S' Mo Mv O' Hg Hpr. pose proof (si_inv _ _ _ _ S) as I. pose proof (si_inv _ _ _ _ S') as I'. pose proof (si_mem _ _ _ _ S) as Em. pose proof (si_mem _ _ _ _ S') as Em'.
  pose proof (s_same _ _ _ _ _ _ M Mo) as Hss. pose proof (V_same _ _ _ _ _ _ M Mo) as HVs.
  destruct a as [i|j]; cbn [c_stepv] in *.
  - unfold sys_stepv in *. cbn [fst snd] in *. destruct (c_thr c !! i) as [[t ops]|] eqn:Hc; cycle 1.
    { eapply (li_noop c h w g G _ w' g' i); done. }
    pose proof (lookup_lt_Some _ _ _ Hc) as Hi. destruct t as [|[a|e|R f k]].
    + destruct ops as [|o ops]; [eapply (li_noop c h w g G _ w' g' i); done|]. cbn [fst snd map] in *.
      assert (o ∈ concat scripts) as Hin. { destruct (si_thr _ _ _ _ S i _ _ Hc) as [Ho _]. apply Ho. by left. }
      pose proof (calls_op scripts Hcalls o Hin) as Ho.
      set (T' := fun j => if decide (j = i) then D0 else lT G j). exists (mk_l (lV G) (lO G) T' (lX G ++ [IEv (ECall i o)]) (lS G)).
      assert (follows i Out (lX G ++ [IEv (ECall i o)]) (Busy o [])) as Hfo.
      { eapply follows_snoc; [by eapply (li_idle _ _ _ _ _ M)|]. cbn. by rewrite decide_True. }
      eapply (li_next c h w g G _ [(c_time c, ECall i o)] w' g' _ _ _ _ _ i); try done; cbn [c_thr c_mem].
      * by rewrite insert_length.
      * by apply Forall_singleton.
      * exists (lS G). done.
      * intros y Hy. destruct (li_O _ _ _ _ _ M y Hy) as [HV [?|[?|(j & q & opsj & hh & x & Hj & Ep)]]]; (split; [done|]); [by left|right; by left|].
        assert (j <> i) as Hne by congruence. right. right. exists j, q, opsj, hh, x. rewrite list_lookup_insert_ne by done. subst T'. cbv beta. by rewrite decide_False.
      * intros j Hne. rewrite list_lookup_insert_ne by done. split; [done|]. subst T'. cbv beta. by rewrite decide_False.
      * intros q opsj Hj. rewrite list_lookup_insert in Hj by done. injection Hj as <- <-. exists (c_time c), o, (Busy o []).
        split; [by rewrite last_at_snoc, decide_True|]. split; [done|]. subst T'. cbv beta. rewrite decide_True by done. split; cbn; try done.
        -- by apply goes_call.
        -- by intros hd ?%elem_of_nil.
        -- by intros hd x ?%elem_of_nil.
        -- by exists [].
      * intros opsj Hj. by rewrite list_lookup_insert in Hj.
      * intros hd Ht. assert (is_Some (wtag w !! hd)) as Ht0.
        { destruct (proj2 Mv hd Ht) as [?|[H1 [z H2]]]; [done|]. cbn in Em'. rewrite Em', <- Em in H2. congruence. }
        destruct (li_held _ _ _ _ _ M hd Ht0) as [?|(j & q & opsj & Hj & Ep)]; [by left|right]. assert (j <> i) as Hne by congruence.
        exists j, q, opsj. rewrite list_lookup_insert_ne by done. subst T'. cbv beta. by rewrite decide_False.
      * intros x [?|(j & E)]%back_snoc; [by left|discriminate E].
      * intros t j o' [= -> -> ->]%elem_of_list_singleton. done.
    + cbn [fst snd map] in *. destruct (li_thr _ _ _ _ _ M i _ _ Hc) as (t1 & o & q & L & Hfo & Z). pose proof (ca_go _ _ _ _ _ _ _ _ Z) as [Hp Hs].
      pose proof (ca_ph _ _ _ _ _ _ _ _ Z) as Hph.
      destruct (si_hist _ _ _ _ S' h (c_time c) i a [] eq_refl) as (t2 & o' & L' & Ha). rewrite L in L'. injection L' as <- <-.
      assert (forall hd, eph (lT G i) <> PHeld hd) as Hnh.
      { intros hd E. rewrite E in Hph. destruct Hph as (_ & _ & _ & kk & x & -> & _). destruct a as [[y|]| | | |]; try done; cbn in Hs.
        - destruct Hs as (? & ? & ? & _). congruence.
        - destruct Hs as (? & ?). congruence. }
      assert (pstep q (IEv (ERet i a)) Out) as Hps.
      { split; [done|]. destruct o as [k v|k|k| |], a as [r| |r| |]; cbn in Ha; try done.
        - left. destruct r as [y|]; cbn in Hs.
          + destruct Hs as (h1 & ho & E & _). rewrite E in Hph. by destruct Hph.
          + destruct Hs as (h1 & E). rewrite E in Hph. by destruct Hph.
        - right. assert (exists l, q = Busy (Get k) l) as [l ->].
          { destruct (eph (lT G i)) as [|hd|hd ho y|hd ho y|hd]; [done|by destruct (Hnh hd)|..]; [destruct Hph as (_ & _ & _ & Hph)..|destruct Hph as (_ & Hph)]; by destruct Hph. }
          exists (Get k), l. split; [done|]. destruct r as [x|]; [|done]. cbn. destruct Hs as [hd Hs].
          destruct (ca_rd _ _ _ _ _ _ _ _ Z _ _ Hs) as (_ & k' & Ht & Hsaw). cbn in Hsaw.
          assert (asked k x h) as (t3 & j & Hask). { apply Ha; [done|]. eapply (Hpr h (c_time c) i _ [] t1 k (Get k)); [done|done|by left]. }
          apply (li_asked _ _ _ _ _ M) in Hask. assert (k' = k) as -> by (eapply value_key; [exact Hdis|exact (tag_asked _ _ _ _ _ _ S Ht)|exact Hask]). done.
        - right. assert (exists l, q = Busy (GetRef k) l) as [l ->].
          { destruct (eph (lT G i)) as [|hd|hd ho y|hd ho y|hd]; [done|by destruct (Hnh hd)|..]; [destruct Hph as (_ & _ & _ & Hph)..|destruct Hph as (_ & Hph)]; by destruct Hph. }
          exists (GetRef k), l. split; [done|]. destruct r as [x|]; [|done]. cbn. destruct Hs as [hd Hs].
          destruct (ca_rd _ _ _ _ _ _ _ _ Z _ _ Hs) as (_ & k' & Ht & Hsaw). cbn in Hsaw.
          assert (asked k x h) as (t3 & j & Hask). { apply Ha; [done|]. eapply (Hpr h (c_time c) i _ [] t1 k (GetRef k)); [done|done|by right]. }
          apply (li_asked _ _ _ _ _ M) in Hask. assert (k' = k) as -> by (eapply value_key; [exact Hdis|exact (tag_asked _ _ _ _ _ _ S Ht)|exact Hask]). done.
        - right. assert (exists l, q = Busy Len l) as [l ->].
          { destruct (eph (lT G i)) as [|hd|hd ho y|hd ho y|hd]; [done|by destruct (Hnh hd)|..]; [destruct Hph as (_ & _ & _ & Hph)..|destruct Hph as (_ & Hph)]; by destruct Hph. }
          by exists Len, l. }
      exists (mk_l (lV G) (lO G) (lT G) (lX G ++ [IEv (ERet i a)]) (lS G)).
      assert (follows i Out (lX G ++ [IEv (ERet i a)]) Out) as Hfo'.
      { eapply follows_snoc; [done|]. cbn [item_of event_of]. by rewrite decide_True. }
      eapply (li_next c h w g G _ [(c_time c, ERet i a)] w' g' _ _ _ _ _ i); try done; cbn [c_thr c_mem].
      * by rewrite insert_length.
      * by apply Forall_singleton.
      * exists (lS G). done.
      * intros y Hy. destruct (li_O _ _ _ _ _ M y Hy) as [HV [?|[?|(j & qq & opsj & hh & x & Hj & Ep)]]]; (split; [done|]); [by left|right; by left|].
        assert (j <> i) as Hne. { intros ->. apply Hp. unfold pending. by rewrite Ep. }
        right. right. exists j, qq, opsj, hh, x. by rewrite list_lookup_insert_ne.
      * intros j Hne. by rewrite list_lookup_insert_ne.
      * intros qq opsj Hj. by rewrite list_lookup_insert in Hj.
      * intros hd Ht. assert (is_Some (wtag w !! hd)) as Ht0.
        { destruct (proj2 Mv hd Ht) as [?|[H1 [z H2]]]; [done|]. cbn in Em'. rewrite Em', <- Em in H2. congruence. }
        destruct (li_held _ _ _ _ _ M hd Ht0) as [?|(j & qq & opsj & Hj & Ep)]; [by left|right]. assert (j <> i) as Hne by (intros ->; by destruct (Hnh hd)).
        exists j, qq, opsj. by rewrite list_lookup_insert_ne.
      * intros x [?|(j & [= <- ->])]%back_snoc; [by left|right]. cbn in Hs. destruct Hs as (h1 & ho & E & _). rewrite E in Hph. destruct Hph as (_ & H1 & H2 & _).
        exists ho. split; [done|]. by eapply tagv_mono.
      * by intros t j o' [= ?]%elem_of_list_singleton.
    + eapply (li_noop c h w g G _ w' g' i); done.
    + destruct (li_thr _ _ _ _ _ M i _ _ Hc) as (t1 & o & q & L & Hfo & Z). destruct (si_thr _ _ _ _ S i _ _ Hc) as [_ (t2 & o' & L' & Hcw)].
      rewrite L in L'. injection L' as <- <-.
      destruct (Hcw w (rely_refl i w) I (sinv_room _ Hcalls _ _ _ S)) as (r & w2 & Hf & _). clear Hcw. generalize dependent (wm w2). intros m' Hf. clear w2.
      rewrite Em in Hf. rewrite Hf in *. cbn [fst snd map c_mem c_thr] in *.
      pose proof (ca_go _ _ _ _ _ _ _ _ Z) as Hgo. cbn [goes] in Hgo. pose proof (ca_ph _ _ _ _ _ _ _ _ Z) as Hph.
      pose proof (ca_seen _ _ _ _ _ _ _ _ Z) as Hsn. pose proof (ca_rd _ _ _ _ _ _ _ _ Z) as Hrd.
      assert (forall d', eph d' = eph (lT G i) -> vals m' = vals (c_mem c) -> (forall h, GVal h ∈ retired m' <-> GVal h ∈ retired (c_mem c)) ->
        forall y, y ∈ lO G -> y ∈ lV G /\ taken m' (<[i := (TRun (k r), ops)]> (c_thr c)) (fun j => if decide (j = i) then d' else lT G j) y) as Hquiet.
      { intros d' Ed E1 E2 y Hy. destruct (li_O _ _ _ _ _ M y Hy) as [HV Hta]. split; [done|]. eapply taken_set; [done|by eexists|by apply E2|by rewrite E1|]. intros hh x Hx. right. by rewrite Ed. }
      assert (vals m' = vals (c_mem c) -> forall hd, is_Some (wtag w' !! hd) -> is_Some (wtag w !! hd)) as Hsame.
      { intros Ev hd Ht. destruct (proj2 Mv hd Ht) as [?|[H1 [z H2]]]; [done|]. rewrite Em', Ev, <- Em in H2. congruence. }
      assert (forall j hd, j <> i -> wvl w !! hd = Some (VHold j) <-> wvl w' !! hd = Some (VHold j)) as Hoth by (intros j hd Hne; apply Mv; congruence).
      assert (follows i Out (lX G ++ []) q) as Hfo' by (by rewrite app_nil_r).
      (** a step that is only an access *)
      assert (forall c' d', c_mem c' = m' -> c_thr c' = <[i := (TRun (k r), ops)]> (c_thr c) -> OInv scripts c' (h ++ []) g' ->
        vals m' = vals (c_mem c) -> (forall h, GVal h ∈ retired m' <-> GVal h ∈ retired (c_mem c)) -> eph d' = eph (lT G i) ->
        call_at w' (lV G) (lO G) i o (k r) d' q -> exists G', LInv c' (h ++ []) w' g' G') as Hacc.
      { intros c' d' Ec1 Ec2 HO1 E1 E2 E3 Z'. eapply (li_act c h w g G c' w' g' i _ (k r) ops (lV G) (lO G) d' [] (lS G) o t1 q); try done.
        - by rewrite Ec1.
        - rewrite Ec1. by apply Hquiet.
        - intros hd H1 H2. destruct H2. by apply Hsame.
        - rewrite E3. auto. }
      destruct (eph (lT G i)) as [|hd|hd ho y|hd ho y|hd] eqn:Ep.
      * destruct Hgo as [[H1 H2]|[(od & H1 & H2)|[(hd & od & H1 & H2 & H3 & H4)|(x & od & Hx & H1 & H2 & H3 & H4)]]].
        -- destruct (H1 _ _ _ Hf) as (E1 & E2 & E3). eapply (Hacc _ (lT G i)); try done.
           eapply call_own; try done; [by left..|]. by rewrite Ep.
        -- destruct (H1 _ _ _ Hf) as (-> & p & l & s & Hp & Hs). set (hd := od r) in *. destruct (decide (hd = 0%N)) as [Hz|Hz].
           { eapply (Hacc _ (esee hd (lT G i))); try done. eapply call_own; try done; [apply H2|..].
             - intros hd' Hin Hnz. cbn in Hin. apply elem_of_cons in Hin as [->|Hin]; [done|by left].
             - by left.
             - cbn. by rewrite Ep. }
           assert (wvl w !! hd = Some (VSlot p s)) as Hsl. { apply slot_place; [done| |done]. rewrite Em. by exists l. }
           assert (is_Some (wtag w !! hd)) as [[kk x] Hkx]. { rewrite <- Em in Hp. destruct (iv_node _ I p _ Hp) as [_ Hl]. by apply (lo_isval _ _ _ Hl s hd Hs Hz). }
           assert (hd ∈ lV G) as HV by (eapply l_slot_in; try done; by eexists).
           assert (hd ∉ lO G) as HO by (intros Hin; by eapply l_out_slot).
           destruct Hph as [sl ->].
           eapply (li_act c h w g G _ w' g' i _ (k r) ops (lV G) (lO G) (esee hd (lT G i)) [ISaw i o kk x] (lS G) o t1 (Busy o ((kk, x) :: sl))); try done; cbn [c_mem].
           ++ exists (lS G). split; [|done]. split; [|done]. apply (li_s _ _ _ _ _ M). by exists hd.
           ++ by apply Hquiet.
           ++ eapply follows_snoc; [done|]. cbn. rewrite decide_True by done. by exists sl.
           ++ eapply call_own; try done; [..|apply H2| | |].
              ** cbn. intros k1 x1 H. by right.
              ** intros hd' Hin Hnz. cbn in Hin. apply elem_of_cons in Hin as [->|Hin]; [right|by left]. split; [done|]. exists kk, x. split; [by apply (mo_tag _ _ Mo)|by left].
              ** by left.
              ** cbn. rewrite Ep. by eexists.
           ++ intros hd' Ht1 Ht2. destruct Ht2. by apply Hsame.
           ++ intros hd' E. congruence.
        -- destruct (H1 _ _ _ Hf) as (-> & Hv). eapply (Hacc _ (E (esn (lT G i)) ((hd, od r) :: erd (lT G i)) PNone)); try done.
           eapply call_own; try done; [by left|]. intros hd' x Hin. cbn in Hin. apply elem_of_cons in Hin as [[= -> ->]|Hin]; [right|by left].
           destruct (Hsn hd H2 H3) as (HV & kk & x & Hkx & Hsaw). split; [done|]. exists kk. rewrite <- Em in Hv. destruct (iv_tag _ I _ _ Hv) as [k2 Hk2].
           rewrite Hkx in Hk2. injection Hk2 as -> ->. split; [by apply (mo_tag _ _ Mo)|done].
        -- destruct (H1 _ _ _ Hf) as (E1 & E2 & E3). pose proof (H3 _ _ _ Hf) as Eo. rewrite <- Em in E1, E2, Eo.
           destruct (new_hold i w w' x I I') as (Hn1 & Hn2 & Hn3).
           { by rewrite Em', E1. } { by rewrite Em', E2. } { intros j Hne. by apply Hoth. } { intros p s hd. rewrite Em', Em. apply (H2 _ _ _ Hf). }
           rewrite <- Eo in *. set (hd := od r) in *.
           assert (hd ∉ lV G) as HnV. { intros Hin. destruct (li_V _ _ _ _ _ M hd Hin) as [z Hz]. apply (iv_fresh _ I) in Hz. rewrite <- Eo in Hz. lia. }
           assert (hd ∉ lO G) as HnO. { intros Hin. by apply (li_O _ _ _ _ _ M) in Hin as [? _]. }
           assert (forall d', forall y, y ∈ lO G -> taken m' (<[i := (TRun (k r), ops)]> (c_thr c)) (fun j => if decide (j = i) then d' else lT G j) y) as Hst.
           { intros d' y Hy. destruct (li_O _ _ _ _ _ M y Hy) as [HV Hta]. eapply taken_set; [done|by eexists|by rewrite E2, Em| |intros ? ?; congruence].
             rewrite E1, Em. intros Hy'. rewrite lookup_insert_ne; [done|]. by intros ->. }
           assert (exists kk, o = Insert kk x /\ wtag w' !! hd = Some (kk, x)) as (kk & Eo' & Htag).
           { destruct o as [kk v| | | |]; try done. cbn in Hx. injection Hx as ->. exists kk. split; [done|]. destruct Hn3 as [k2 Hk2].
             rewrite Hk2. do 2 f_equal. eapply value_key; [exact Hdis|exact (tag_asked _ _ _ _ _ _ S' Hk2)|apply Z]. }
           assert (forall hd', is_Some (wtag w' !! hd') -> ~ is_Some (wtag w !! hd') -> hd' = hd) as Hnew.
           { intros hd' Ht1 Ht2. destruct (proj2 Mv hd' Ht1) as [?|[Hnone [z Hz]]]; [done|]. rewrite Em', E1 in Hz. apply lookup_insert_Some in Hz as [[-> _]|[_ Hz]]; [done|congruence]. }
           destruct Hph as [sl ->].
           destruct H4 as [H4|H4].
           ++ eapply (li_act c h w g G _ w' g' i _ (k r) ops (lV G) (lO G) (eat (PHeld hd) (lT G i)) [] (lS G) o t1 (Busy o sl)); try done; cbn [c_mem].
              ** intros y Hy. split; [by apply (li_O _ _ _ _ _ M)|by apply Hst].
              ** eapply call_own; try done; [apply H4|by left|by left|]. cbn. split; [by eexists|]. split; [done|]. split; [done|]. by exists kk, x.
              ** intros hd' Ht1 Ht2. right. by rewrite (Hnew hd' Ht1 Ht2).
              ** intros hd' Eh. congruence.
           ++ assert (forall a, a ∈ lV G -> a ∈ ({[hd]} ∪ lV G : gset N)) as Hsub by (intros a Ha; apply elem_of_union; by right).
              eapply (li_act c h w g G _ w' g' i _ (k r) ops ({[hd]} ∪ lV G) (lO G) (eat (PPlaced hd) (lT G i)) [IPut i kk x None] ({[(kk, x)]} ∪ lS G) o t1 (Put (AIns None))); try done; cbn [c_mem].
              ** eexists. split; [done|done].
              ** split; [done|]. exists hd. split; [done|]. split; [set_solver|done].
              ** intros k1 x1. rewrite elem_of_union, elem_of_singleton, Hss. split.
                 --- intros [[= -> ->]|(hd1 & Q1 & Q2 & Q3)]; [exists hd|exists hd1]; (split; [done|]); (split; [set_solver|done]).
                 --- intros (hd1 & Q1 & [->%elem_of_singleton|Q2]%elem_of_union & Q3); [left; congruence|right]. by exists hd1.
              ** intros a [->%elem_of_singleton|Ha]%elem_of_union; [by eexists|by apply HVs].
              ** intros y Hy. split; [|by apply Hst]. apply Hsub. by apply (li_O _ _ _ _ _ M).
              ** intros hd' j Hne Hh Hn. rewrite not_elem_of_union, not_elem_of_singleton. split; [|done]. intros ->. congruence.
              ** eapply follows_snoc; [done|]. cbn. rewrite decide_True by done. exists sl. by rewrite Eo'.
              ** eapply call_own; try done; [apply H4|by left|by left|]. cbn. split; [done|]. by rewrite Eo'.
              ** intros hd' Ht1 Ht2. left. rewrite (Hnew hd' Ht1 Ht2). set_solver.
              ** intros hd' Eh. congruence.
      * destruct Hph as ([sl ->] & Hh & HnV & kk & x & Eo & Ht). destruct Hgo as [(H1 & H2 & H3)|(H1 & ho & y & H2 & H3)].
        -- destruct (H1 _ _ _ Hf) as (E1 & E2 & E3). eapply (Hacc _ (lT G i)); try done.
           eapply call_own; try done; [by left..|]. rewrite Ep. pose proof (mo_tag _ _ Mo _ _ Ht) as Ht'. cbn. split; [by eexists|]. split; [|split; [done|by exists kk, x]].
           eapply (still_hold i w w'); try done; try (by eexists).
           ++ rewrite Em', E1, <- Em. apply tag_val; [done|by eexists|by eexists].
           ++ intros j Hne. by apply Hoth.
           ++ intros p s. rewrite Em', Em. apply (H2 _ _ _ Hf).
           ++ rewrite Em', Em. apply E2.
        -- destruct (H1 _ _ _ Hf) as (E1 & E2 & E3). destruct (Hrd ho y H2) as (Hho & ky & Hhy & _).
           pose proof (mo_tag _ _ Mo _ _ Ht) as Ht'. pose proof (mo_tag _ _ Mo _ _ Hhy) as Hhy'.
           set (d' := eat (PPut hd ho y) (lT G i)) in *.
           assert (i < length (<[i:=(TRun (k r), ops)]> (c_thr c))) as Hi' by (by rewrite insert_length).
           destruct (si_thr _ _ _ _ S' i (TRun (k r)) ops) as [_ (t3 & o3 & L3 & Hcw')]. { cbn [c_thr]. by rewrite list_lookup_insert. }
           rewrite app_nil_r, L in L3. injection L3 as <- <-.
           assert (wvl w' !! ho = Some (VHold i)) as Hhold'.
           { eapply (pend_hold i (own o) (k r) says _ d' w' hd ho y); [apply H3|done|done|done|by eapply sinv_room|by eexists]. }
           assert (ho ∉ lO G) as HnO.
           { intros Hin. destruct (li_O _ _ _ _ _ M ho Hin) as [_ [Hr|[Hn|(j & qj & opsj & hj & xj & Hj & Epj)]]].
             - apply E2 in Hr. rewrite <- Em' in Hr. apply lookup_retired in Hr as (_ & B & HB); [congruence|done].
             - rewrite <- E1, <- Em' in Hn. destruct (tag_val w' ho I') as [z Hz]; [by eexists|by eexists|congruence].
             - assert (j <> i) as Hne by congruence. destruct (li_thr _ _ _ _ _ M j qj opsj Hj) as (tj & oj & plj & Lj & _ & Zj).
               destruct (si_thr _ _ _ _ S j _ _ Hj) as [_ (t2 & o2 & L2 & Hcj)].
               pose proof (pend_hold j _ qj _ _ _ w hj ho xj (ca_go _ _ _ _ _ _ _ _ Zj) Epj Hcj I (sinv_room _ Hcalls _ _ _ S) ltac:(by eexists)) as Hw.
               apply (Hoth j ho Hne) in Hw. congruence. }
           assert (ky = kk) as ->.
           { eapply value_key; [exact Hdis|exact (tag_asked _ _ _ _ _ _ S Hhy)|]. subst o.
             assert ((kk, y) ∈ wcalled w') as Hcl by (eapply (pend_key i _ (k r) kk x t1 d' w' hd ho y); [apply H3|by left|done|done|by eapply sinv_room]).
             apply (si_ins _ _ _ _ S'), elem_of_list_omap in Hcl as (o2 & Q1 & Q2). destruct o2; try done. by injection Q2 as -> ->. }
           assert (hd <> ho) as Hne by (by intros ->).
           assert (forall a, a ∈ lV G -> a ∈ ({[hd]} ∪ lV G : gset N)) as Hsub by (intros a Ha; apply elem_of_union; by right).
           assert (forall hd1 hd2 x1, tagv w' hd1 x1 -> tagv w' hd2 x1 -> hd1 = hd2) as Hone.
           { assert (forall hd x, tagv w' hd x -> gA g' !! x = Some hd) as Hg1.
             { intros hd1 x1 Q. refine (l_one_next c h w g G _ _ w' g' (Thread i) _ _ M Mo Mv I' _ O' Hg Q). exact Em'. }
             intros hd1 hd2 x1 Q1%Hg1 Q2%Hg1. congruence. }
           eapply (li_act c h w g G _ w' g' i _ (k r) ops ({[hd]} ∪ lV G) ({[ho]} ∪ lO G) d' [IPut i kk x (Some y)] ({[(kk, x)]} ∪ (lS G ∖ {[(kk, y)]})) o t1 (Put (AIns (Some y)))); try done; cbn [c_mem].
           ++ eexists. split; [|done]. cbn. split; [|done]. apply Hss. by exists ho.
           ++ split; [done|]. exists hd. split; [done|]. split; [set_solver|]. by exists kk.
           ++ intros k1 x1. rewrite elem_of_union, elem_of_difference, !elem_of_singleton, Hss. split.
              ** intros [[= -> ->]|[(hd1 & Q1 & Q2 & Q3) Q4]]; [exists hd|exists hd1]; (split; [done|]).
                 --- split; [set_solver|]. rewrite not_elem_of_union, not_elem_of_singleton. split; [done|]. intros Hin. by apply (li_O _ _ _ _ _ M) in Hin as [? _].
                 --- split; [set_solver|]. rewrite not_elem_of_union, not_elem_of_singleton. split; [|done]. intros ->. congruence.
              ** intros (hd1 & Q1 & [->%elem_of_singleton|Q2]%elem_of_union & [Q3 Q4]%not_elem_of_union); [left; congruence|right]. split; [by exists hd1|].
                 intros [= -> ->]. apply Q3, elem_of_singleton. eapply (Hone _ _ y); by exists kk.
           ++ intros a Ha. apply elem_of_union. by right.
           ++ intros a [->%elem_of_singleton|Ha]%elem_of_union; [by eexists|by apply HVs].
           ++ intros z [->%elem_of_singleton|Hz]%elem_of_union.
              ** split; [by apply Hsub|]. right. right. exists i, (k r), ops, hd, y. rewrite list_lookup_insert by done. by rewrite decide_True.
              ** destruct (li_O _ _ _ _ _ M z Hz) as [HV Hta]. split; [by apply Hsub|]. eapply taken_set; [done|by eexists|by apply E2|by rewrite E1|]. intros ? ?. congruence.
           ++ intros hd' j Hne' Hh' Hn. rewrite not_elem_of_union, not_elem_of_singleton. split; [|done]. intros ->. congruence.
           ++ eapply follows_snoc; [done|]. cbn. rewrite decide_True by done. exists sl. by rewrite Eo.
           ++ eapply call_own; try done; [by left|by left|]. cbn. split; [done|]. split; [set_solver|]. split; [by exists kk|]. by rewrite Eo.
           ++ intros hd' Ht1 Ht2. destruct Ht2. by apply Hsame.
           ++ intros hd' Eh. left. rewrite Ep in Eh. injection Eh as <-. set_solver.
      * assert (ph_at w' (lV G) (lO G) i o (PPut hd ho y) q) as Hph'.
        { destruct Hph as (P1 & P2 & P3 & P4). cbn. split; [done|]. split; [done|]. split; [by eapply tagv_mono|done]. }
        destruct Hgo as [(H1 & H2 & H3)|(H1 & H2 & H3)].
        -- destruct (H1 _ _ _ Hf) as (E1 & E2 & E3). eapply (Hacc _ (lT G i)); try done.
           eapply call_own; try done; [by left..|]. by rewrite Ep.
        -- destruct (H1 _ _ _ Hf) as (E1 & E2 & E3).
           eapply (li_act c h w g G _ w' g' i _ (k r) ops (lV G) (lO G) (eat (PGone hd ho y) (lT G i)) [] (lS G) o t1 q); try done; cbn [c_mem].
           ++ intros z Hz. destruct (li_O _ _ _ _ _ M z Hz) as [HV Hta]. split; [done|]. eapply taken_set; [done|by eexists|rewrite E2; by right|by rewrite E1|]. intros ? ? Hx.
              left. rewrite Ep in Hx. injection Hx as _ -> _. rewrite E2. by left.
           ++ eapply call_own; try done; by left.
           ++ intros hd' Ht1 Ht2. destruct Ht2. by apply Hsame.
           ++ intros hd' Eh. congruence.
      * assert (ph_at w' (lV G) (lO G) i o (PGone hd ho y) q) as Hph'.
        { destruct Hph as (P1 & P2 & P3 & P4). cbn. split; [done|]. split; [done|]. split; [by eapply tagv_mono|done]. }
        destruct Hgo as (H1 & H3). destruct (H1 _ _ _ Hf) as (E1 & E2 & E3). eapply (Hacc _ (lT G i)); try done.
        eapply call_own; try done; [by left..|]. by rewrite Ep.
      * destruct Hgo as (H1 & H3). destruct (H1 _ _ _ Hf) as (E1 & E2 & E3). eapply (Hacc _ (lT G i)); try done.
        eapply call_own; try done; [by left..|]. by rewrite Ep.
  - assert (moved (Thread (length (c_thr c))) w w') as Mv'. { destruct Mv as [Mv1 Mv2]. split; [|done]. intros j' hd _. by apply Mv1. }
    destruct (retired (c_mem c) !! j) as [gb|] eqn:Ej; [|eapply (li_noop c h w g G _ w' g'); done].
    destruct (c_blk c !! j) as [[|x B]|] eqn:Eb; [|eapply (li_noop c h w g G _ w' g'); done..].
    destruct (reclaim1 gb (mwith_retired (delete j (retired (c_mem c))) (c_mem c))) as [m'|er] eqn:Er; [|eapply (li_noop c h w g G _ w' g'); done].
    cbn [fst snd c_mem c_thr] in *. exists (mk_l (lV G) (lO G) (lT G) (lX G ++ []) (lS G)).
    assert (forall y, vals (c_mem c) !! y = None -> vals m' !! y = None) as Hn.
    { intros y Hy. destruct gb as [hh|bb]; cbn in Er; repeat case_match; try done; injection Er as <-; cbn; [|done].
      rewrite lookup_delete_None. by right. }
    eapply (li_next c h w g G _ [] w' g' _ _ _ [] _ (length (c_thr c))); try done; cbn [c_mem c_thr].
    + assert (forall y, GVal y ∈ retired (c_mem c) -> GVal y ∈ retired m' \/ vals m' !! y = None) as Hr.
      { intros y Hy. assert (gb = GVal y \/ gb <> GVal y) as [->|Hne] by (destruct gb as [hh|]; [destruct (decide (hh = y)) as [->|]; [by left|right; congruence]|by right]).
        - right. cbn in Er. case_match; [|done]. injection Er as <-. cbn. apply lookup_delete.
        - left. assert (retired m' = delete j (retired (c_mem c))) as ->. { destruct gb as [hh|bb]; cbn in Er; repeat case_match; try done; by injection Er as <-. }
          apply elem_of_list_lookup in Hy as [n Hn']. apply elem_of_list_lookup. destruct (decide (n < j)) as [Hlt|Hge].
          + exists n. by rewrite lookup_delete_lt.
          + assert (n <> j) by congruence. exists (pred n). rewrite lookup_delete_ge by lia. by replace (Datatypes.S (pred n)) with n by lia. }
      intros y Hy. destruct (li_O _ _ _ _ _ M y Hy) as [HV [Hy'|[Hy'|H]]]; (split; [done|]).
      * destruct (Hr y Hy'); [by left|right; by left].
      * right. left. by apply Hn.
      * right. by right.
    + intros p ops Hp. apply lookup_lt_Some in Hp. lia.
    + intros ops Hp. apply lookup_lt_Some in Hp. lia.
    + intros hd Ht. apply (li_held _ _ _ _ _ M). destruct (proj2 Mv hd Ht) as [?|[H1 [z H2]]]; [done|]. rewrite Em in H1. apply Hn in H1. rewrite Em' in H2. congruence.
    + intros y. rewrite app_nil_r. by left.
    + by intros t j' o ?%elem_of_nil.
Qed.
Lemma prompt_pre h h' : prompt (h ++ h') -> prompt h.
Proof. intros H h1 t i a h2 t1 k o -> L Ho. eapply (H h1 t i a (h2 ++ h')); [by rewrite <- app_assoc|done|done]. Qed.
Lemma li_run F acts : forall c h w g G, LInv c h w g G -> OInv scripts c h g -> SInv scripts c h w -> prompt (h ++ (c_runv F acts c).2) ->
  exists w' g' G', LInv (c_runv F acts c).1 (h ++ (c_runv F acts c).2) w' g' G' /\ OInv scripts (c_runv F acts c).1 (h ++ (c_runv F acts c).2) g' /\
    SInv scripts (c_runv F acts c).1 (h ++ (c_runv F acts c).2) w' /\ length (c_thr (c_runv F acts c).1) = length (c_thr c).
Proof.
  induction acts as [|a acts IH]; intros c h w g G M O S Hp; cbn [c_runv] in *.
  - exists w, g, G. cbn. by rewrite app_nil_r.
  - destruct (c_step_ok scripts Hcalls F a c h w S) as (w1 & S1 & El & Mo & Mv).
    destruct (oi_step scripts Hdis F a c h g w w1 O) as (g1 & O1 & Hg); [apply S|apply S|apply S1|apply S1|apply S1|].
    assert (prompt (h ++ (c_stepv F a c).2)) as Hp1.
    { destruct (c_stepv F a c) as [c1 h1]. cbn. destruct (c_runv F acts c1) as [c2 h2]. cbn in Hp. rewrite app_assoc in Hp. by apply prompt_pre in Hp. }
    destruct (li_step F a c h w g G w1 g1 M S S1 Mo Mv O1 Hg Hp1) as [G1 M1]. destruct (c_stepv F a c) as [c1 h1]. cbn [fst snd] in *.
    destruct (IH c1 (h ++ h1) w1 g1 G1 M1 O1 S1) as (w2 & g2 & G2 & M2 & O2 & S2 & El2).
    { destruct (c_runv F acts c1) as [c2 h2]. cbn in Hp |- *. by rewrite <- app_assoc. }
    destruct (c_runv F acts c1) as [c2 h2]. cbn [fst snd] in *.
    exists w2, g2, G2. rewrite app_assoc. split; [done|]. split; [done|]. split; [done|]. congruence.
Qed.
Lemma li_start : LInv (c_start scripts) [] w_start (mk_g ∅ ∅ (fun _ => (D [] [] false None, []))) (mk_l ∅ ∅ (fun _ => D0) [] ∅).
Proof.
  split; cbn; try done.
  - intros k x. split; [by intros ?%elem_of_empty|by intros (hd & ? & _)].
  - intros hd x [k Hk]. done.
  - intros i p ops Hi. apply list_lookup_fmap_Some in Hi as (ops' & _ & Hs). done.
  - intros hd [z Hz]. done.
  - intros x (t & i & H). by apply elem_of_nil in H.
  - by constructor.
  - by intros x ?%elem_of_nil.
  - by intros t i o ?%elem_of_nil.
Qed.
(** the record at rest *)
Lemma li_quiet c h w g G : LInv c h w g G -> OInv scripts c h g -> SInv scripts c h w -> c_quiet c ->
  forall k x, (k, x) ∈ lS G <-> asked k x h /\ ~ handed_back x h.
Proof.
  intros M O S Hq k x. rewrite (li_s _ _ _ _ _ M). pose proof (si_inv _ _ _ _ S) as I. split.
  - intros (hd & H1 & H2 & H3). split; [by apply (si_called _ _ _ _ S), (iv_called _ I hd)|].
    intros (hd' & H4 & H5)%(li_back _ _ _ _ _ M). apply H3. apply (li_one _ _ _ _ _ M) in H5.
    assert (gA g !! x = Some hd) by (apply (li_one _ _ _ _ _ M); by exists k). by assert (hd = hd') as -> by congruence.
  - intros [(t & i & Hin) Hb]. destruct (oi_came _ _ _ _ O _ _ _ _ Hin) as [[hd HA]|(p & ops & t1 & Hi & _)]; [|by specialize (Hq _ _ _ Hi)].
    assert (gG g !! x = None) as HG.
    { destruct (gG g !! x) as [[j|]|] eqn:HG; [|by destruct Hb; apply (oi_ans _ _ _ _ O)|done].
      destruct (oi_pend _ _ _ _ O _ _ HG) as (p & ops & hd' & Hj & _). by specialize (Hq _ _ _ Hj). }
    destruct (oi_live _ _ _ _ O _ _ HA HG) as [Hv Hr]. exists hd.
    assert (wtag w !! hd = Some (k, x)) as Ht.
    { rewrite <- (si_mem _ _ _ _ S) in Hv. destruct (iv_tag _ I _ _ Hv) as [k' Hk']. rewrite Hk'. do 2 f_equal.
      eapply value_key; [exact Hdis|exact (tag_asked _ _ _ _ _ _ S Hk')|exact (li_asked _ _ _ _ _ M _ _ _ Hin)]. }
    split; [done|]. split.
    + destruct (li_held _ _ _ _ _ M hd ltac:(by eexists)) as [?|(j & p & ops & Hj & _)]; [done|by specialize (Hq _ _ _ Hj)].
    + intros Ho. destruct (li_O _ _ _ _ _ M hd Ho) as [_ [?|[?|(j & p & ops & ? & ? & Hj & _)]]]; [done|congruence|by specialize (Hq _ _ _ Hj)].
Qed.
Lemma statuses (W : nat -> status -> Prop) n : (forall i, i < n -> exists q, W i q) -> exists st, length st = n /\ forall i q, st !! i = Some q -> W i q.
Proof.
  induction n as [|n IH]; intros H.
  - exists []. done.
  - destruct IH as (st & Hl & Hw); [intros i Hi; apply H; lia|]. destruct (H n) as [q Hq]; [lia|]. exists (st ++ [q]). split; [rewrite app_length; cbn; lia|].
    intros i q' Hi. apply lookup_app_Some in Hi as [Hi|[Hge Hi]]; [by apply Hw|]. apply list_lookup_singleton_Some in Hi as [Hi <-]. by assert (i = n) as -> by lia.
Qed.
Lemma conc_record F acts c h : c_run F acts (c_start scripts) = (c, h) -> prompt h -> exists Y s, runs entries_step ∅ Y s /\ NoDup (xputs Y) /\ xevents Y = map snd h /\
  Forall (fun y => xact_of y < length scripts) Y /\ (forall i, i < length scripts -> exists q, walks i Idle Y q /\ (c_quiet c -> q = Idle)) /\
  (c_quiet c -> forall k x, (k, x) ∈ s <-> asked k x h /\ ~ handed_back x h).
Proof.
  intros Hrun Hp. destruct (sim_run F acts _ _ (sim_start scripts)) as [Eh Hs].
  { intros acts'. destruct (conc_ok_v F scripts acts' Hcalls) as [w S]. by eapply sinv_running. }
  destruct (li_run F acts (c_start scripts) [] _ _ _ li_start (oi_start scripts Hdis Hcalls) (sinv_start scripts)) as (w & g & G & M & O & S & El).
  { cbn [app]. rewrite Hrun in Eh. cbn [snd] in Eh. by rewrite <- Eh. }
  rewrite Hrun in Eh, Hs. cbn [fst snd app] in Eh, Hs, M, O, S. rewrite <- Eh in M, O, S. clear Eh.
  destruct (c_runv F acts (c_start scripts)) as [c' h']. cbn [fst] in *. clear h'. cbn in El. rewrite map_length in El.
  destruct (make (lX G)) as (Y & want & [Y1 Y2 Y3 Y4 Y5]). exists Y, (lS G). split; [by apply Y4, M|]. split; [rewrite Y2; apply M|]. split; [rewrite Y1; apply M|].
  split; [apply Y3; rewrite <- El; apply M|]. split.
  - intros i Hi. rewrite <- El in Hi. destruct (lookup_lt_is_Some_2 _ _ Hi) as [[[|p] ops] Hc].
    + pose proof (li_idle _ _ _ _ _ M _ _ Hc) as Hf. destruct (Y5 _ _ _ Hf) as (st & st' & H1 & H2 & ->). exists st'. split; [done|]. intros _. by destruct st'.
    + destruct (li_thr _ _ _ _ _ M _ _ _ Hc) as (t1 & o & q & _ & Hf & _). destruct (Y5 _ _ _ Hf) as (st & st' & H1 & _ & ->). exists st'. split; [done|].
      intros Hq. apply (quiet_sim _ Hq) in Hs. by specialize (Hs _ _ _ Hc).
  - intros Hq. apply (quiet_sim _ Hq) in Hs. by eapply li_quiet.
Qed.
Lemma conc_atomic F acts c h : c_run F acts (c_start scripts) = (c, h) -> prompt h ->
  exists s, atomically entries_step ∅ (length scripts) h s /\
    (c_quiet c -> forall k v, Forall (fun b => b < 256)%N k -> stored (c_mem c) k v <-> (k, v) ∈ s).
Proof.
  intros Hrun Hp. destruct (conc_record F acts c h Hrun Hp) as (Y & s & H1 & _ & H3 & H4 & H5 & H6). exists s. split.
  - destruct (statuses (fun i q => walks i Idle Y q) (length scripts)) as (st & Hl & Hw); [intros i Hi; destruct (H5 i Hi) as (q & Hq & _); by exists q|].
    exists (erase Y), st. split; [by apply atomic_of|]. by rewrite erase_visible.
  - intros Hq k v Hk. rewrite (H6 Hq). by apply (conc_stored scripts Hdis Hcalls F acts c h Hrun k v Hq Hk).
Qed.

(** ** when no two insertions say that they added the same key *)
Lemma walks_call i o Y : walks i Idle Y (Pending o) -> exists Ya Yb, Y = Ya ++ XEv (ECall i o) :: Yb /\ Forall (fun y => xact_of y <> i) Yb.
Proof.
  induction Y as [|y Y IH] using rev_ind; [done|]. intros (q & H1 & H2)%walks_app. cbn in H2. destruct (decide (xact_of y = i)) as [Ey|Ey].
  - destruct H2 as (q1 & H2 & <-). destruct y as [[j o'|j a]|j o' a]; cbn in H2, Ey; try (by destruct H2). destruct H2 as [_ [= <-]]. subst j. by exists Y, [].
  - subst q. destruct (IH H1) as (Ya & Yb & -> & Hb). exists Ya, (Yb ++ [y]). split; [by rewrite <- app_assoc|]. apply Forall_app. split; [done|by apply Forall_singleton].
Qed.
Lemma walks_ret i a Y : walks i (Done a) Y Idle -> exists Ya Yb, Y = Ya ++ XEv (ERet i a) :: Yb /\ Forall (fun y => xact_of y <> i) Ya.
Proof.
  induction Y as [|y Y IH]; [done|]. cbn. destruct (decide (xact_of y = i)) as [Ey|Ey].
  - intros (q1 & H2 & _). destruct y as [[j o'|j a']|j o' a']; cbn in H2, Ey; try (by destruct H2). destruct H2 as [[= <-] _]. subst j. by exists [], Y.
  - intros (Ya & Yb & -> & Ha)%IH. exists (y :: Ya), Yb. split; [done|]. by constructor.
Qed.
Lemma xevents_app Y Y' : xevents (Y ++ Y') = xevents Y ++ xevents Y'. Proof. apply omap_app. Qed.
Lemma xevents_other i Y : Forall (fun y => xact_of y <> i) Y -> Forall (fun e => event_of e <> i) (xevents Y).
Proof. induction 1 as [|[e|j o a] Y Hy _ IH]; cbn; [done|by constructor|done]. Qed.
Lemma last_quiet i h1 e h2 : event_of e.2 = i -> Forall (fun e => event_of e <> i) (map snd h2) -> last_at i (h1 ++ e :: h2) = Some e.
Proof.
  intros He. induction h2 as [|x h2 IH] using rev_ind; intros Hq; [by rewrite last_at_snoc, decide_True|].
  rewrite app_comm_cons, app_assoc, last_at_snoc. rewrite map_app in Hq. apply Forall_app in Hq as [Hq Hx]. cbn in Hx. rewrite Forall_singleton in Hx.
  rewrite decide_False by done. by apply IH.
Qed.
Lemma eff_new h Y1 Y2 i k v : xevents (Y1 ++ XEff i (Insert k v) (AIns None) :: Y2) = map snd h ->
  walks i Idle (Y1 ++ XEff i (Insert k v) (AIns None) :: Y2) Idle -> said_new h k v.
Proof.
  intros E (q & H1 & H2)%walks_app. cbn in H2. rewrite decide_True in H2 by done. destruct H2 as (q1 & [-> ->] & H2).
  apply walks_call in H1 as (Ya & Yb & -> & Hb). apply walks_ret in H2 as (Yc & Yd & -> & Hc).
  assert (xevents ((Ya ++ XEv (ECall i (Insert k v)) :: Yb) ++ XEff i (Insert k v) (AIns None) :: Yc ++ XEv (ERet i (AIns None)) :: Yd) =
    xevents Ya ++ ECall i (Insert k v) :: xevents Yb ++ xevents Yc ++ ERet i (AIns None) :: xevents Yd) as E'.
  { rewrite <- app_assoc, xevents_app. f_equal. change (ECall i (Insert k v) :: xevents (Yb ++ XEff i (Insert k v) (AIns None) :: Yc ++ XEv (ERet i (AIns None)) :: Yd) =
      ECall i (Insert k v) :: xevents Yb ++ xevents Yc ++ ERet i (AIns None) :: xevents Yd). f_equal. rewrite xevents_app. f_equal.
    change (xevents (Yc ++ XEv (ERet i (AIns None)) :: Yd) = xevents Yc ++ ERet i (AIns None) :: xevents Yd). by rewrite xevents_app. }
  rewrite E' in E. clear E'. symmetry in E.
  apply map_eq_app in E as (ha & h1 & -> & _ & E). destruct h1 as [|[t1 e1] h1]; [done|]. cbn in E. injection E as -> E.
  rewrite app_assoc in E. apply map_eq_app in E as (hb & h2 & -> & Eb & E). destruct h2 as [|[t2 e2] h2]; [done|]. cbn in E. injection E as -> _.
  exists (ha ++ (t1, ECall i (Insert k v)) :: hb), t2, i, h2, t1. split; [by rewrite <- app_assoc|]. apply last_quiet; [done|].
  rewrite Eb. apply Forall_app. split; by apply xevents_other.
Qed.
Lemma news_split Y k v : (k, v) ∈ xnews Y -> exists Y1 i Y2, Y = Y1 ++ XEff i (Insert k v) (AIns None) :: Y2.
Proof.
  intros H. apply elem_of_list_omap in H as (y & H1 & H2). apply elem_of_list_split in H1 as (Y1 & Y2 & ->).
  destruct y as [e|i o a]; [done|]. exists Y1, i, Y2. destruct o, a as [[?|]| | | |]; try done. by injection H2 as -> ->.
Qed.
Lemma xputs_app Y Y' : xputs (Y ++ Y') = xputs Y ++ xputs Y'. Proof. apply omap_app. Qed.
Lemma xnews_app Y Y' : xnews (Y ++ Y') = xnews Y ++ xnews Y'. Proof. apply omap_app. Qed.
Lemma news_puts Y k v : (k, v) ∈ xnews Y -> v ∈ xputs Y.
Proof. intros (Y1 & i & Y2 & ->)%news_split. rewrite xputs_app, elem_of_app. right. by left. Qed.
Lemma news_keys h Y : new_once h -> NoDup (xputs Y) -> (forall k v, (k, v) ∈ xnews Y -> said_new h k v) -> NoDup (map fst (xnews Y)).
Proof.
  intros Hn. induction Y as [|y Y IH]; intros Hd Hs; [by constructor|].
  assert (NoDup (map fst (xnews Y))) as Hr.
  { apply IH.
    - destruct y as [e|i o a]; [done|]. destruct o; try done. by apply NoDup_cons in Hd as [_ ?].
    - intros k v H. apply Hs. change (y :: Y) with ([y] ++ Y). rewrite xnews_app, elem_of_app. by right. }
  destruct y as [e|i o a]; [done|]. destruct o as [k v| | | |], a as [[y|]| | | |]; try done.
  change (NoDup (k :: map fst (xnews Y))). constructor; [|done]. intros ((k', v') & -> & Hin)%elem_of_list_fmap. cbn in *.
  assert (v = v') as ->. { apply (Hn k' v v'); apply Hs; [by left|by right]. }
  apply NoDup_cons in Hd as [Hd _]. apply Hd. by eapply news_puts.
Qed.
Lemma map_of_entries Y : forall s s' (mu : gmap bytes N), runs entries_step s Y s' -> (forall k v, (k, v) ∈ s <-> mu !! k = Some v) ->
  NoDup (map fst (xnews Y)) -> (forall k v, (k, v) ∈ xnews Y -> mu !! k = None) ->
  exists mu', runs missing_step mu Y mu' /\ forall k v, (k, v) ∈ s' <-> mu' !! k = Some v.
Proof.
  induction Y as [|y Y IH]; intros s s' mu Hr Hs Hd Hn.
  - cbn in Hr. subst s'. by exists mu.
  - destruct Hr as (s1 & Hx & Hr).
    assert (forall mu1, xstep missing_step mu y mu1 -> (forall k v, (k, v) ∈ s1 <-> mu1 !! k = Some v) -> NoDup (map fst (xnews Y)) -> (forall k v, (k, v) ∈ xnews Y -> mu1 !! k = None) ->
      exists mu', runs missing_step mu (y :: Y) mu' /\ forall k v, (k, v) ∈ s' <-> mu' !! k = Some v) as Hgo.
    { intros mu1 H1 H2 H3 H4. destruct (IH s1 s' mu1 Hr H2 H3 H4) as (mu' & H5 & H6). exists mu'. split; [|done]. by exists mu1. }
    destruct y as [e|i o a]; [cbn in Hx; subst s1; by apply (Hgo mu)|]. cbn in Hx. destruct Hx.
    + assert (mu !! k = None) as Hk by (apply (Hn k v); by left). change (NoDup (k :: map fst (xnews Y))) in Hd. apply NoDup_cons in Hd as [Hd1 Hd2].
      apply (Hgo (<[k := v]> mu)); [|..|done|].
      * apply ms_map. cbn. by rewrite Hk.
      * intros k1 v1. rewrite elem_of_union, elem_of_singleton, lookup_insert_Some, Hs. split.
        -- intros [[= -> ->]|H]; [by left|right]. split; [congruence|done].
        -- intros [[-> ->]|[_ H]]; [by left|by right].
      * intros k1 v1 Hin. rewrite lookup_insert_ne; [apply (Hn k1 v1); by right|]. intros <-. apply Hd1. apply elem_of_list_fmap. by exists (k, v1).
    + assert (mu !! k = Some v') as Hk by (by apply Hs).
      apply (Hgo (<[k := v]> mu)); [|..|done|].
      * apply ms_map. cbn. by rewrite Hk.
      * intros k1 v1. rewrite elem_of_union, elem_of_difference, !elem_of_singleton, lookup_insert_Some, Hs. split.
        -- intros [[= -> ->]|[H0 H']]; [by left|right]. split; [|done]. intros <-. apply H'. congruence.
        -- intros [[-> ->]|[Hne H']]; [by left|right]. split; [done|]. congruence.
      * intros k1 v1 Hin. pose proof (Hn k1 v1 Hin). rewrite lookup_insert_ne; [done|]. congruence.
    + apply (Hgo mu); try done. apply ms_map. cbn. apply Hs in H. by rewrite H.
    + apply (Hgo mu); try done. apply ms_miss.
    + apply (Hgo mu); try done. apply ms_map. cbn. apply Hs in H. by rewrite H.
    + apply (Hgo mu); try done. apply ms_miss_ref.
    + apply (Hgo mu); try done. apply ms_len.
Qed.
Lemma conc_missing F acts c h : c_run F acts (c_start scripts) = (c, h) -> prompt h -> c_quiet c -> new_once h ->
  exists mu, atomically missing_step ∅ (length scripts) h mu /\
    forall k v, Forall (fun b => b < 256)%N k -> stored (c_mem c) k v <-> mu !! k = Some v.
Proof.
  intros Hrun Hp Hq Hn. destruct (conc_record F acts c h Hrun Hp) as (Y & s & H1 & H2 & H3 & H4 & H5 & H6). specialize (H6 Hq).
  assert (forall i, i < length scripts -> walks i Idle Y Idle) as Hw. { intros i Hi. destruct (H5 i Hi) as (q & Hw & E). by rewrite (E Hq) in Hw. }
  destruct (map_of_entries Y ∅ s ∅ H1) as (mu & Hr & Hmu).
  - intros k v. split; [by intros ?%elem_of_empty|done].
  - apply (news_keys h); [done|done|]. intros k v Hin. apply news_split in Hin as (Y1 & i & Y2 & ->). eapply eff_new; [done|]. apply Hw.
    apply Forall_app in H4 as [_ H4]. by apply Forall_cons in H4 as [? _].
  - done.
  - exists mu. split.
    + destruct (statuses (fun i q => walks i Idle Y q) (length scripts)) as (st & Hl & Hw'); [intros i Hi; exists Idle; by apply Hw|].
      exists (erase Y), st. split; [by apply atomic_of|]. by rewrite erase_visible.
    + intros k v Hk. rewrite (conc_stored scripts Hdis Hcalls F acts c h Hrun k v Hq Hk), <- H6. apply Hmu.
Qed.
End Atomic.
