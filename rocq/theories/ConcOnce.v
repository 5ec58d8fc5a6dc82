(** Concurrent executions in which all inserted values are different: a value is given back
    at most once, not by the call that brought it, and not found by lookups that begin
    afterwards. *)
From Verif Require Import Base Perm SpecKey KeyFacts Prog Version Mem Tree SpecTree TreeState Suffix SuffixFacts SpecLin SpecConc ConcVar Conc ConcRead ConcBag ConcSys ConcTop ConcVal.
From Verif Require ConcLen LinRead.

Lemma values_app l l' : values_of (l ++ l') = values_of l ++ values_of l'.
Proof. apply omap_app. Qed.
Lemma distinct_own scripts : NoDup (values_of (concat scripts)) -> forall i ops, scripts !! i = Some ops -> NoDup (values_of ops).
Proof.
  induction scripts as [|s scripts IH]; intros H [|i] ops Hi; try done; cbn in H; rewrite values_app, NoDup_app in H; destruct H as (H1 & H2 & H3).
  - by injection Hi as <-.
  - by apply (IH H3 i).
Qed.
Lemma values_concat scripts i ops x : scripts !! i = Some ops -> x ∈ values_of ops -> x ∈ values_of (concat scripts).
Proof.
  revert i. induction scripts as [|s scripts IH]; intros [|i] Hi Hx; try done; cbn; rewrite values_app, elem_of_app.
  - left. by injection Hi as ->.
  - right. by apply (IH i).
Qed.
Lemma distinct_other scripts : NoDup (values_of (concat scripts)) -> forall i j opsi opsj x, scripts !! i = Some opsi -> scripts !! j = Some opsj ->
  x ∈ values_of opsi -> x ∈ values_of opsj -> i = j.
Proof.
  induction scripts as [|s scripts IH]; intros H [|i] [|j] opsi opsj x Hi Hj Hxi Hxj; try done; cbn in H, Hi, Hj; rewrite values_app, NoDup_app in H; destruct H as (H1 & H2 & H3).
  - injection Hi as <-. destruct (H2 x Hxi). by eapply values_concat.
  - injection Hj as <-. destruct (H2 x Hxj). by eapply values_concat.
  - f_equal. by eapply IH.
Qed.

Section Once.
Context (scripts : list (list op)).
Hypothesis Hdis : NoDup (values_of (concat scripts)).
Hypothesis Hcalls : conc_calls scripts.

(** where the values stand: [A]: the handle of each value brought so far; [G]: the values
    given up, with the thread that has yet to hand it back; [T]: for each thread what its
    call has done, and the values handed back when it began *)
Record ghost := mk_g { gA : gmap N N; gG : gmap N (option nat); gT : nat -> deeds * list N }.
Notation back := handed_back.
(** values the thread still has to bring *)
Definition todo (o : option op) (d : deeds) (ops : list op) : list N :=
  (match o with Some (Insert _ x) => if mine d then [] else [x] | _ => [] end) ++ values_of ops.
Definition todo_ok (A : gmap N N) (i : nat) (l : list N) : Prop :=
  NoDup l /\ forall x, x ∈ l -> A !! x = None /\ exists ops, scripts !! i = Some ops /\ x ∈ values_of ops.
Record busy (h : list (N * event)) (A : gmap N N) (G : gmap N (option nat)) (i : nat) (o : op) (p : P ans) (d : deeds) (sn : list N) : Prop := {
  bz_go : go (own o) d p told;
  bz_sn : forall x, x ∈ sn -> G !! x = Some None;
  bz_sn' : forall h1 t o' h2 x, h = h1 ++ (t, ECall i o') :: h2 -> ConcLen.quiet_for i h2 -> back x h1 -> x ∈ sn;
  bz_seen : forall hd, hd ∈ seen d -> hd <> 0%N -> exists x, A !! x = Some hd /\ x ∉ sn;
  bz_rd : forall hd x, (hd, x) ∈ rd d -> A !! x = Some hd /\ x ∉ sn /\ own o <> Some x;
  bz_gone : forall hd x, gone d = Some (hd, x) -> G !! x = Some (Some i) /\ own o <> Some x;
  bz_mine : forall x, mine d = true -> own o = Some x -> is_Some (A !! x) }.
Definition thr_ok (h : list (N * event)) (A : gmap N N) (G : gmap N (option nat)) (i : nat) (t : tstate) (ops : list op) (T : deeds * list N) : Prop :=
  Forall conc_op ops /\
  match t with
  | TIdle => todo_ok A i (values_of ops)
  | TRun p => exists t1 o, last_at i h = Some (t1, ECall i o) /\ todo_ok A i (todo (Some o) T.1 ops) /\ busy h A G i o p T.1 T.2
  end.
(** what the theorems say of a history *)
Record once_ok (h : list (N * event)) : Prop := {
  on_once : forall h1 t i x h2 t' j h3, h = h1 ++ (t, ERet i (AIns (Some x))) :: h2 ++ (t', ERet j (AIns (Some x))) :: h3 -> False;
  on_own : forall h1 t i x h2 t1 k v, h = h1 ++ (t, ERet i (AIns (Some x))) :: h2 -> last_at i h1 = Some (t1, ECall i (Insert k v)) -> x <> v;
  on_stale : forall h1 t j x h2 t1 i o h3 t2 h4,
    h = h1 ++ (t, ERet j (AIns (Some x))) :: h2 ++ (t1, ECall i o) :: h3 ++ (t2, ERet i (AGet (Some x))) :: h4 -> ConcLen.quiet_for i h3 -> False }.
Record OInv (c : csys) (h : list (N * event)) (g : ghost) : Prop := {
  oi_val : forall hd x, vals (c_mem c) !! hd = Some x -> gA g !! x = Some hd;
  oi_inj : forall x y hd, gA g !! x = Some hd -> gA g !! y = Some hd -> x = y;
  oi_fresh : forall x hd, gA g !! x = Some hd -> (hd < nxt (c_mem c))%N;
  oi_gone : forall x j, gG g !! x = Some j -> exists hd, gA g !! x = Some hd /\ (GVal hd ∈ retired (c_mem c) \/ vals (c_mem c) !! hd = None);
  oi_back : forall x, back x h -> gG g !! x = Some None;
  oi_thr : forall i t ops, c_thr c !! i = Some (t, ops) -> thr_ok h (gA g) (gG g) i t ops (gT g i);
  oi_once : once_ok h;
  oi_live : forall x hd, gA g !! x = Some hd -> gG g !! x = None -> vals (c_mem c) !! hd = Some x /\ GVal hd ∉ retired (c_mem c);
  oi_pend : forall x j, gG g !! x = Some (Some j) -> exists p ops hd, c_thr c !! j = Some (TRun p, ops) /\ gone (gT g j).1 = Some (hd, x);
  oi_ans : forall x, gG g !! x = Some None -> back x h;
  oi_asked : forall x hd, gA g !! x = Some hd -> exists k, asked k x h;
  oi_came : forall t i k x, (t, ECall i (Insert k x)) ∈ h -> is_Some (gA g !! x) \/
    exists p ops t1, c_thr c !! i = Some (TRun p, ops) /\ last_at i h = Some (t1, ECall i (Insert k x)) }.

(** another thread went on *)
Lemma thr_frame h e A A' G G' i t ops T : (forall x hd, A !! x = Some hd -> A' !! x = Some hd) ->
  (forall x ops, A !! x = None -> scripts !! i = Some ops -> x ∈ values_of ops -> A' !! x = None) ->
  (forall x, G !! x = Some None -> G' !! x = Some None) -> (forall x, G !! x = Some (Some i) -> G' !! x = Some (Some i)) ->
  match e with [] => True | [x] => event_of x.2 <> i | _ => False end ->
  thr_ok h A G i t ops T -> thr_ok (h ++ e) A' G' i t ops T.
Proof.
  intros HA HA' HG HG' He [H1 H2]. split; [done|].
  assert (forall l, todo_ok A i l -> todo_ok A' i l) as Ht.
  { intros l [B1 B2]. split; [done|]. intros x Hx. destruct (B2 x Hx) as (B3 & ops' & B4 & B5). split; [by eapply HA'|by exists ops']. }
  destruct t as [|p]; [by apply Ht|]. destruct H2 as (t1 & o & L & B & Z). exists t1, o.
  split. { destruct e as [|x [|]]; [by rewrite app_nil_r| |done]. by rewrite last_at_snoc, decide_False. }
  split; [by apply Ht|]. destruct Z as [Z1 Z2 Z3 Z4 Z5 Z6 Z7]. split; [done|auto| |..].
  - intros h1 t' o' h2 x E Hq Hb. destruct e as [|y [|]]; [by rewrite app_nil_r in E; eapply Z3| |done].
    apply ConcLen.snoc_mid in E as [(_ & <- & _)|(h2' & -> & E)]; [done|]. apply Forall_app in Hq as [Hq _]. by eapply Z3.
  - intros hd Hs Hz. destruct (Z4 hd Hs Hz) as (x & ? & ?). exists x. auto.
  - intros hd x Hr. destruct (Z5 hd x Hr) as (? & ? & ?). auto.
  - intros hd x Hr. destruct (Z6 hd x Hr) as (? & ?). auto.
  - intros x Hm Ho. destruct (Z7 x Hm Ho) as [hd Hd]. exists hd. auto.
Qed.

Definition backs (h : list (N * event)) : list N := omap (fun e => match e.2 with ERet _ (AIns (Some x)) => Some x | _ => None end) h.
Lemma elem_backs h x : x ∈ backs h <-> back x h.
Proof.
  unfold backs, handed_back. rewrite elem_of_list_omap. split.
  - intros ([t [i o|i [[y|]| | | |]]] & H & E); try discriminate E. injection E as ->. by exists t, i.
  - intros (t & i & H). by exists (t, ERet i (AIns (Some x))).
Qed.
Lemma back_app x h h' : back x h -> back x (h ++ h').
Proof. intros (t & i & H). exists t, i. rewrite elem_of_app. by left. Qed.
Lemma back_snoc x h e : back x (h ++ [e]) -> back x h \/ exists i, e.2 = ERet i (AIns (Some x)).
Proof. intros (t & i & [H|H]%elem_of_app); [left; by exists t, i|right]. apply elem_of_list_singleton in H as <-. by exists i. Qed.
Lemma back_mid h1 t i x h2 : back x (h1 ++ (t, ERet i (AIns (Some x))) :: h2).
Proof. exists t, i. rewrite elem_of_app, elem_of_cons. auto. Qed.
Lemma once_snoc h e : once_ok h -> (forall i x, e.2 = ERet i (AIns (Some x)) -> ~ back x h) ->
  (forall i x t1 k v, e.2 = ERet i (AIns (Some x)) -> last_at i h = Some (t1, ECall i (Insert k v)) -> x <> v) ->
  (forall i x h1 t1 o h3, e.2 = ERet i (AGet (Some x)) -> h = h1 ++ (t1, ECall i o) :: h3 -> ConcLen.quiet_for i h3 -> ~ back x h1) ->
  once_ok (h ++ [e]).
Proof.
  intros [O1 O2 O3] H1 H2 H3. split.
  - intros h1 t i x h2 t' j h3 E. rewrite app_comm_cons, app_assoc in E.
    apply ConcLen.snoc_mid in E as [(E & <- & _)|(h3' & -> & E)].
    + apply (H1 j x eq_refl). rewrite <- E. apply back_mid.
    + rewrite <- app_assoc in E. by eapply O1.
  - intros h1 t i x h2 t1 k v E L. apply ConcLen.snoc_mid in E as [(-> & <- & _)|(h3' & -> & E)]; [by eapply H2|by eapply O2].
  - intros h1 t j x h2 t1 i o h3 t2 h4 E Hq.
    replace (h1 ++ (t, ERet j (AIns (Some x))) :: h2 ++ (t1, ECall i o) :: h3 ++ (t2, ERet i (AGet (Some x))) :: h4)
      with (((h1 ++ (t, ERet j (AIns (Some x))) :: h2) ++ (t1, ECall i o) :: h3) ++ (t2, ERet i (AGet (Some x))) :: h4) in E
      by (repeat (rewrite <- ?app_assoc; cbn [app]); reflexivity).
    apply ConcLen.snoc_mid in E as [(E & <- & _)|(h4' & -> & E)].
    + eapply (H3 i x _ t1 o h3); [done|symmetry; exact E|done|]. apply back_mid.
    + eapply (O3 h1 t j x h2 t1 i o h3 t2 h4'); [|done]. rewrite E. repeat (rewrite <- ?app_assoc; cbn [app]). reflexivity.
Qed.
Lemma oi_same c c' h g : OInv c h g -> c_mem c' = c_mem c -> c_thr c' = c_thr c -> OInv c' h g.
Proof. intros [] E1 E2. split; rewrite ?E1, ?E2; done. Qed.
(** thread [i] went on *)
Lemma oi_move c h g i p ops m' p' A' G' d' c' : OInv c h g -> c_thr c !! i = Some (TRun p, ops) ->
  c_mem c' = m' -> c_thr c' = <[i := (TRun p', ops)]> (c_thr c) ->
  (forall hd x, vals m' !! hd = Some x -> A' !! x = Some hd) ->
  (forall x y hd, A' !! x = Some hd -> A' !! y = Some hd -> x = y) ->
  (forall x hd, A' !! x = Some hd -> (hd < nxt m')%N) ->
  (forall x j, G' !! x = Some j -> exists hd, A' !! x = Some hd /\ (GVal hd ∈ retired m' \/ vals m' !! hd = None)) ->
  (forall x j, gG g !! x = Some j -> G' !! x = Some j) ->
  (forall x hd, gA g !! x = Some hd -> A' !! x = Some hd) ->
  (forall x hd, gA g !! x = None -> A' !! x = Some hd -> exists ops, scripts !! i = Some ops /\ x ∈ values_of ops) ->
  thr_ok h A' G' i (TRun p') ops (d', (gT g i).2) ->
  (forall x hd, A' !! x = Some hd -> G' !! x = None -> vals m' !! hd = Some x /\ GVal hd ∉ retired m') ->
  (forall x j, gG g !! x = None -> G' !! x = Some j -> j = Some i /\ exists hd, gone d' = Some (hd, x)) ->
  (forall y, gone (gT g i).1 = Some y -> gone d' = Some y) ->
  (forall x hd, gA g !! x = None -> A' !! x = Some hd -> exists k, asked k x h) ->
  OInv c' h (mk_g A' G' (fun j => if decide (j = i) then (d', (gT g i).2) else gT g j)).
Proof.
  intros [O1 O2 O3 O4 O5 O6 O7 O8 O9 O10 O11 O12] Hc E1 E2 V1 V2 V3 V4 K1 K2 K3 T M1 M2 M3 M4. split; rewrite ?E1, ?E2; cbn; try done.
  - intros x Hb. by apply K1, O5.
  - intros j t ops' Hj. case_decide as Eji.
    + subst j. rewrite list_lookup_insert in Hj by (by eapply lookup_lt_Some). by injection Hj as <- <-.
    + rewrite list_lookup_insert_ne in Hj by done. rewrite <- (app_nil_r h). eapply thr_frame; [..|by apply O6]; try done.
      * intros x opsj HA Hs Hx. destruct (A' !! x) as [hd|] eqn:E; [|done]. exfalso. destruct (K3 x hd HA E) as (opsi & Hs' & Hx').
        apply Eji. by eapply distinct_other.
      * intros x. apply K1.
      * intros x. apply K1.
  - intros x j Hj. assert (gG g !! x = Some (Some j) \/ gG g !! x = None) as [Hx|Hx].
    { destruct (gG g !! x) as [j'|] eqn:E; [left|by right]. apply K1 in E. congruence. }
    + destruct (O9 x j Hx) as (q & opsj & hd & Hj1 & Hj2). destruct (decide (j = i)) as [->|Hne].
      * exists p', ops, hd. rewrite list_lookup_insert by (by eapply lookup_lt_Some). split; [done|]. cbn. by apply M3.
      * exists q, opsj, hd. by rewrite list_lookup_insert_ne.
    + destruct (M2 x _ Hx Hj) as ([= ->] & hd & Hd). exists p', ops, hd. rewrite list_lookup_insert by (by eapply lookup_lt_Some).
      by rewrite decide_True.
  - intros x Hx. destruct (gG g !! x) as [j|] eqn:E.
    + apply O10. pose proof (K1 _ _ E). congruence.
    + destruct (M2 x _ E Hx) as [? _]. done.
  - intros x hd Hx. destruct (gA g !! x) as [hd'|] eqn:E; [by eapply O11|by eapply M4].
  - intros t j k x Hin. destruct (O12 t j k x Hin) as [[hd Hd]|(q & opsj & t1 & Hj & L)]; [left; exists hd; auto|right].
    destruct (decide (j = i)) as [->|Hne].
    + exists p', ops, t1. by rewrite list_lookup_insert by (by eapply lookup_lt_Some).
    + exists q, opsj, t1. by rewrite list_lookup_insert_ne.
Qed.
Lemma lookup_retired w h : Inv w -> GVal h ∈ retired (wm w) -> is_Some (wtag w !! h) /\ exists B, wvl w !! h = Some (VRet B).
Proof.
  intros I Hin. destruct (iv_ret _ I) as (_ & R2 & R3 & R4). split; [exact (R3 _ Hin)|].
  apply elem_of_list_lookup in Hin as [j Hj]. destruct (lookup_lt_is_Some_2 (wblk w) j) as [B HB]; [rewrite R2; by eapply lookup_lt_Some|].
  exists B. apply R4. exists j. by rewrite list_lookup_fmap, Hj.
Qed.
Lemma retired_val w h B : Inv w -> is_Some (wtag w !! h) -> wvl w !! h = Some (VRet B) -> GVal h ∈ retired (wm w).
Proof.
  intros I Ht HB. destruct (iv_ret _ I) as (_ & _ & R3 & R4). apply R4 in HB as (j & Hj & _). apply list_lookup_fmap_Some in Hj as (g & Hj & ->).
  apply elem_of_list_lookup_2 in Hj. destruct g as [h|b]; [done|]. destruct (val_not_bag w b I); [done|exact (R3 _ Hj)].
Qed.

Lemma last_at_elem i (h : list (N * event)) e : last_at i h = Some e -> e ∈ h.
Proof. unfold last_at. intros H. apply last_Some_elem_of in H. by apply elem_of_list_filter in H as [_ H]. Qed.
Definition grows (g g' : ghost) : Prop := forall x hd, gA g !! x = Some hd -> gA g' !! x = Some hd.
Lemma oi_step F a c h g w w' : OInv c h g -> Inv w -> wm w = c_mem c -> Inv w' -> wm w' = c_mem (c_stepv F a c).1 ->
  hist_ok (h ++ (c_stepv F a c).2) -> exists g', OInv (c_stepv F a c).1 (h ++ (c_stepv F a c).2) g' /\ grows g g'.
Proof.
  intros O I Em I' Em' Hh. pose proof O as [O1 O2 O3 O4 O5 O6 O7 O8 O9 O10 O11 O12]. destruct a as [i|j]; cbn [c_stepv] in *.
  - unfold sys_stepv in *. cbn [fst snd] in *. destruct (c_thr c !! i) as [[t ops]|] eqn:Hc; cycle 1.
    { exists g. split; [|exact (fun _ _ H => H)]. cbn. rewrite app_nil_r. by eapply oi_same. }
    pose proof (lookup_lt_Some _ _ _ Hc) as Hi. destruct (O6 i t ops Hc) as [Hops T]. destruct t as [|[a|e|R f k]].
    + destruct ops as [|o ops]; [exists g; split; [|exact (fun _ _ H => H)]; cbn; rewrite app_nil_r; by eapply oi_same|]. cbn [fst snd map] in *.
      apply Forall_cons in Hops as [Ho Hops].
      exists (mk_g (gA g) (gG g) (fun j => if decide (j = i) then (D [] [] false None, backs h) else gT g j)). split; [|exact (fun _ _ H => H)]. split; cbn; try done.
      * intros x [Hb|(i' & E)]%back_snoc; [by apply O5|discriminate E].
      * intros j t ops' Hj. case_decide as Eji.
        -- subst j. rewrite list_lookup_insert in Hj by done. injection Hj as <- <-. split; [done|].
           exists (c_time c), o. split; [by rewrite ConcLen.last_at_snoc, decide_True|]. split; [by destruct o|]. cbn [fst snd]. split.
           ++ by apply go_call.
           ++ intros x Hx. by apply O5, elem_backs.
           ++ intros h1 t o' h2 x E Hq Hb. apply ConcLen.snoc_mid in E as [(-> & _ & _)|(h2' & -> & E)]; [by apply elem_backs|].
              apply Forall_app in Hq as [_ Hq]. rewrite Forall_singleton in Hq. by destruct Hq.
           ++ by intros hd ?%elem_of_nil.
           ++ by intros hd x ?%elem_of_nil.
           ++ done.
           ++ done.
        -- rewrite list_lookup_insert_ne in Hj by done. eapply thr_frame; [..|by apply O6]; try done.
      * by apply once_snoc.
      * intros x j Hj. destruct (O9 x j Hj) as (q & opsj & hd & Hj1 & Hj2). assert (j <> i) as Hne by congruence.
        exists q, opsj, hd. rewrite list_lookup_insert_ne, decide_False; done.
      * intros x Hx. by apply back_app, O10.
      * intros x hd Hx. destruct (O11 x hd Hx) as (kk & ?). exists kk. by apply asked_app.
      * intros t j kk x Hin. apply elem_of_app in Hin as [Hin|Hin].
        -- destruct (O12 t j kk x Hin) as [?|(q & opsj & t1 & Hj & L)]; [by left|right]. assert (j <> i) as Hne by congruence.
           exists q, opsj, t1. rewrite list_lookup_insert_ne by done. split; [done|]. rewrite ConcLen.last_at_snoc, decide_False; [done|]. cbn. congruence.
        -- apply elem_of_list_singleton in Hin. injection Hin as -> -> <-. right. exists (call insert_v F (Insert kk x)), ops, (c_time c).
           rewrite list_lookup_insert by done. split; [done|]. by rewrite ConcLen.last_at_snoc, decide_True.
    + destruct T as (t1 & o & L & B & Z). cbn [fst snd map] in *. destruct (gT g i) as [d sn] eqn:ET. cbn [fst snd] in *.
      pose proof (bz_go _ _ _ _ _ _ _ _ Z) as Ht. cbn [go] in Ht.
      assert (forall x, a = AIns (Some x) -> gG g !! x = Some (Some i) /\ own o <> Some x) as Hx.
      { intros x ->. destruct Ht as [_ Hg]. destruct (gone d) as [[hd y]|] eqn:Eg; [|done]. injection Hg as ->. by apply (bz_gone _ _ _ _ _ _ _ _ Z) in Eg. }
      set (G' := match a with AIns (Some x) => <[x := None]> (gG g) | _ => gG g end).
      assert (forall y j, gG g !! y = Some j -> j <> Some i -> G' !! y = Some j) as K1.
      { intros y j Hy Hj. subst G'. destruct a as [[x|]| | | |]; try done. rewrite lookup_insert_ne; [done|]. intros ->. destruct (Hx y eq_refl) as [Hx' _]. congruence. }
      exists (mk_g (gA g) G' (gT g)). split; [|exact (fun _ _ H => H)]. split; cbn; try done.
      * intros x j Hj. assert (is_Some (gG g !! x)) as [j' Hj'].
        { subst G'. destruct a as [[y|]| | | |]; try by eexists. apply lookup_insert_Some in Hj as [[<- _]|[_ Hj]]; [|by eexists]. destruct (Hx y eq_refl) as [Hx' _]. by eexists. }
        by eapply O4.
      * intros x [Hb|(i' & [= -> ->])]%back_snoc.
        -- apply K1; [by apply O5|done].
        -- subst G'. by rewrite lookup_insert.
      * intros j t ops' Hj. destruct (decide (j = i)) as [->|Eji].
        -- rewrite list_lookup_insert in Hj by done. injection Hj as <- <-. split; [done|]. cbn in *. destruct B as [B1 B2]. unfold todo in *. split.
           ++ by apply NoDup_app in B1 as (_ & _ & B1).
           ++ intros x Hxx. apply B2, elem_of_app. by right.
        -- rewrite list_lookup_insert_ne in Hj by done. eapply thr_frame; [..|by apply O6]; try done.
           ++ intros x H. by apply K1.
           ++ intros x H. apply K1; [done|congruence].
      * apply once_snoc; [done|..]; cbn.
        -- intros i' x [= <- ->] Hb%O5. destruct (Hx x eq_refl) as [Hx' _]. congruence.
        -- intros i' x t2 k v [= <- ->] L'. rewrite L in L'. injection L' as -> ->. destruct (Hx x eq_refl) as [_ Hx']. intros ->. by apply Hx'.
        -- intros i' x h1 t2 o' h3 [= <- ->] -> Hq Hb. destruct Ht as [[hd Hr] _]. apply (bz_rd _ _ _ _ _ _ _ _ Z) in Hr as (_ & Hr & _).
           apply Hr. by eapply (bz_sn' _ _ _ _ _ _ _ _ Z).
      * intros x hd HA HG. apply O8; [done|]. destruct (gG g !! x) as [j|] eqn:E; [|done]. exfalso. subst G'.
        destruct a as [[y|]| | | |]; try congruence. apply lookup_insert_None in HG as [? _]. congruence.
      * intros x j Hj. assert (gG g !! x = Some (Some j) /\ a <> AIns (Some x)) as [Hx' Ha].
        { subst G'. destruct a as [[y|]| | | |]; try done. apply lookup_insert_Some in Hj as [[_ ?]|[Hne Hj]]; [done|]. split; [done|congruence]. }
        destruct (O9 x j Hx') as (q & opsj & hd & Hj1 & Hj2). destruct (decide (j = i)) as [->|Hne].
        -- exfalso. rewrite ET in Hj2. cbn in Hj2. assert (a = AIns (snd <$> gone d) \/ gone d = None) as [Ea|Ea].
           { destruct a as [r| |[y|]| |]; cbn in Ht; [left; by destruct Ht as [_ ->]|right; done|right; by destruct Ht|right; done..]. }
           ++ apply Ha. by rewrite Ea, Hj2.
           ++ congruence.
        -- exists q, opsj, hd. by rewrite list_lookup_insert_ne.
      * intros x Hx'. assert (gG g !! x = Some None \/ a = AIns (Some x)) as [H| ->].
        { subst G'. destruct a as [[y|]| | | |]; try (by left). apply lookup_insert_Some in Hx' as [[-> _]|[_ ?]]; [by right|by left]. }
        -- by apply back_app, O10.
        -- exists (c_time c), i. apply elem_of_app. right. by left.
      * intros x hd HA. destruct (O11 x hd HA) as (kk & ?). exists kk. by apply asked_app.
      * intros t j kk x Hin. apply elem_of_app in Hin as [Hin|Hin]; [|by apply elem_of_list_singleton in Hin].
        destruct (O12 t j kk x Hin) as [?|(q & opsj & t2 & Hj & L2)]; [by left|]. destruct (decide (j = i)) as [->|Hne].
        -- left. rewrite L in L2. injection L2 as -> ->. destruct (Hh h (c_time c) i a [] eq_refl) as (t3 & o' & L3 & Ha).
           rewrite L in L3. injection L3 as <- <-. apply (bz_mine _ _ _ _ _ _ _ _ Z); [|done]. destruct a; try done. by destruct Ht.
        -- right. exists q, opsj, t2. rewrite list_lookup_insert_ne by done. split; [done|]. rewrite ConcLen.last_at_snoc, decide_False; [done|]. cbn. congruence.
    + exists g. split; [|exact (fun _ _ H => H)]. cbn. rewrite app_nil_r. by eapply oi_same.
    + destruct T as (t1 & o & L & [B1 B2] & Z). pose proof Z as [Z1 Z2 Z3 Z4 Z5 Z6 Z7]. cbn [go] in Z1.
      destruct (f (c_mem c)) as [[r m']|e] eqn:Ef; cbn [fst snd map] in *; rewrite app_nil_r in *; cycle 1.
      { eexists. split; [eapply (oi_move c h g i _ ops (c_mem c) (Fail e) (gA g) (gG g) (gT g i).1); try done; try (intros; congruence)|first [exact (fun _ _ H => H)|exact HA]].
        split; [done|]. exists t1, o. split; [done|]. split; [done|]. by split. }
      cbn in Em'.
      destruct Z1 as [[H1 H2]|[(out & H1 & H2)|[(hd & out & H1 & H2 & H3 & H4 & H5)|[(x & H1 & H2 & H3 & H4)|(hd & x & H1 & H2 & H3 & H4)]]]].
      * (* nothing of interest *)
        destruct (H1 _ _ _ Ef) as (E1 & E2 & E3). eexists. split; [eapply (oi_move c h g i _ ops m' (k r) (gA g) (gG g) (gT g i).1); try done; try (intros; congruence)|first [exact (fun _ _ H => H)|exact HA]].
        -- by rewrite E1.
        -- intros y hd Hy. eapply N.lt_le_trans; [by eapply O3|done].
        -- intros y j Hy. destruct (O4 y j Hy) as (hd & ? & ?). exists hd. rewrite E2, E1. done.
        -- split; [done|]. exists t1, o. split; [done|]. split; [done|]. by split.
        -- intros y hd Hy HG. rewrite E1, E2. by apply O8.
      * (* a slot is read *)
        destruct (H1 _ _ _ Ef) as (-> & p & l & s & Hp & Hs). eexists. split; [eapply (oi_move c h g i _ ops (c_mem c) (k r) (gA g) (gG g) (see (out r) (gT g i).1)); try done; try (intros; congruence)|first [exact (fun _ _ H => H)|exact HA]].
        split; [done|]. exists t1, o. split; [done|]. split; [done|]. split; try done; [by apply H2|].
        intros hd Hin Hz. cbn in Hin. apply elem_of_cons in Hin as [->|Hin]; [|by apply Z4].
        rewrite <- Em in Hp. destruct (iv_node _ I p _ Hp) as [_ Hl]. pose proof (lo_val _ _ _ Hl s _ (lptrs_val _ _ _ Hs) Hz) as Hv.
        assert (is_Some (vals (wm w) !! out r)) as [x Hx] by (apply tag_val; [done|by eapply (lo_isval _ _ _ Hl)|by eexists]). rewrite Em in Hx.
        exists x. split; [by apply O1|]. intros Hsn%Z2. destruct (O4 _ _ Hsn) as (hd & Hd & Hor). rewrite (O1 _ _ Hx) in Hd. injection Hd as <-.
        destruct Hor as [Hr|Hn]; [|congruence]. rewrite <- Em in Hr. apply lookup_retired in Hr as (_ & BB & Hr); [congruence|done].
      * (* a value is read *)
        destruct (H1 _ _ _ Ef) as (-> & Hv). eexists. split; [eapply (oi_move c h g i _ ops (c_mem c) (k r) (gA g) (gG g) (D (seen (gT g i).1) ((hd, out r) :: rd (gT g i).1) (mine (gT g i).1) (gone (gT g i).1))); try done; try (intros; congruence)|first [exact (fun _ _ H => H)|exact HA]].
        split; [done|]. exists t1, o. split; [done|]. split; [done|]. split; try done; [by apply H5|].
        intros hd' x Hin. cbn in Hin. apply elem_of_cons in Hin as [[= -> ->]|Hin]; [|by apply Z5].
        destruct (Z4 hd H2 H3) as (x & Hx & Hsn). pose proof (O1 _ _ Hv) as Hx'. assert (x = out r) as -> by (by eapply O2).
        split; [done|]. split; [done|]. intros Ho. destruct o as [kk vv| | | |]; try discriminate Ho. injection Ho as ->.
        unfold todo in B2. rewrite H4 in B2. destruct (B2 (out r)) as [B3 _]; [by left|]. congruence.
      * (* the value is brought *)
        destruct (H3 _ _ _ Ef) as (E1 & E2 & E3). destruct o as [kk vv| | | |]; try discriminate H1. injection H1 as ->.
        unfold todo in B1, B2. rewrite H2 in B1, B2. destruct (B2 x) as (Hx & Hscr); [by left|]. cbn in B1. apply NoDup_cons in B1 as [B1 B1'].
        assert (forall y hd, gA g !! y = Some hd -> <[x := nxt (c_mem c)]> (gA g) !! y = Some hd) as HA.
        { intros y hd Hy. rewrite lookup_insert_ne; [done|]. congruence. }
        assert (GVal (nxt (c_mem c)) ∉ retired (c_mem c)) as Hfr.
        { intros Hr. rewrite <- Em in Hr. apply lookup_retired in Hr as [[y Hy] _]; [|done]. apply (iv_fresh _ I) in Hy. lia. }
        eexists. split; [eapply (oi_move c h g i _ ops m' (k r) (<[x := nxt (c_mem c)]> (gA g)) (gG g) (D (seen (gT g i).1) (rd (gT g i).1) true (gone (gT g i).1))); try done; try (intros; congruence)|first [exact (fun _ _ H => H)|exact HA]].
        -- intros hd y. rewrite E1. intros [[<- <-]|[Hne Hy]]%lookup_insert_Some; [by rewrite lookup_insert|]. by apply HA, O1.
        -- intros y z hd [[<- Ey]|[Hy Ey]]%lookup_insert_Some [[<- Ez]|[Hz Ez]]%lookup_insert_Some; try done.
           ++ subst hd. apply O3 in Ez. lia.
           ++ subst hd. apply O3 in Ey. lia.
           ++ by eapply O2.
        -- intros y hd [[<- <-]|[Hy Ey]]%lookup_insert_Some; [done|]. apply O3 in Ey. lia.
        -- intros y j Hy. destruct (O4 y j Hy) as (hd & Hh' & Hor). exists hd. split; [by apply HA|]. rewrite E2, E1. destruct Hor as [?|Hn]; [by left|right].
           rewrite lookup_insert_ne; [done|]. apply O3 in Hh'. lia.
        -- intros y hd Hn [[<- _]|[_ Ey]]%lookup_insert_Some; [done|congruence].
        -- split; [done|]. exists t1, (Insert kk x). split; [done|]. split.
           ++ cbn. split; [done|]. intros y Hy. destruct (B2 y) as (B3 & B4); [by right|]. split; [|done]. rewrite lookup_insert_ne; [done|]. intros ->. done.
           ++ split; cbn; try done.
              ** intros hd Hin Hz. destruct (Z4 hd Hin Hz) as (y & Hy & Hsn). exists y. split; [by apply HA|done].
              ** intros hd y Hin. destruct (Z5 hd y Hin) as (Hy & Hsn & Hn). split; [by apply HA|done].
              ** intros y _ [= <-]. rewrite lookup_insert. by eexists.
        -- intros y hd Hy HG. rewrite E1, E2. apply lookup_insert_Some in Hy as [[<- <-]|[Hne Hy]].
           ++ by rewrite lookup_insert.
           ++ rewrite lookup_insert_ne; [by apply O8|]. apply O3 in Hy. lia.
        -- intros y hd Hn [[<- _]|[_ Ey]]%lookup_insert_Some; [|congruence]. exists kk, t1, i. by eapply last_at_elem.
      * (* a value is given up *)
        destruct (H3 _ _ _ Ef) as (E1 & E2 & E3). destruct (Z5 _ _ H1) as (Hx & Hsn & Hown).
        assert (gG g !! x = None) as HGx.
        { destruct (gG g !! x) as [j|] eqn:E; [|done]. exfalso. destruct (O4 x j E) as (hd' & Hh' & Hor). rewrite Hx in Hh'. injection Hh' as <-.
          destruct (iv_ret _ I') as (R1 & _). rewrite Em', E2 in R1. cbn in R1. apply NoDup_cons in R1 as [R1 _].
          destruct Hor as [Hr0|Hn]; [destruct R1; apply (elem_of_list_fmap_1 gaddr _ _ Hr0)|]. assert (GVal hd ∈ retired (wm w')) as Hr by (rewrite Em', E2; by left).
          apply lookup_retired in Hr as (Ht & BB & Hr); [|done]. destruct (tag_val w' hd I' Ht) as [y Hy]; [by eexists|].
          rewrite Em', E1 in Hy. congruence. }
        eexists. split; [eapply (oi_move c h g i _ ops m' (k r) (gA g) (<[x := Some i]> (gG g)) (D (seen (gT g i).1) (rd (gT g i).1) (mine (gT g i).1) (Some (hd, x)))); try done; try (intros; congruence)|first [exact (fun _ _ H => H)|exact HA]].
        -- by rewrite E1.
        -- by rewrite E3.
        -- intros y j Hy. rewrite E2, E1. apply lookup_insert_Some in Hy as [[<- _]|[Hne Hy]].
           ++ exists hd. split; [done|]. left. by left.
           ++ destruct (O4 y j Hy) as (hd' & ? & [?|?]); exists hd'; (split; [done|]); [left; by right|by right].
        -- intros y j Hy. rewrite lookup_insert_ne; [done|]. congruence.
        -- split; [done|]. exists t1, o. split; [done|]. split; [done|]. split; cbn; try done.
           ++ intros y Hy%Z2. rewrite lookup_insert_ne; [done|]. congruence.
           ++ intros hd' y [= <- <-]. by rewrite lookup_insert.
        -- intros y hd' Hy HG. apply lookup_insert_None in HG as [HG Hne]. rewrite E1, E2. destruct (O8 y hd' Hy HG) as [Hv Hr]. split; [done|].
           rewrite elem_of_cons. intros [[= ->]|?]; [|done]. apply Hne. by eapply O2.
        -- intros y j Hn Hy. apply lookup_insert_Some in Hy as [[<- <-]|[_ Hy]]; [|congruence]. split; [done|]. by exists hd.
  - assert (exists g', OInv (mk_csys (c_mem c) (c_thr c) (c_blk c) (c_fault c) (c_time c + 1)) (h ++ []) g' /\ grows g g') as Hnone.
    { exists g. split; [|exact (fun _ _ H => H)]. rewrite app_nil_r. by eapply oi_same. }
    destruct (retired (c_mem c) !! j) as [gb|] eqn:Ej; [|done].
    destruct (c_blk c !! j) as [[|x B]|] eqn:Eb; [|done..].
    destruct gb as [hh|bb]; cycle 1.
    { assert (forall hd, GVal hd ∈ delete j (retired (c_mem c)) <-> GVal hd ∈ retired (c_mem c)) as Hret.
      { intros hd. split; [by apply delete_elem|]. intros [n Hn]%elem_of_list_lookup. apply elem_of_list_lookup. destruct (decide (n < j)) as [Hlt|Hge].
        - exists n. by rewrite lookup_delete_lt.
        - assert (n <> j) by congruence. exists (pred n). rewrite lookup_delete_ge by lia. by replace (S (pred n)) with n by lia. }
      cbn [reclaim1 bags mwith_retired] in *. destruct (bags (c_mem c) !! bb) as [bg|] eqn:Ev; cycle 1.
      { exists g. split; [|exact (fun _ _ H => H)]. cbn. rewrite app_nil_r. by eapply oi_same. }
      cbn [fst snd]. exists g. split; [|exact (fun _ _ H => H)]. rewrite app_nil_r. split; cbn; try done.
      - intros x j' Hx. destruct (O4 x j' Hx) as (hd & Hd & Hor). exists hd. split; [done|]. by rewrite Hret.
      - intros x hd HA HG. rewrite Hret. by apply O8. }
    cbn [reclaim1 vals mwith_retired] in *. destruct (vals (c_mem c) !! hh) as [v|] eqn:Ev; cycle 1.
    { exists g. split; [|exact (fun _ _ H => H)]. cbn. rewrite app_nil_r. by eapply oi_same. }
    cbn [fst snd]. exists g. split; [|exact (fun _ _ H => H)]. rewrite app_nil_r. split; cbn; try done.
    + intros hd x. rewrite lookup_delete_Some. intros [_ ?]. by apply O1.
    + intros x j' Hx. destruct (O4 x j' Hx) as (hd & Hd & Hor). exists hd. split; [done|].
      destruct (decide (hd = hh)) as [->|Hne]; [right; apply lookup_delete|]. rewrite lookup_delete_ne by done.
      destruct Hor as [Hr|Hn]; [left|by right]. apply elem_of_list_lookup in Hr as [n Hn].
      apply elem_of_list_lookup. destruct (decide (n < j)) as [Hlt|Hge].
      * exists n. by rewrite lookup_delete_lt.
      * assert (n <> j) by congruence. exists (pred n). rewrite lookup_delete_ge by lia. by replace (S (pred n)) with n by lia.
    + intros x hd HA HG. destruct (O8 x hd HA HG) as [Hv Hr]. split.
      * rewrite lookup_delete_ne; [done|]. intros ->. apply Hr. by eapply elem_of_list_lookup_2.
      * intros Hin. apply Hr. by eapply delete_elem.
Qed.
Lemma oi_run F acts : forall c h g w, OInv c h g -> SInv scripts c h w -> exists g', OInv (c_runv F acts c).1 (h ++ (c_runv F acts c).2) g'.
Proof.
  induction acts as [|a acts IH]; intros c h g w O HS; cbn [c_runv].
  - exists g. cbn. by rewrite app_nil_r.
  - destruct (c_step_ok scripts Hcalls F a c h w HS) as (w1 & HS1 & _).
    destruct (oi_step F a c h g w w1 O) as (g1 & O1 & _); [apply HS|apply HS|apply HS1|apply HS1|apply HS1|].
    destruct (c_stepv F a c) as [c1 h1]. cbn [fst snd] in *.
    destruct (IH c1 (h ++ h1) g1 w1 O1 HS1) as (g2 & O2). destruct (c_runv F acts c1) as [c2 h2]. cbn [fst snd] in *. exists g2.
    by rewrite app_assoc.
Qed.
Lemma oi_start : OInv (c_start scripts) [] (mk_g ∅ ∅ (fun _ => (D [] [] false None, []))).
Proof.
  destruct Hcalls as [H _]. split; cbn; try done.
  - intros x (t & i & Hx). by apply elem_of_nil in Hx.
  - intros i t ops Hi. apply list_lookup_fmap_Some in Hi as (ops' & Hs & [= -> ->]).
    split; [by eapply (Forall_lookup_1 _ scripts i)|]. cbn.
    split; [by eapply distinct_own|]. intros x Hx. split; [done|]. by exists ops'.
  - split; by intros [].
  - intros t i k x Hx. by apply elem_of_nil in Hx.
Qed.
Section Run.
Context (F : nat) (acts : list act) (c : csys) (h : list (N * event)).
Hypothesis Hrun : c_run F acts (c_start scripts) = (c, h).
Lemma conc_oinv : exists c' g w, sim c c' /\ OInv c' h g /\ SInv scripts c' h w.
Proof.
  destruct (sim_run F acts _ _ (sim_start scripts)) as [Eh Hs].
  { intros acts'. destruct (conc_ok_v F scripts acts' Hcalls) as [w S]. by eapply sinv_running. }
  destruct (conc_ok_v F scripts acts Hcalls) as [w S]. rewrite Hrun in Eh, Hs. cbn [fst snd] in Eh, Hs.
  destruct (oi_run F acts (c_start scripts) [] _ w_start oi_start (sinv_start scripts)) as (g & O). cbn [app] in O. rewrite <- Eh in S, O.
  by exists (c_runv F acts (c_start scripts)).1, g, w.
Qed.
Lemma conc_once : once_ok h.
Proof. destruct conc_oinv as (c' & g & w & _ & O & _). apply O. Qed.
Lemma conc_kept x : c_quiet c -> (exists hd, vals (c_mem c) !! hd = Some x /\ GVal hd ∉ retired (c_mem c)) <-> (exists k, asked k x h) /\ ~ back x h.
Proof.
  intros Hq. destruct conc_oinv as (c' & g & w & Hs & [O1 O2 O3 O4 O5 O6 O7 O8 O9 O10 O11 O12] & _). rewrite (sim_mem _ _ Hs).
  apply (quiet_sim _ Hq) in Hs. clear Hq. rename Hs into Hq. split.
  - intros (hd & Hv & Hr). pose proof (O1 _ _ Hv) as HA. split; [by eapply O11|]. intros Hb%O5.
    destruct (O4 _ _ Hb) as (hd' & HA' & Hor). rewrite HA in HA'. injection HA' as <-. destruct Hor; [done|congruence].
  - intros [(k & t & i & Hin) Hb]. destruct (O12 _ _ _ _ Hin) as [[hd HA]|(p & ops & t1 & Hi & _)]; [|by specialize (Hq _ _ _ Hi)].
    exists hd. apply O8; [done|]. destruct (gG g !! x) as [[j|]|] eqn:HG; [|by destruct Hb; apply O10|done].
    destruct (O9 _ _ HG) as (p & ops & hd' & Hj & _). by specialize (Hq _ _ _ Hj).
Qed.
(** *** what is stored *)
Lemma calls_from acts' : forall c', (forall i t ops o, c_thr c' !! i = Some (t, ops) -> o ∈ ops -> o ∈ concat scripts) ->
  forall t i o, (t, ECall i o) ∈ (c_run F acts' c').2 -> o ∈ concat scripts.
Proof.
  induction acts' as [|a acts' IH]; intros c' Hc t i o; cbn [c_run]; [by intros ?%elem_of_nil|].
  assert ((forall i t ops o, c_thr (c_step F a c').1 !! i = Some (t, ops) -> o ∈ ops -> o ∈ concat scripts) /\
    forall t i o, (t, ECall i o) ∈ (c_step F a c').2 -> o ∈ concat scripts) as [H1 H2].
  { destruct a as [j|j]; cbn [c_step].
    - unfold sys_step. cbn [fst snd]. destruct (c_thr c' !! j) as [[tj opsj]|] eqn:Hj; cycle 1.
      { split; [done|]. cbn. by intros ??? ?%elem_of_nil. }
      assert (forall q opsq, (forall o, o ∈ opsq -> o ∈ opsj) -> forall i t ops o, <[j := (q, opsq)]> (c_thr c') !! i = Some (t, ops) -> o ∈ ops -> o ∈ concat scripts) as Hup.
      { intros q opsq Hsub i' t' ops' o' Hi Ho. apply list_lookup_insert_Some in Hi as [(-> & [= <- <-] & _)|[_ Hi]]; [|by eapply Hc]. eapply Hc; [done|]. by apply Hsub. }
      destruct tj as [|[a|e|R f k]].
      + destruct opsj as [|oj opsj]; [split; [done|]; cbn; by intros ??? ?%elem_of_nil|]. cbn [fst snd map c_thr]. split.
        * apply Hup. intros o' ?. by right.
        * intros t' i' o' Hin. apply elem_of_list_singleton in Hin as [= -> -> ->]. eapply Hc; [done|]. by left.
      + cbn [fst snd map c_thr]. split; [by apply Hup|]. intros t' i' o' Hin. by apply elem_of_list_singleton in Hin.
      + split; [done|]. cbn. by intros ??? ?%elem_of_nil.
      + destruct (f (c_mem c')) as [[r m']|e]; cbn [fst snd map c_thr]; (split; [by apply Hup|by intros ??? ?%elem_of_nil]).
    - repeat case_match; (split; [done|cbn; by intros ??? ?%elem_of_nil]). }
  destruct (c_step F a c') as [c1 h1]. cbn [fst snd] in *. specialize (IH c1 H1 t i o). destruct (c_run F acts' c1) as [c2 h2]. cbn [fst snd] in *.
  rewrite elem_of_app. intros [?|?]; [by eapply H2|by apply IH].
Qed.
Lemma asked_same k k' x : asked k x h -> asked k' x h -> k = k'.
Proof.
  assert (forall k, asked k x h -> Insert k x ∈ concat scripts) as Hin.
  { intros k0 (t & i & H). eapply (calls_from acts (c_start scripts)); [|by rewrite Hrun]. intros i' t' ops o Hi Ho.
    cbn in Hi. apply list_lookup_fmap_Some in Hi as (ops' & Hs & [= -> ->]). apply elem_of_list_In, in_concat. exists ops'.
    split; [apply elem_of_list_In; by eapply elem_of_list_lookup_2|by apply elem_of_list_In]. }
  intros H1%Hin H2%Hin. clear -Hdis H1 H2. induction (concat scripts) as [|o l IH]; [by apply elem_of_nil in H1|].
  assert (forall k l, Insert k x ∈ l -> x ∈ values_of l) as Hv.
  { intros k0 l0 H. unfold values_of. apply elem_of_list_omap. by exists (Insert k0 x). }
  apply elem_of_cons in H1 as [<-|H1].
  - apply elem_of_cons in H2 as [[= <-]|H2]; [done|]. cbn in Hdis. apply NoDup_cons in Hdis as [Hn _]. destruct Hn. by eapply Hv.
  - apply elem_of_cons in H2 as [<-|H2].
    + cbn in Hdis. apply NoDup_cons in Hdis as [Hn _]. destruct Hn. by eapply Hv.
    + apply IH; [|done|done]. destruct o; cbn in Hdis; try done. by apply NoDup_cons in Hdis as [_ ?].
Qed.
Lemma code_klx k : length_code k = kklx k.
Proof. done. Qed.
Lemma sfx_get w l s k : sfx w l s = Some k -> exists bg, bags (wm w) !! l_ksuf l = Some bg /\ bag_get bg s = Ok (Some k).
Proof.
  unfold sfx, bsfx. destruct (bags (wm w) !! l_ksuf l) as [bg|] eqn:E; [|done]. intros H. exists bg. split; [done|].
  destruct (bag_get bg s) as [o|]; [by rewrite H|done].
Qed.
Lemma conc_stored k x : c_quiet c -> Forall (fun b => b < 256)%N k -> stored (c_mem c) k x <-> asked k x h /\ ~ back x h.
Proof.
  intros Hq Hk. destruct (conc_ok F scripts acts c h Hcalls Hrun) as (c' & w & Hs & S). pose proof (quiet_free _ _ _ _ S (quiet_sim _ Hq _ Hs)) as Hf.
  pose proof (si_inv _ _ _ _ S) as I. pose proof (si_mem _ _ _ _ S) as Em. rewrite <- (sim_mem _ _ Hs) in Em.
  assert (forall p l, hp w !! p = Some (NLeaf l) -> leaf_ok w p l /\ leaf_good l /\ forall s, s ∈ actv l -> slot_ok w l s) as Hleaf.
  { intros p l Hp. assert (wown w !! p = None) as Ho. { destruct (wown w !! p) as [j|] eqn:E; [|done]. by destruct (fr_own _ _ (Hf j) p). }
    destruct (iv_node _ I p _ Hp) as [_ Hl]. split; [done|]. split; [by apply (iv_good _ I p _ Hp Ho)|]. apply (lo_tag _ _ _ Hl), (lo_frz _ _ _ Hl).
    pose proof (conc_unlocked F scripts acts c h Hcalls Hrun Hq p) as Hu. unfold node_locked in Hu. rewrite <- Em in Hu. change (heap (wm w)) with (hp w) in Hu. rewrite Hp in Hu.
    destruct (lo_ver _ _ _ Hl) as (md & rt & Hv). unfold spl. rewrite (vbits_splitting _ _ _ _ Hv). rewrite (vbits_lockedf _ _ _ _ Hv) in Hu. destruct md; [done|done|by destruct Hu]. }
  assert (forall k' hd, wtag w !! hd = Some (k', x) -> asked k' x h /\ Forall (fun b => b < 256)%N k') as Htag.
  { intros k' hd Ht. pose proof (iv_called _ I _ _ Ht) as Hc. split; [by apply (si_called _ _ _ _ S)|]. by apply (iv_keys _ I _ _ Hc). }
  assert (forall hd, vals (wm w) !! hd = Some x -> forall k' v, wtag w !! hd = Some (k', v) -> v = x) as Hcont.
  { intros hd Hv k' v Ht. destruct (iv_tag _ I _ _ Hv) as [k'' Ht']. congruence. }
  split.
  - intros (p & l & s & hd & Hp & Hs' & Hik & Hkl & Hv & Hx & Hsuf). rewrite <- Em in Hp, Hx, Hsuf. destruct (Hleaf p l Hp) as (Hl & _ & Hslot).
    destruct (Hslot s Hs') as (k' & v & hd' & Hk' & Hv' & Hz & Ht & Hd). rewrite Hv in Hv'. injection Hv' as <-. pose proof (Hcont hd Hx k' v Ht) as ->.
    destruct (Htag _ _ Ht) as (Ha & Hb). assert (k = k') as <-.
    { destruct Hk' as [Hk1 Hk2]. rewrite Hkl, code_klx in Hk2. injection Hk2 as Hk2. apply key_same2; try done.
      - rewrite Hik in Hk1. injection Hk1 as <-. apply (slice_ikey k 0). lia.
      - intros H8. assert (8 < length k') as H8'. { unfold kklx, KSUF_KEYLENX in Hk2. destruct (Nat.leb_spec (length k) 8), (Nat.leb_spec (length k') 8); lia. }
        destruct (sfx_get w l s _ (Hd H8')) as (bg & B1 & B2). destruct (Hsuf H8) as (bg' & B1' & B2'). congruence. }
    split; [done|]. apply (conc_kept x Hq). exists hd. rewrite <- Em. split; [done|]. intros (_ & B & HB)%lookup_retired; [|done].
    pose proof (lo_val _ _ _ Hl s hd (lptrs_val _ _ _ Hv) Hz). congruence.
  - intros [Ha Hb]. destruct (proj2 (conc_kept x Hq)) as (hd & Hx & Hr); [split; [by exists k|done]|]. rewrite <- Em in Hx, Hr.
    destruct (proj2 (iv_vals _ I hd)) as [pl Hpl]; [left; by eexists|]. destruct pl as [p s|i|B].
    + destruct (iv_slot _ I hd p s Hpl) as (l & Hp & Hv). destruct (Hleaf p l Hp) as (Hl & Hg & Hslot).
      pose proof (iv_hdl _ I _ _ Hpl) as Hz. assert (is_Some (wtag w !! hd)) as Htg by (destruct (iv_tag _ I _ _ Hx) as [kk ?]; by eexists).
      unfold lptrs in Hv. apply lookup_app_Some in Hv as [Hv|[_ Hv]]; cycle 1.
      { apply list_lookup_singleton_Some in Hv as [_ <-]. destruct (val_not_bag w (l_ksuf l) I Htg). eexists. by apply (lo_ksuf _ _ _ Hl). }
      assert (s ∈ actv l) as Hs'.
      { destruct (decide (s ∈ actv l)); [done|]. assert (s < 24) as Hlt. { destruct (lo_len _ _ _ Hl) as (_ & _ & <-). by eapply lookup_lt_Some. }
        pose proof (lg_free _ Hg s Hlt n). congruence. }
      destruct (Hslot s Hs') as (k' & v & hd' & [Hk1 Hk2] & Hv' & _ & Ht & Hd). rewrite Hv in Hv'. injection Hv' as <-. pose proof (Hcont hd Hx k' v Ht) as ->.
      destruct (Htag _ _ Ht) as (Ha' & _). pose proof (asked_same _ _ _ Ha Ha') as <-.
      exists p, l, s, hd. rewrite <- Em. split; [done|]. split; [done|]. split; [rewrite Hk1; f_equal; apply (slice_ikey k 0); lia|]. split; [by rewrite code_klx|].
      split; [done|]. split; [done|]. intros H8. by apply sfx_get, Hd.
    + by destruct (fr_hold _ _ (Hf i) hd).
    + destruct Hr. eapply retired_val; [done| |exact Hpl]. destruct (iv_tag _ I _ _ Hx) as [kk ?]; by eexists.
Qed.
End Run.
End Once.
