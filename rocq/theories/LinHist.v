(** Consequences of linearizability for histories. *)
From Verif Require Import Base Prog Mem Tree SpecTree SpecLin.

Lemma vis_app a b : visible (a ++ b) = visible a ++ visible b.
Proof. apply omap_app. Qed.
Lemma visible_split acts h1 e h2 : visible acts = h1 ++ e :: h2 ->
  exists a1 a2, acts = a1 ++ Ev e :: a2 /\ visible a1 = h1 /\ visible a2 = h2.
Proof.
  revert h1. induction acts as [|[e'|i] acts IH]; intros h1 H.
  - by destruct h1.
  - change (visible (Ev e' :: acts)) with (e' :: visible acts) in H. destruct h1 as [|x h1].
    + injection H as -> H. by exists [], acts.
    + injection H as -> H. destruct (IH h1 H) as (a1 & a2 & -> & <- & <-). by exists (Ev x :: a1), a2.
  - destruct (IH h1 H) as (a1 & a2 & -> & <- & <-). by exists (TakeEffect i :: a1), a2.
Qed.
Lemma last_of_snoc i h e : last_of i (h ++ [e]) = if decide (event_of e = i) then Some e else last_of i h.
Proof.
  unfold last_of. rewrite filter_app, filter_cons, filter_nil. destruct (decide (event_of e = i)).
  - apply last_snoc.
  - by rewrite app_nil_r.
Qed.
Lemma map_step_mono mu o a mu' k : map_step mu o = (a, mu') -> is_Some (mu !! k) -> is_Some (mu' !! k).
Proof.
  destruct o; intros [= <- <-]; try done. intros H. destruct (decide (k0 = k)) as [->|].
  - rewrite lookup_insert. by eexists.
  - by rewrite lookup_insert_ne.
Qed.

(** one step of the specification; prefixes *)
Lemma am_snoc n acts a mu st : atomic_map n (acts ++ [a]) mu st -> exists mu0 st0, atomic_map n acts mu0 st0 /\
  match a with
  | Ev (ECall i o) => mu = mu0 /\ st0 !! i = Some Idle /\ st = <[i := Pending o]> st0
  | Ev (ERet i r) => mu = mu0 /\ st0 !! i = Some (Done r) /\ st = <[i := Idle]> st0
  | TakeEffect i => exists o r, st0 !! i = Some (Pending o) /\ map_step mu0 o = (r, mu) /\ st = <[i := Done r]> st0
  end.
Proof.
  intros H. remember (acts ++ [a]) as x eqn:E. destruct H as [|acts' mu st i o H Hs|acts' mu st i o r mu' H Hs Hm|acts' mu st i r H Hs].
  - by destruct acts.
  - apply app_inj_tail in E as [-> <-]. by exists mu, st.
  - apply app_inj_tail in E as [-> <-]. exists mu, st. split; [done|]. by exists o, r.
  - apply app_inj_tail in E as [-> <-]. by exists mu, st.
Qed.
Lemma am_prefix n a1 a2 mu st : atomic_map n (a1 ++ a2) mu st -> exists mu1 st1, atomic_map n a1 mu1 st1 /\
  forall k, is_Some (mu1 !! k) -> is_Some (mu !! k).
Proof.
  revert mu st. induction a2 as [|a a2 IH] using rev_ind; intros mu st H.
  - rewrite app_nil_r in H. by exists mu, st.
  - rewrite app_assoc in H. apply am_snoc in H as (mu0 & st0 & H & Hs). destruct (IH _ _ H) as (mu1 & st1 & H1 & Hm).
    exists mu1, st1. split; [done|]. intros k Hk. apply Hm in Hk. destruct a as [[i o|i r]|i].
    + by destruct Hs as [-> _].
    + by destruct Hs as [-> _].
    + destruct Hs as (o & r & _ & Hst & _). by eapply map_step_mono.
Qed.

(** the last thing a thread inside a call did was to make that call; an insert that has
    taken effect is in the map *)
Definition matches (mu : gmap bytes N) (i : nat) (h : list event) (s : status) : Prop :=
  match s with
  | Idle => True
  | Pending o => last_of i h = Some (ECall i o)
  | Done r => exists o, last_of i h = Some (ECall i o) /\ match o with Insert k _ => is_Some (mu !! k) | _ => True end
  end.
Lemma am_matches n acts mu st : atomic_map n acts mu st -> forall i s, st !! i = Some s -> matches mu i (visible acts) s.
Proof.
  induction 1 as [|acts mu st i o H IH Hs|acts mu st i o r mu' H IH Hs Hm|acts mu st i r H IH Hs]; intros j s Hj.
  - apply lookup_replicate in Hj as [-> _]. done.
  - rewrite vis_app. change (visible [Ev (ECall i o)]) with [ECall i o]. pose proof (lookup_lt_Some _ _ _ Hs) as Hi.
    destruct (decide (i = j)) as [<-|Hne].
    + rewrite list_lookup_insert in Hj by done. injection Hj as <-. cbn. rewrite last_of_snoc. by rewrite decide_True.
    + rewrite list_lookup_insert_ne in Hj by done. specialize (IH j s Hj). unfold matches in *.
      rewrite last_of_snoc. cbn [event_of]. by rewrite decide_False.
  - rewrite vis_app. change (visible [TakeEffect i]) with (@nil event). rewrite app_nil_r.
    pose proof (lookup_lt_Some _ _ _ Hs) as Hi. destruct (decide (i = j)) as [<-|Hne].
    + rewrite list_lookup_insert in Hj by done. injection Hj as <-. specialize (IH i _ Hs). exists o. split; [done|].
      destruct o; try done. injection Hm as <- <-. rewrite lookup_insert. by eexists.
    + rewrite list_lookup_insert_ne in Hj by done. specialize (IH j s Hj). destruct s as [| |r']; try done.
      destruct IH as (o' & Hl & Ho). exists o'. split; [done|]. destruct o'; try done. by eapply map_step_mono.
  - rewrite vis_app. change (visible [Ev (ERet i r)]) with [ERet i r]. pose proof (lookup_lt_Some _ _ _ Hs) as Hi.
    destruct (decide (i = j)) as [<-|Hne].
    + rewrite list_lookup_insert in Hj by done. injection Hj as <-. done.
    + rewrite list_lookup_insert_ne in Hj by done. specialize (IH j s Hj). unfold matches in *.
      rewrite last_of_snoc. cbn [event_of]. by rewrite decide_False.
Qed.

(** a lookup made when the key is present *)
Lemma am_get n a1 j k a3 mu1 st1 mu st : atomic_map n a1 mu1 st1 -> is_Some (mu1 !! k) ->
  atomic_map n ((a1 ++ [Ev (ECall j (Get k))]) ++ a3) mu st -> Forall (fun e => event_of e <> j) (visible a3) ->
  (forall mu1' st1', atomic_map n a1 mu1' st1' -> is_Some (mu1' !! k)) ->
  is_Some (mu !! k) /\ (st !! j = Some (Pending (Get k)) \/ exists v, st !! j = Some (Done (AGet (Some v)))).
Proof.
  intros H1 Hk H Hno Hall. revert mu st H Hno. induction a3 as [|a a3 IH] using rev_ind; intros mu st H Hno.
  - rewrite app_nil_r in H. apply am_snoc in H as (mu0 & st0 & H & -> & Hs & ->). split; [by eapply Hall|]. left.
    apply list_lookup_insert. by eapply lookup_lt_Some.
  - rewrite app_assoc in H. apply am_snoc in H as (mu0 & st0 & H & Hs).
    rewrite vis_app in Hno. apply Forall_app in Hno as [Hno Hlast].
    destruct (IH mu0 st0 H Hno) as [Hk0 Hj]. destruct a as [[i o|i r]|i].
    + destruct Hs as (-> & Hi & ->). split; [done|]. apply Forall_cons in Hlast as [Hne _]. cbn in Hne.
      by rewrite list_lookup_insert_ne.
    + destruct Hs as (-> & Hi & ->). split; [done|]. apply Forall_cons in Hlast as [Hne _]. cbn in Hne.
      by rewrite list_lookup_insert_ne.
    + destruct Hs as (o & r & Hi & Hm & ->). split; [by eapply map_step_mono|].
      destruct (decide (i = j)) as [->|Hne]; [|by rewrite list_lookup_insert_ne].
      destruct Hj as [Hj|[v Hj]]; [|congruence]. assert (o = Get k) as -> by congruence. injection Hm as <- <-.
      destruct Hk0 as [v Hv]. right. exists v. rewrite <- Hv. apply list_lookup_insert. by eapply lookup_lt_Some.
Qed.

Lemma no_miss n h mu h1 i k v a h2 j h3 r h4 : linearizable_to n h mu ->
  h = h1 ++ ERet i a :: h2 ++ ECall j (Get k) :: h3 ++ ERet j (AGet r) :: h4 ->
  last_of i h1 = Some (ECall i (Insert k v)) -> Forall (fun e => event_of e <> j) h3 -> is_Some r.
Proof.
  intros (acts & st & Ha & Hv) -> Hl Hno.
  apply visible_split in Hv as (a1 & r1 & -> & <- & Hv).
  apply visible_split in Hv as (a2 & r2 & -> & <- & Hv).
  apply visible_split in Hv as (a3 & r3 & -> & <- & Hv).
  assert (Hall : forall mu1 st1, atomic_map n (a1 ++ Ev (ERet i a) :: a2) mu1 st1 -> is_Some (mu1 !! k)).
  { intros mu1 st1 H. rewrite (app_assoc a1 [Ev (ERet i a)] a2 : a1 ++ Ev (ERet i a) :: a2 = _) in H.
    apply am_prefix in H as (mu0 & st0 & H & Hm). apply Hm.
    apply am_snoc in H as (mu2 & st2 & H & -> & Hi & ->). pose proof (am_matches _ _ _ _ H i _ Hi) as (o & Ho & Hin).
    rewrite Hl in Ho. by injection Ho as <-. }
  assert (E : a1 ++ Ev (ERet i a) :: a2 ++ Ev (ECall j (Get k)) :: a3 ++ Ev (ERet j (AGet r)) :: r3 =
    ((((a1 ++ Ev (ERet i a) :: a2) ++ [Ev (ECall j (Get k))]) ++ a3) ++ [Ev (ERet j (AGet r))]) ++ r3).
  { by rewrite <- !app_assoc. }
  rewrite E in Ha. apply am_prefix in Ha as (mu1 & st1 & Ha & _). apply am_snoc in Ha as (mu2 & st2 & Ha & -> & Hj & ->).
  pose proof Ha as Ha'. apply am_prefix in Ha' as (mu3 & st3 & Ha' & _). apply am_snoc in Ha' as (mu4 & st4 & Ha' & _).
  destruct (am_get n _ j k a3 mu4 st4 mu2 st2 Ha' (Hall _ _ Ha') Ha Hno Hall) as (_ & [Hp|[v' Hd]]).
  - congruence.
  - assert (r = Some v') as -> by congruence. by eexists.
Qed.
