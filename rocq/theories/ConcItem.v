(** From a record of what calls saw and changed to an atomic execution: the instant at which
    a lookup takes effect is one at which it saw what it then answered. *)
From Verif Require Import Base Prog Mem Tree SpecTree SpecLin SpecConc SpecAtomic.

(** the calls and answers; thread [i] put [x] under [k], as a new entry or over a value;
    thread [i], in the call [o], saw the entry [(k, x)] *)
Inductive item := IEv (e : event) | IPut (i : nat) (k : bytes) (x : N) (r : option N) | ISaw (i : nat) (o : op) (k : bytes) (x : N).
Definition item_of (y : item) : nat := match y with IEv e => event_of e | IPut i _ _ _ | ISaw i _ _ _ => i end.
Definition events (X : list item) : list event := omap (fun y => match y with IEv e => Some e | _ => None end) X.
Definition puts (X : list item) : list N := omap (fun y => match y with IPut _ _ x _ => Some x | _ => None end) X.
Lemma events_app X Y : events (X ++ Y) = events X ++ events Y. Proof. apply omap_app. Qed.
Lemma puts_app X Y : puts (X ++ Y) = puts X ++ puts Y. Proof. apply omap_app. Qed.

(** what happens to the entries *)
Definition istep (s : entries) (y : item) (s' : entries) : Prop :=
  match y with
  | IEv _ => s' = s
  | IPut _ k x None => s' = {[(k, x)]} ∪ s
  | IPut _ k x (Some z) => (k, z) ∈ s /\ s' = {[(k, x)]} ∪ (s ∖ {[(k, z)]})
  | ISaw _ _ k x => (k, x) ∈ s /\ s' = s
  end.
Fixpoint plays (s : entries) (X : list item) (s' : entries) : Prop :=
  match X with [] => s' = s | y :: X => exists s1, istep s y s1 /\ plays s1 X s' end.
Lemma plays_snoc s X y s1 s' : plays s X s1 -> istep s1 y s' -> plays s (X ++ [y]) s'.
Proof.
  revert s. induction X as [|z X IH]; intros s; cbn.
  - intros -> H. by exists s'.
  - intros (s2 & H1 & H2) H3. exists s2. split; [done|]. by apply IH.
Qed.

(** where a thread is: outside; in the call [o], having seen [l]; about to answer [a] *)
Inductive place := Out | Busy (o : op) (l : list (bytes * N)) | Put (a : ans).
Definition look_ans (o : op) (l : list (bytes * N)) (a : ans) : Prop :=
  match o, a with
  | Get k, AGet (Some x) | GetRef k, AGet (Some x) => (k, x) ∈ l
  | Get _, AGet None | GetRef _, AGet None | Len, ALen _ => True
  | _, _ => False
  end.
Definition pstep (q : place) (y : item) (q' : place) : Prop :=
  match y with
  | IEv (ECall _ o) => q = Out /\ q' = Busy o []
  | IEv (ERet _ a) => q' = Out /\ (q = Put a \/ exists o l, q = Busy o l /\ look_ans o l a)
  | ISaw _ o k x => exists l, q = Busy o l /\ q' = Busy o ((k, x) :: l)
  | IPut _ k x r => exists l, q = Busy (Insert k x) l /\ q' = Put (AIns r)
  end.
Fixpoint follows (i : nat) (q : place) (X : list item) (q' : place) : Prop :=
  match X with
  | [] => q' = q
  | y :: X => if decide (item_of y = i) then exists q1, pstep q y q1 /\ follows i q1 X q' else follows i q X q'
  end.
Lemma follows_snoc i X y : forall q q1, follows i q X q1 ->
  forall q', (if decide (item_of y = i) then pstep q1 y q' else q' = q1) -> follows i q (X ++ [y]) q'.
Proof.
  induction X as [|z X IH]; intros q q1; cbn.
  - intros -> q' H. case_decide; [by exists q'|done].
  - destruct (decide (item_of z = i)).
    + intros (q2 & H1 & H2) q' H3. exists q2. split; [done|]. by eapply IH.
    + intros H2 q' H3. by eapply IH.
Qed.

(** ** the same with one effect for each call *)
Inductive xact := XEv (e : event) | XEff (i : nat) (o : op) (a : ans).
Definition xact_of (y : xact) : nat := match y with XEv e => event_of e | XEff i _ _ => i end.
Definition xevents (Y : list xact) : list event := omap (fun y => match y with XEv e => Some e | _ => None end) Y.
Definition xnews (Y : list xact) : list (bytes * N) := omap (fun y => match y with XEff _ (Insert k x) (AIns None) => Some (k, x) | _ => None end) Y.
Definition xputs (Y : list xact) : list N := omap (fun y => match y with XEff _ (Insert _ x) _ => Some x | _ => None end) Y.
Section Steps.
Context {S : Type} (step : S -> op -> ans -> S -> Prop).
Definition xstep (s : S) (y : xact) (s' : S) : Prop := match y with XEv _ => s' = s | XEff _ o a => step s o a s' end.
Fixpoint runs (s : S) (Y : list xact) (s' : S) : Prop :=
  match Y with [] => s' = s | y :: Y => exists s1, xstep s y s1 /\ runs s1 Y s' end.
Lemma runs_snoc Y y : forall s s', runs s (Y ++ [y]) s' -> exists s1, runs s Y s1 /\ xstep s1 y s'.
Proof.
  induction Y as [|z Y IH]; intros s s'; cbn.
  - intros (s1 & H1 & ->). by exists s.
  - intros (s1 & H1 & (s2 & H2 & H3)%IH). exists s2. split; [|done]. by exists s1.
Qed.
End Steps.
Definition tstep (q : status) (y : xact) (q' : status) : Prop :=
  match y with
  | XEv (ECall _ o) => q = Idle /\ q' = Pending o
  | XEv (ERet _ a) => q = Done a /\ q' = Idle
  | XEff _ o a => q = Pending o /\ q' = Done a
  end.
Fixpoint walks (i : nat) (q : status) (Y : list xact) (q' : status) : Prop :=
  match Y with
  | [] => q' = q
  | y :: Y => if decide (xact_of y = i) then exists q1, tstep q y q1 /\ walks i q1 Y q' else walks i q Y q'
  end.
Lemma walks_app i Y Y' : forall q q', walks i q (Y ++ Y') q' -> exists q1, walks i q Y q1 /\ walks i q1 Y' q'.
Proof.
  induction Y as [|z Y IH]; intros q q'; cbn; [by exists q|]. case_decide.
  - intros (q1 & H1 & (q2 & H2 & H3)%IH). exists q2. split; [|done]. by exists q1.
  - intros (q2 & H2 & H3)%IH. by exists q2.
Qed.
Definition erase (Y : list xact) : list action := map (fun y => match y with XEv e => Ev e | XEff i _ _ => TakeEffect i end) Y.
Lemma erase_visible Y : visible (erase Y) = xevents Y.
Proof. induction Y as [|[e|i o a] Y IH]; cbn; [done|by f_equal|done]. Qed.

(** such a record is an atomic execution *)
Lemma atomic_of {S} (step : S -> op -> ans -> S -> Prop) s0 n Y : forall s st, runs step s0 Y s -> length st = n ->
  (forall i q, st !! i = Some q -> walks i Idle Y q) -> Forall (fun y => xact_of y < n) Y -> atomic step s0 n (erase Y) s st.
Proof.
  induction Y as [|y Y IH] using rev_ind; intros s st Hr Hl Hw Hn.
  - cbn in Hr. subst s. replace st with (replicate n Idle); [constructor|]. apply replicate_as_Forall. split; [done|].
    apply Forall_lookup. intros i q Hi. by apply Hw in Hi.
  - apply Forall_app in Hn as [Hn Hy]. rewrite Forall_singleton in Hy. destruct (runs_snoc _ _ _ _ _ Hr) as (s1 & Hr1 & Hx).
    destruct (lookup_lt_is_Some_2 st (xact_of y)) as [q Hq]; [lia|].
    assert (exists q0, walks (xact_of y) Idle Y q0 /\ tstep q0 y q) as (q0 & Hq0 & Ht).
    { destruct (walks_app _ _ _ _ _ (Hw _ _ Hq)) as (q0 & H1 & H2). exists q0. split; [done|]. cbn in H2. rewrite decide_True in H2 by done.
      by destruct H2 as (q1 & H2 & ->). }
    assert (atomic step s0 n (erase Y) s1 (<[xact_of y := q0]> st)) as Ha.
    { apply IH; [done|by rewrite insert_length| |done]. intros j qj Hj. apply list_lookup_insert_Some in Hj as [(<- & <- & _)|[Hne Hj]]; [done|].
      destruct (walks_app _ _ _ _ _ (Hw _ _ Hj)) as (q1 & H1 & H2). cbn in H2. rewrite decide_False in H2 by done. by subst. }
    assert (<[xact_of y := q0]> st !! xact_of y = Some q0) as Hq1 by (apply list_lookup_insert; lia).
    assert (st = <[xact_of y := q]> (<[xact_of y := q0]> st)) as -> by (by rewrite list_insert_insert, list_insert_id).
    unfold erase. rewrite map_app. cbn [map]. destruct y as [[i o|i a]|i o a]; cbn in *; destruct Ht as [-> ->]; subst.
    + by apply at_call.
    + by apply at_return.
    + by eapply at_effect.
Qed.

(** ** choosing the effects of lookups *)
Definition agrees (q : place) (st : status) : Prop :=
  match q, st with Out, Idle => True | Busy o _, Pending o' => o' = o | Put a, Done a' => a' = a | _, _ => False end.
Definition lkey (o : op) : option bytes := match o with Get k | GetRef k => Some k | _ => None end.
Definition fits (i : nat) (Y : list xact) (want : option ans) (q q' : place) : Prop :=
  exists st st', walks i st Y st' /\ agrees q' st' /\
    match q with
    | Out => st = Idle
    | Put a => st = Done a
    | Busy o l => (want = None /\ st = Pending o) \/ exists a, want = Some a /\ look_ans o l a /\ st = Done a
    end.
Lemma follows_here i y q X q' : item_of y = i -> follows i q (y :: X) q' -> exists q1, pstep q y q1 /\ follows i q1 X q'.
Proof. cbn. intros E. by rewrite decide_True. Qed.
Lemma walks_here i y st Y st1 st' : xact_of y = i -> tstep st y st1 -> walks i st1 Y st' -> walks i st (y :: Y) st'.
Proof. cbn. intros E H1 H2. rewrite decide_True by done. by exists st1. Qed.
Lemma walks_there i y st Y st' : xact_of y <> i -> walks i st Y st' -> walks i st (y :: Y) st'.
Proof. cbn. intros E H2. by rewrite decide_False. Qed.
Lemma fits_there i Y Y' w q q' : (forall st st', walks i st Y st' -> walks i st Y' st') -> fits i Y w q q' -> fits i Y' w q q'.
Proof. intros H (st & st' & H1 & H2). exists st, st'. split; [by apply H|done]. Qed.
Record made (X : list item) (Y : list xact) (want : nat -> option ans) : Prop := {
  md_events : xevents Y = events X;
  md_puts : xputs Y = puts X;
  md_dom : forall n, Forall (fun y => item_of y < n) X -> Forall (fun y => xact_of y < n) Y;
  md_runs : forall s s', plays s X s' -> runs entries_step s Y s';
  md_fits : forall i q q', follows i q X q' -> fits i Y (want i) q q' }.
Lemma look_none o l : lkey o <> None -> look_ans o l (AGet None). Proof. by destruct o. Qed.
Lemma make X : exists Y want, made X Y want.
Proof.
  induction X as [|y X (Y & want & [H1 H2 H3 H4 H5])].
  { exists [], (fun _ => None). split; try done. intros i q q' H. cbn in H. subst q'. destruct q as [|o l|a].
    - by exists Idle, Idle.
    - exists (Pending o), (Pending o). split; [done|]. split; [done|]. by left.
    - by exists (Done a), (Done a). }
  destruct y as [[i o|i a]|i k x r|i o k x].
  - (* a call *)
    assert ((exists a, want i = Some a /\ look_ans o [] a) \/ ~ exists a, want i = Some a /\ look_ans o [] a) as [(a & Ea & Hla)|Hno].
    { destruct (want i) as [a|]; [|right; by intros (a & ? & _)].
      destruct o as [k v|k|k| |], a as [| |[x|]| |]; cbn; try (right; by intros (a' & [= <-] & ?)); try (left; by eexists);
        right; intros (a' & [= <-] & H); by apply elem_of_nil in H. }
    + assert (lkey o <> None /\ a = AGet None \/ o = Len /\ exists n, a = ALen n) as Hka.
      { destruct o as [k v|k|k| |], a as [| |[x|]| |]; cbn in *; try done; try (by apply elem_of_nil in Hla); try (by left).
        right. split; [done|]. by eexists. }
      exists (XEv (ECall i o) :: XEff i o a :: Y), want. split.
      * cbn. by f_equal.
      * destruct Hka as [[Hk ->]|[-> _]]; [destruct o; try done|]; exact H2.
      * intros n [Hn1 Hn2]%Forall_cons. constructor; [done|]. constructor; [done|]. by apply H3.
      * intros s s' (s1 & -> & Hp). exists s. split; [done|]. exists s. split; [|by apply H4]. cbn.
        destruct Hka as [[Hk ->]|[-> [n ->]]]; [destruct o; try done|]; constructor.
      * intros j q q' Hf. destruct (decide (i = j)) as [<-|Hne].
        -- apply follows_here in Hf as (q1 & [-> ->] & Hf); [|done]. destruct (H5 i _ _ Hf) as (st & st' & W & A & [[E _]|(a' & E & Hl' & ->)]); [congruence|].
           assert (a' = a) as -> by congruence. exists Idle, st'. split; [|done]. by eapply walks_here, walks_here.
        -- cbn in Hf. rewrite decide_False in Hf by done. eapply fits_there; [|by apply H5]. intros st st' W. by apply walks_there, walks_there.
    + exists (XEv (ECall i o) :: Y), want. split.
      * cbn. by f_equal.
      * done.
      * intros n [Hn1 Hn2]%Forall_cons. constructor; [done|]. by apply H3.
      * intros s s' (s1 & -> & Hp). exists s. split; [done|]. by apply H4.
      * intros j q q' Hf. destruct (decide (i = j)) as [<-|Hne].
        -- apply follows_here in Hf as (q1 & [-> ->] & Hf); [|done]. destruct (H5 i _ _ Hf) as (st & st' & W & A & [[_ ->]|(a' & E & Hl' & ->)]).
           ++ exists Idle, st'. split; [|done]. by eapply walks_here.
           ++ destruct Hno. by exists a'.
        -- cbn in Hf. rewrite decide_False in Hf by done. eapply fits_there; [|by apply H5]. intros st st' W. by apply walks_there.
  - (* an answer *)
    exists (XEv (ERet i a) :: Y), (fun j => if decide (j = i) then Some a else want j). split.
    * cbn. by f_equal.
    * done.
    * intros n [Hn1 Hn2]%Forall_cons. constructor; [done|]. by apply H3.
    * intros s s' (s1 & -> & Hp). exists s. split; [done|]. by apply H4.
    * intros j q q' Hf. destruct (decide (i = j)) as [<-|Hne].
      -- apply follows_here in Hf as (q1 & [-> Hq] & Hf); [|done]. destruct (H5 i _ _ Hf) as (st & st' & W & A & ->).
         exists (Done a), st'. split; [by eapply walks_here|]. split; [done|]. rewrite decide_True by done. destruct Hq as [->|(o & l & -> & Hl)]; [done|].
         right. by exists a.
      -- rewrite decide_False by done. cbn in Hf. rewrite decide_False in Hf by done. eapply fits_there; [|by apply H5]. intros st st' W. by apply walks_there.
  - (* a change *)
    exists (XEff i (Insert k x) (AIns r) :: Y), (fun j => if decide (j = i) then None else want j). split.
    * done.
    * cbn. by f_equal.
    * intros n [Hn1 Hn2]%Forall_cons. constructor; [done|]. by apply H3.
    * intros s s' (s1 & Hi & Hp). exists s1. split; [|by apply H4]. cbn in *. destruct r as [z|]; [destruct Hi as [Hz ->]|subst s1]; by constructor.
    * intros j q q' Hf. destruct (decide (i = j)) as [<-|Hne].
      -- apply follows_here in Hf as (q1 & (l & -> & ->) & Hf); [|done]. destruct (H5 i _ _ Hf) as (st & st' & W & A & ->).
         exists (Pending (Insert k x)), st'. split; [by eapply walks_here|]. split; [done|]. rewrite decide_True by done. by left.
      -- rewrite decide_False by done. cbn in Hf. rewrite decide_False in Hf by done. eapply fits_there; [|by apply H5]. intros st st' W. by apply walks_there.
  - (* something seen *)
    assert (Decision (want i = Some (AGet (Some x)))) as Dw.
    { destruct (want i) as [[| |[z|]| |]|]; try (right; congruence). destruct (decide (z = x)) as [->|]; [by left|right; congruence]. }
    destruct (decide (want i = Some (AGet (Some x)) /\ lkey o = Some k)) as [[Ew Ek]|Hno].
    + exists (XEff i o (AGet (Some x)) :: Y), (fun j => if decide (j = i) then None else want j). split.
      * done.
      * destruct o; try done; exact H2.
      * intros n [Hn1 Hn2]%Forall_cons. constructor; [done|]. by apply H3.
      * intros s s' (s1 & (Hi & ->) & Hp). exists s. split; [|by apply H4]. cbn. destruct o; try done; injection Ek as ->; by constructor.
      * intros j q q' Hf. destruct (decide (i = j)) as [<-|Hne].
        -- apply follows_here in Hf as (q1 & (l & -> & ->) & Hf); [|done]. destruct (H5 i _ _ Hf) as (st & st' & W & A & [[E _]|(a & E & Hl & ->)]); [congruence|].
           exists (Pending o), st'. rewrite E in Ew. injection Ew as ->. split; [by eapply walks_here|]. split; [done|]. rewrite decide_True by done. by left.
        -- rewrite decide_False by done. cbn in Hf. rewrite decide_False in Hf by done. eapply fits_there; [|by apply H5]. intros st st' W. by apply walks_there.
    + exists Y, want. split; try done.
      * intros n [Hn1 Hn2]%Forall_cons. by apply H3.
      * intros s s' (s1 & (Hi & ->) & Hp). by apply H4.
      * intros j q q' Hf. destruct (decide (i = j)) as [<-|Hne].
        -- apply follows_here in Hf as (q1 & (l & -> & ->) & Hf); [|done]. destruct (H5 i _ _ Hf) as (st & st' & W & A & [[E ->]|(a & E & Hl & ->)]).
           ++ exists (Pending o), st'. split; [done|]. split; [done|]. by left.
           ++ exists (Done a), st'. split; [done|]. split; [done|]. right. exists a. split; [done|]. split; [|done].
              destruct o as [k' v|k'|k'| |], a as [| |[x'|]| |]; cbn in *; try done; apply elem_of_cons in Hl as [[= -> ->]|Hl]; try done; by destruct Hno.
        -- cbn in Hf. rewrite decide_False in Hf by done. by apply H5.
Qed.
