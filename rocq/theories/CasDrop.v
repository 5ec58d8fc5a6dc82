(** Histories with collections whose insertions try the lock-free way first. *)
From Verif Require Import Base Perm PermFacts PermList SpecPerm PermLaws Key SpecKey KeyFacts Suffix Prog Version Mem Tree SpecTree SpecHist TreeState TreePrim TreeInv TreeRead TreeLeaf TreeContent TreeLoop TreeTop TreeLaws TreeDrop CasInsert CasFacts.

Lemma events_fast_ok (K : bytes -> N -> Prop) F evs : 300 <= F -> forall B m mu c, Forall op_ok (calls evs) -> Forall (K_ok K) (calls evs) ->
  (B + costs (calls evs) < U32_MAX)%N -> Rel false K B m mu c ->
  exists l m', run_events insert_fast F evs m = Ok (l, m') /\
    Rel false K (B + costs (calls evs)) m' (snd (map_run mu (calls evs))) (fold_left bump l c) /\
    (split_fine false K -> l = fst (map_run mu (calls evs))).
Proof.
  intros HF. induction evs as [|[o|keep] evs IH]; intros B m mu c Hok HK HB HR.
  - exists [], m. cbn. rewrite N.add_0_r. done.
  - change (calls (Call o :: evs)) with (o :: calls evs) in *. inversion Hok; subst. inversion HK; subst. cbn [costs foldr] in HB. fold (costs (calls evs)) in HB.
    destruct (wp_run _ _ _ (call_fast_ok K B F o m mu c HF ltac:(done) ltac:(done) ltac:(lia) HR)) as (a & m1 & E1 & R1 & W1 & X1).
    destruct (map_step mu o) as [a' mu1] eqn:Es. cbn [fst snd] in R1, X1.
    destruct (IH (B + cost o)%N m1 mu1 (bump c a)) as (l & m2 & E2 & R2 & X2); [done|done|lia|done|].
    exists (a :: l), m2. cbn [run_events]. rewrite E1. cbn [res_bind]. rewrite E2. cbn [res_bind]. split; [done|].
    cbn [map_run]. rewrite Es. destruct (map_run mu1 (calls evs)) as [l' mu2] eqn:Er. cbn [fst snd fold_left] in *.
    split; [cbn [costs foldr]; fold (costs (calls evs)); by rewrite N.add_assoc|]. intros Hs. by rewrite (X1 Hs), (X2 Hs).
  - change (calls (Collect keep :: evs)) with (calls evs) in *. destruct (rel_reclaim false K B m mu c keep HR) as (m1 & E1 & R1).
    destruct (IH B m1 mu c Hok HK HB R1) as (l & m2 & E2 & R2). exists l, m2. cbn [run_events]. rewrite E1. cbn [res_bind]. done.
Qed.
Lemma fast_freed_once F evs : 300 <= F -> history_ok (calls evs) -> exists l m m',
  run_events insert_fast F evs tree_new = Ok (l, m) /\ (unambiguous (calls evs) -> l = (map_run ∅ (calls evs)).1) /\
  drop_tree m = Ok m' /\ vals m' = ∅ /\ bags m' = ∅ /\ heap m' = ∅ /\ retired m' = [].
Proof.
  intros HF [Hok HB]. rewrite key_bytes_costs in HB. destruct (events_fast_ok (Kof (calls evs)) F evs HF 6144 tree_new ∅ 0) as (l & m & E & (_ & s & _ & HS & _ & _ & H1 & H2 & _) & X).
  - done.
  - apply Kof_ok.
  - unfold U32_MAX. lia.
  - apply rel_new.
  - destruct (drop_ok m s HS H1 H2) as (m' & E' & R1 & R2 & R3 & R4 & _). exists l, m, m'.
    split; [done|]. split; [|done]. intros Hs. by apply X, split_fine_of.
Qed.
