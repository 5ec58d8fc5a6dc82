(** Threads that share the permutation of one leaf: readers, publishers by compare-and-swap,
    and splits that freeze it (SpecFreeze.v). *)
From Verif Require Import Base Perm SpecPerm PermFacts PermLaws Prog Version Mem Tree Freeze SpecFreeze FreezeFacts.

(** ** C57: in every execution the leaf's permutation behaves as one object that is either
    open or frozen (word_step): while it is frozen every compare-and-swap is refused as frozen
    and readers are told so; a freeze hands over the permutation of that moment and succeeds
    once at a time; finishing publishes exactly the permutation given; abandoning - what a panic
    does - puts back exactly the one from before.  The word in memory always shows that object,
    and no call panics or finds the leaf gone (only the model's bound [F] can cut a call short). *)
Theorem C57_freeze_protocol F p m w scripts sched c h :
  free_leaf m p w -> is_permutation P24 w -> Forall (Forall fop_ok) scripts ->
  f_run F p sched (f_start m scripts) = (c, h) ->
  (exists s, f_atomically (w, false) (length scripts) h s /\
     word_at c.1 p = Some (if s.2 then freeze_raw s.1 else s.1)) /\
  (forall i e, f_failed c i e -> e = Fuel).
Proof. exact (freeze_protocol p F m w scripts sched c h). Qed.
Print Assumptions C57_freeze_protocol.

(** The asserting variant of the compare-and-swap (cas_permutation) makes one access to the leaf,
    so it takes effect at that moment whatever other threads do.  On a frozen word [freeze_raw w]
    it panics and changes nothing; otherwise it exchanges exactly when it finds the permutation
    expected, and if not hands over the one it found. *)
Theorem C57_asserting_exchange m p l w (frozen : bool) e n :
  heap m !! p = Some (NLeaf l) -> is_permutation P24 w -> is_permutation P24 e ->
  l_perm l = (if frozen then freeze_raw w else w) ->
  match cas_permutation_strict p e n with Step f k => forall x, match k x with Step _ _ => False | _ => True end | _ => False end /\
  run (cas_permutation_strict p e n) m =
    if frozen then Er Panic
    else if decide (w = e) then Ok (None, mwith_heap (<[p := NLeaf (with_perm n l)]> (heap m)) m)
    else Ok (Some w, m).
Proof. exact (strict_exchange m p l w frozen e n). Qed.
Print Assumptions C57_asserting_exchange.

(** ** An execution that meets the hypotheses: four threads on the leaf of a new tree *)
Definition perm0 : N := perm_empty.
Definition perm1 : N := (perm_insert_from_back perm0 0).1.
Definition perm2 : N := (perm_insert_from_back perm1 1).1.
Definition frz_scripts : list (list fop) :=
  [[FFreeze; FAbandon; FTryFreeze; FFinish perm2]; [FCas perm0 perm1; FCas perm1 perm2; FRead]; [FCas perm0 perm2; FRead; FWait]; [FFreeze; FFinish perm0; FWait]].
Definition frz_sched : list nat :=
  [1; 1; 1] ++ repeat 0 10 ++ concat (repeat [1; 2] 3) ++ repeat 3 4 ++ repeat 2 10 ++ [0; 0; 0; 0] ++ repeat 2 40 ++ repeat 3 12 ++ repeat 1 5 ++ repeat 0 30 ++ repeat 3 5 ++ repeat 0 40 ++ repeat 1 20 ++ repeat 3 20.
#[local] Instance fop_dec : EqDecision fop. Proof. solve_decision. Defined.
#[local] Instance fans_dec : EqDecision fans. Proof. solve_decision. Defined.
#[local] Instance fevent_dec : EqDecision fevent. Proof. solve_decision. Defined.
Definition frz_run : fsys * list fevent := f_run 40 2 frz_sched (f_start tree_new frz_scripts).
Definition frz_events : list fevent :=
  [FCall 1 (FCas perm0 perm1); FRet 1 APublished; FCall 0 FFreeze; FRet 0 (ASnapshot perm1);
   FCall 1 (FCas perm1 perm2); FCall 2 (FCas perm0 perm2); FRet 1 AFrozen; FRet 2 AFrozen; FCall 3 FFreeze;
   FCall 2 FRead; FRet 2 (APerm None); FCall 2 FWait; FCall 0 FAbandon; FRet 0 AUnit; FRet 2 (APerm (Some perm1));
   FRet 3 (ASnapshot perm1); FCall 3 (FFinish perm0); FCall 1 FRead; FRet 1 (APerm (Some perm0));
   FCall 0 FTryFreeze; FRet 0 (ASnapshot perm0); FCall 0 (FFinish perm2); FRet 0 AUnit; FRet 3 AUnit;
   FCall 3 FWait; FRet 3 (APerm (Some perm2))].
Example freeze_satisfiable : free_leaf tree_new 2 perm0 /\ is_permutation P24 perm0 /\ Forall (Forall fop_ok) frz_scripts /\
  frz_run.2 = frz_events /\ word_at frz_run.1.1 2 = Some perm2.
Proof.
  assert (H0 : perm_word P24 perm0) by exact (proj1 (empty_law_holds P24 P24_ok)).
  assert (H1 : perm_word P24 perm1).
  { pose proof (insert_law_holds P24 P24_ok perm0 0 H0) as H. destruct H as [H _]; [vm_compute; lia..|]. exact H. }
  assert (H2 : perm_word P24 perm2).
  { pose proof (insert_law_holds P24 P24_ok perm1 1 H1) as H. destruct H as [H _]; [vm_compute; lia..|]. exact H. }
  split; [|split; [exact (proj2 H0)|split; [|split]]].
  - exists leaf_new_root. repeat split; vm_compute; reflexivity.
  - destruct H0 as [_ H0], H1 as [_ H1], H2 as [_ H2]. unfold frz_scripts. rewrite !Forall_cons, !Forall_nil. cbn [fop_ok]. tauto.
  - apply (bool_decide_unpack (frz_run.2 = frz_events)). vm_cast_no_check I.
  - apply (bool_decide_unpack (word_at frz_run.1.1 2 = Some perm2)). vm_cast_no_check I.
Qed.
(** published; refused with the word found; on a frozen leaf a panic *)
Example asserting_exchange_example :
  (match run (cas_permutation_strict 2 perm0 perm1) tree_new with Ok (None, m) => word_at m 2 = Some perm1 | _ => False end) /\
  (match run (cas_permutation_strict 2 perm1 perm2) tree_new with Ok (Some w, m) => w = perm0 /\ word_at m 2 = Some perm0 | _ => False end) /\
  (match run (set_permutation 2 (freeze_raw perm0) ;;; cas_permutation_strict 2 perm0 perm1) tree_new with Er e => e = Panic | _ => False end).
Proof. split; [|split]; vm_compute; [reflexivity|split; reflexivity|reflexivity]. Qed.
