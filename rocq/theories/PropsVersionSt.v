(** Properties C65, C66, and C20 for the check without a fence. *)
From Verif Require Import Base Prog Version VersionTry SpecVersion VersionFacts VersionLaws VersionSt SpecVersionSt VersionStFacts.

(** C65.  The version word without synchronisation gives, for every sequence of calls from its
    creation on, the answers of the shared version word used by one thread, and ends as the very
    same word.  (Run alone, the shared one never waits: any [S F] attempts suffice.) *)
Theorem C65_single_threaded_version_agrees : forall F is_leaf script,
  run (run_sops (S F) script) (mk_vmem (v_new is_leaf) 0) =
    Ok ((st_sops script (st_new is_leaf)).1, mk_vmem (st_sops script (st_new is_leaf)).2 0).
Proof. exact st_refines. Qed.
Print Assumptions C65_single_threaded_version_agrees.

(** a section without marks, one with each mark, and the questions between them *)
Example C65_example :
  st_sops [SStable; SLock []; SHasChanged ISLEAF_BIT; SHasSplit ISLEAF_BIT; SMarkRoot; SIsRoot; SLock [GInsert; GSplit]; SIsRoot; SHasSplit ISLEAF_BIT;
           SLock [GDeleted; GNonroot]; SIsDeleted; SStable] (st_new true) =
  ([AnsWord 2147483648; AnsUnit; AnsBool true; AnsBool false; AnsUnit; AnsBool true; AnsUnit; AnsBool false; AnsBool true;
    AnsUnit; AnsBool true; AnsWord 2684355584], 2684355584)%N.
Proof. vm_compute. reflexivity. Qed.

(** C66.  A split sibling is created locked: until its creator unlocks it ([releases]: sections
    completed), every moment of every execution shows it as locked by a split, so
    [is_split_locked] answers true to whoever asks, and its creator (thread 0) as the one that
    holds the lock. *)
Theorem C66_split_sibling_locked_until_unlocked : forall F src s0 scripts sched,
  releases sched (start_split F src s0 scripts) = 0%N ->
  v_is_split_locked (word (exec sched (start_split F src s0 scripts)).1) = true /\
  holder (initial_holder (start_split F src s0 scripts)) sched (start_split F src s0 scripts) = Some 0.
Proof. exact split_sibling. Qed.
Print Assumptions C66_split_sibling_locked_until_unlocked.
(** others try to lock it and mark it as the root meanwhile; afterwards it is free *)
Example C66_example :
  let c := start_split 9 (v_locked (v_new true)) [VStable] [[VTryLock [GSplit]; VMarkRoot]; [VLock [GInsert]]] in
  releases [1; 2; 2; 0; 1; 0; 2; 0] c = 0%N /\ v_is_root (word (exec [1; 2; 2; 0; 1; 0; 2; 0] c).1) = true /\
  releases [1; 2; 2; 0; 1; 0; 2; 0; 0] c = 1%N /\ v_is_split_locked (word (exec [1; 2; 2; 0; 1; 0; 2; 0; 0] c).1) = false.
Proof. vm_compute. repeat split; reflexivity. Qed.

(** C20 for [simple_has_split], asked by any thread at any moment: if it answers no, no split has
    been completed since the old version was read *)
Theorem C20_simple_has_split : forall c s1 s2, initial c ->
  (releases s2 (exec s1 c) < 2 ^ 19)%N ->
  run (ver_simple_has_split vrd (word (exec s1 c).1)) (exec s2 (exec s1 c)).1 = Ok (false, (exec s2 (exec s1 c)).1) ->
  split_releases s2 (exec s1 c) = 0%N.
Proof. exact simple_split. Qed.
Print Assumptions C20_simple_has_split.
Example C20_simple_example :
  let c := start_unlocked 9 (v_new true) [[VLock [GInsert]]; [VLock [GSplit]]] in
  initial c /\ run (ver_simple_has_split vrd (word c.1)) (exec [0; 0; 0; 0; 0] c).1 = Ok (false, (exec [0; 0; 0; 0; 0] c).1) /\
  run (ver_simple_has_split vrd (word c.1)) (exec [1; 1; 1; 1; 1; 1; 1] c).1 = Ok (true, (exec [1; 1; 1; 1; 1; 1; 1] c).1).
Proof. split; [constructor; repeat split; reflexivity|]. vm_compute. split; reflexivity. Qed.
