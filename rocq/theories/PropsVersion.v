(** Properties C19, C20, C21. *)
From Verif Require Import Base Prog Version SpecVersion VersionLaws.

(** [initial]: any unlocked node with any client threads, or a fresh split sibling with
    its creator and any client threads; [sched]: any interleaving. *)
Theorem C19_mutual_exclusion : forall c sched, initial c ->
  inside (exec sched c).1 <= 1 /\
  (locked (exec sched c) = true <-> holder (initial_holder c) sched c <> None) /\
  (forall i, locked (exec sched c) = true -> locked (thread_step i (exec sched c)) = false ->
     holder (initial_holder c) sched c = Some i) /\
  (forall i e, (exec sched c).2 !! i = Some (Fail e) -> e = Fuel).
Proof. exact mutual_exclusion. Qed.
Print Assumptions C19_mutual_exclusion.

(** three contending threads: a schedule in which one is inside while the others spin *)
Example C19_example :
  let c := start_unlocked 9 (v_new true) [[VLock [GInsert; GSplit]]; [VMarkRoot; VTryLock []]; [VLock [GNonroot]]] in
  initial c /\ inside (exec [0; 1; 2; 0; 2; 1; 2; 0; 2] c).1 = 1 /\
  holder (initial_holder c) [0; 1; 2; 0; 2; 1; 2; 0; 2] c = Some 2.
Proof. split; [constructor; repeat split; reflexivity|]. vm_compute. split; reflexivity. Qed.

Theorem C20_unchanged_version_means_no_completed_section : forall c s1 s2, initial c ->
  (releases s2 (exec s1 c) < 2 ^ 19)%N ->
  v_has_changed (word (exec s1 c).1) (word (exec s2 (exec s1 c)).1) = false ->
  releases s2 (exec s1 c) = 0%N.
Proof. exact unchanged_means_no_release. Qed.
Print Assumptions C20_unchanged_version_means_no_completed_section.

(** the coarser check used when only a split matters: no split-marked section can go
    unnoticed either *)
Theorem C20_no_split_detected_means_no_completed_split : forall c s1 s2, initial c ->
  (releases s2 (exec s1 c) < 2 ^ 19)%N ->
  v_has_split (word (exec s1 c).1) (word (exec s2 (exec s1 c)).1) = false ->
  split_releases s2 (exec s1 c) = 0%N.
Proof. exact no_split_means_no_split_release. Qed.
Print Assumptions C20_no_split_detected_means_no_completed_split.

(** an insertion is not reported as a split, a split is *)
Example C20_split_example :
  let c := start_unlocked 9 (v_new true) [[VLock [GInsert]]; [VLock [GSplit]]] in
  initial c /\ releases [0; 0; 0; 0; 0] c = 1%N /\ split_releases [0; 0; 0; 0; 0] c = 0%N /\
  v_has_split (word c.1) (word (exec [0; 0; 0; 0; 0] c).1) = false /\
  split_releases [1; 1; 1; 1; 1; 1; 1] c = 1%N /\
  v_has_split (word c.1) (word (exec [1; 1; 1; 1; 1; 1; 1] c).1) = true.
Proof. split; [constructor; repeat split; reflexivity|]. vm_compute. repeat split; reflexivity. Qed.

(** one completed section is noticed; none completed is possible too *)
Example C20_example :
  let c := start_unlocked 9 (v_new true) [[VLock [GInsert]]; [VStable]] in
  initial c /\ releases [0; 0; 0; 0; 0] c = 1%N /\
  v_has_changed (word c.1) (word (exec [0; 0; 0; 0; 0] c).1) = true /\
  releases [0; 1; 0; 0] c = 0%N /\
  v_has_changed (word c.1) (word (exec [0; 1; 0; 0] c).1) = false.
Proof. split; [constructor; repeat split; reflexivity|]. vm_compute. repeat split; reflexivity. Qed.

(** the stronger check, which also reports a modification in progress: if it answers no, then at
    every moment since the old version was read the lock was free and no thread was inside a
    critical section ([s2]: any part of what happened since) *)
Theorem C20_not_changed_or_locked_means_undisturbed : forall c s1 s2 s3, initial c ->
  (releases (s2 ++ s3) (exec s1 c) < 2 ^ 19)%N ->
  v_has_changed_or_locked (word (exec s1 c).1) (word (exec (s2 ++ s3) (exec s1 c)).1) = false ->
  locked (exec s2 (exec s1 c)) = false /\ inside (exec s2 (exec s1 c)).1 = 0.
Proof. exact unchanged_unlocked_all_along. Qed.
Print Assumptions C20_not_changed_or_locked_means_undisturbed.

(** a section in progress escapes the weaker check but not this one; lookups and root marks of
    other threads, and failed attempts to lock, are no disturbance *)
Example C20_undisturbed_example :
  let c := start_unlocked 9 (v_new true) [[VLockYield [GInsert]]; [VStable; VHasChangedOrLocked 7]; [VTryLockFor 1 []]] in
  initial c /\
  v_has_changed (word c.1) (word (exec [0; 0; 0] c).1) = false /\
  v_has_changed_or_locked (word c.1) (word (exec [0; 0; 0] c).1) = true /\
  v_has_changed_or_locked (word c.1) (word (exec [0; 1; 1; 1; 2] c).1) = false /\
  inside (exec [0; 0; 2; 2; 0; 2] c).1 = 1 /\ releases [0; 0; 0; 0; 0; 2; 2; 2; 2; 2; 2] c = 2%N.
Proof. split; [constructor; repeat split; reflexivity|]. vm_compute. repeat split; reflexivity. Qed.

Theorem C21_flags_survive_counter_overflow : forall F is_leaf script, exists w,
  run (run_script (S F) script) (mk_vmem (v_new is_leaf) 0) = Ok (tt, mk_vmem w 0) /\
  v_is_leaf w = is_leaf /\ v_is_deleted w = existsb vop_deletes script /\
  v_is_root w = fold_left vop_root script false /\
  v_is_locked w = false /\ v_is_dirty w = false /\
  forall gs, exists lv m, run (lv <- ver_lock vrd vwr (S F) ;; run_gops gs lv) (mk_vmem w 0) = Ok (lv, m) /\
    (lv + VSPLIT_LOWBIT < 2 ^ 32)%N.
Proof. exact flags_survive. Qed.
Print Assumptions C21_flags_survive_counter_overflow.

Example C21_example : exists w,
  run (run_script 1 [VMarkRoot; VLock [GInsert]; VLock [GSplit; GDeleted]; VMarkRoot; VTryLock []])
    (mk_vmem (v_new true) 0) = Ok (tt, mk_vmem w 0) /\ v_is_deleted w = true /\ v_is_root w = true.
Proof. eexists. vm_compute. repeat split. Qed.
