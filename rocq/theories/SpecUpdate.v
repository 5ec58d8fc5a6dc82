(** Specification vocabulary for concurrent replacement of values (C55, C56, C58). *)
From Verif Require Import Base Prog Mem Tree SpecTree SpecLin SpecConc.

(** threads start their calls on the tree that [m] holds; what is already retired has no call
    to outlive *)
Definition c_start_at (m : mem) (scripts : list (list op)) : csys :=
  mk_csys m (map (fun ops => (TIdle, ops)) scripts) (replicate (length (retired m)) []) false 0.
(** every key the threads insert had been inserted before they started *)
Definition only_updates (before : list op) (scripts : list (list op)) : Prop :=
  forall k v, (k, v) ∈ inserts (concat scripts) -> exists v', (k, v') ∈ inserts before.
(** no thread is inside a call that can go on: each is between two calls, or its call was cut
    short by the model's bound on the repetitions of a loop, as a call that goes on waiting for
    another thread is *)
Definition c_settled (c : csys) : Prop := forall i p ops, c_thr c !! i = Some (TRun p, ops) -> p = Fail Fuel.
