(** Specification vocabulary for executions with a single inserting thread (C47). *)
From Verif Require Import Base Prog Mem Tree SpecTree.

Definition reads_only (o : op) : Prop := match o with Insert _ _ => False | _ => True end.
(** no thread but [w] inserts *)
Definition others_read (w : nat) (ts : list (list op)) : Prop :=
  forall i ops, ts !! i = Some ops -> i <> w -> Forall reads_only ops.
(** how often the schedule gives thread [w] a turn *)
Definition turns (w : nat) (sched : list nat) : nat := length (List.filter (Nat.eqb w) sched).
