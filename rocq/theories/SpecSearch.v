(** Specification vocabulary for the search properties (C23, C24). *)
From Verif Require Import Base.

(** how many keys are below / not above the target *)
Definition n_below (ks : list N) (t : N) : nat := length (filter (fun k => (k < t)%N) ks).
Definition n_not_above (ks : list N) (t : N) : nat := length (filter (fun k => (k <= t)%N) ks).
(** ascending without repetition *)
Definition ascending (ks : list N) : Prop := forall i j a b,
  i < j -> ks !! i = Some a -> ks !! j = Some b -> (a < b)%N.
Definition u64 (x : N) : Prop := (x < 2 ^ 64)%N.
