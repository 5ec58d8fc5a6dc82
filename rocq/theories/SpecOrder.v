(** Which values a caller has been told of, and which value replaced which, as far as the
    answers of a history (SpecConc.v) tell. *)
From Verif Require Import Base Prog Version Mem Tree SpecTree SpecLin SpecConc.

(** a call that has returned told its caller that [v] was in the tree: a lookup found it, an
    insertion handed it back, or it is the value of an insertion that has returned *)
Definition told_of (v : N) (h : list (N * event)) : Prop := exists h1 t i a h2,
  h = h1 ++ (t, ERet i a) :: h2 /\
  (a = AGet (Some v) \/ a = AIns (Some v) \/
   exists k r t1, a = AIns r /\ last_at i h1 = Some (t1, ECall i (Insert k v))).
(** the insertion of [v] answered with the replaced value [v'] *)
Definition replaces (h : list (N * event)) (v v' : N) : Prop := exists h1 t i h2 t1 k,
  h = h1 ++ (t, ERet i (AIns (Some v'))) :: h2 /\ last_at i h1 = Some (t1, ECall i (Insert k v)).
(** [v] replaced [v'], or replaced a value that replaced [v'], and so on *)
Definition newer (h : list (N * event)) : N -> N -> Prop := tc (replaces h).
