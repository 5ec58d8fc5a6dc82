(** Common imports and word arithmetic. *)
From Coq Require Export NArith ZArith Lia List.
From stdpp Require Export prelude gmap list numbers sorting.
From Coq Require Export ZifyBool ZifyNat ZifyN.
Global Open Scope nat_scope.

(** Machine words of [m] bits are numbers below [2^m].
    Rust's [<<] drops the bits shifted out, [!] is bitwise complement, [+]/[-]
    wrap in release builds (the code below never overflows; see the theorems). *)
Definition wones (m : N) : N := N.ones m.
Definition wshl (m x k : N) : N := N.land (N.shiftl x k) (wones m).
Definition wnot (m x : N) : N := N.lxor (N.land x (wones m)) (wones m).
Definition wadd (m x y : N) : N := N.land (x + y) (wones m).
(** subtraction is used only on operands with [y <= x] *)
Definition wsub (m x y : N) : N := N.land (x - y) (wones m).

Definition byte := N.
Definition bytes := list N.

(** Outcomes.  [Panic]: a Rust panic (assert, expect, index out of bounds);
    [UB]: null/dangling/wrongly typed pointer; [Fuel]: a loop bound of the model
    was exhausted (not an outcome of the code); [Limit]: the one deliberate panic, after
    64 rounds of passing a split to the parent (propagation.rs:200-210). *)
Inductive err := Panic | UB | Fuel | Limit.
Inductive res (A : Type) := Ok (a : A) | Er (e : err).
Arguments Ok {A} _.
Arguments Er {A} _.
Definition res_bind {A B} (r : res A) (k : A -> res B) : res B :=
  match r with Ok a => k a | Er e => Er e end.
Global Instance err_eq_dec : EqDecision err.
Proof. solve_decision. Defined.
