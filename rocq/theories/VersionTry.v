(** The remaining ways to take a node's lock, and the check that also reports a modification in
    progress: src/nodeversion.rs. *)
From Verif Require Import Base Prog Version.

Section Ops.
Context {M : Type} (rd : M -> option N) (wr : N -> M -> M).
(** nodeversion.rs:736-754: attempts until one succeeds or the deadline has passed.  [n]: how many
    further attempts the clock allows after the first; time itself is not modelled *)
Fixpoint ver_try_lock_for (n : nat) : prog M (option N) :=
  r <- ver_try_lock rd wr ;;
  match r with
  | Some lv => Ret (Some lv)
  | None => match n with 0 => Ret None | S n => ver_try_lock_for n end
  end.
(** nodeversion.rs:772-826: attempts until one succeeds; the spinning and yielding between them has
    no effect on memory *)
Fixpoint ver_lock_with_yield (fuel : nat) : prog M N :=
  match fuel with
  | 0 => Fail Fuel
  | S fuel =>
      r <- ver_try_lock rd wr ;;
      match r with Some lv => Ret lv | None => ver_lock_with_yield fuel end
  end.
(** nodeversion.rs:541-543 *)
Definition ver_simple_has_split (old : N) : prog M bool := v <- ver_load rd ;; Ret (v_has_split old v).
(** nodeversion.rs:562-580 *)
Definition ver_has_changed_or_locked (old : N) : prog M bool :=
  v <- ver_load rd ;; Ret (v_has_changed_or_locked old v).
End Ops.
