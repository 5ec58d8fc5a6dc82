(** Programs over a shared memory.  Every [Step] is one atomic access; running a
    program alone ([run]) is the single-threaded semantics, interleaving the steps
    of several programs ([exec]) is the (sequentially consistent) concurrent one. *)
From Verif Require Import Base.

Inductive prog (M A : Type) : Type :=
| Ret (a : A)
| Fail (e : err)
| Step {R : Type} (f : M -> res (R * M)) (k : R -> prog M A).
Arguments Ret {M A} a.
Arguments Fail {M A} e.
Arguments Step {M A R} f k.

Fixpoint bind {M A B} (p : prog M A) (f : A -> prog M B) : prog M B :=
  match p with
  | Ret a => f a
  | Fail e => Fail e
  | Step g k => Step g (fun r => bind (k r) f)
  end.

Notation "x <- p ;; q" := (bind p (fun x => q))
  (at level 100, p at next level, right associativity).
Notation "' pat <- p ;; q" := (bind p (fun x => match x with pat => q end))
  (at level 100, pat pattern, p at next level, right associativity).
Notation "p ;;; q" := (bind p (fun _ => q)) (at level 100, right associativity).

(** one atomic access *)
Definition atomic {M R} (f : M -> res (R * M)) : prog M R := Step f Ret.

(** single-threaded run *)
Fixpoint run {M A} (p : prog M A) (m : M) : res (A * M) :=
  match p with
  | Ret a => Ok (a, m)
  | Fail e => Er e
  | Step f k => match f m with Ok (r, m') => run (k r) m' | Er e => Er e end
  end.

(** [for x in l { f x }] *)
Fixpoint for_each {M X} (l : list X) (f : X -> prog M unit) : prog M unit :=
  match l with
  | [] => Ret tt
  | x :: l => f x ;;; for_each l f
  end.

(** interleaving: thread [i] makes one access; finished or failed threads do nothing *)
Definition thread_step {M A} (i : nat) (c : M * list (prog M A)) : M * list (prog M A) :=
  match c.2 !! i with
  | Some (Step f k) =>
      match f c.1 with
      | Ok (r, m') => (m', <[i := k r]> c.2)
      | Er e => (c.1, <[i := Fail e]> c.2)
      end
  | _ => c
  end.
(** a schedule is a list of thread numbers *)
Definition exec {M A} (sched : list nat) (c : M * list (prog M A)) : M * list (prog M A) :=
  fold_left (fun c i => thread_step i c) sched c.
