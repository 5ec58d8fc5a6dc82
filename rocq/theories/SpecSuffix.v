(** Specification vocabulary for the suffix storage properties (C17, C18). *)
From Verif Require Import Base Suffix.

Inductive bag_op :=
| BAssign (slot : nat) (suf : bytes)      (* assign *)
| BTry (slot : nat) (suf : bytes)         (* try_assign_in_place *)
| BClear (slot : nat)
| BCompact (active : list nat)
| BClone.

(** running one operation on the code model; BTry also reports its boolean *)
Definition bag_run1 (b : bag) (o : bag_op) : res (bool * bag) :=
  match o with
  | BAssign s x => res_bind (bag_assign b s x) (fun b' => Ok (true, b'))
  | BTry s x => bag_try_assign b s x
  | BClear s => res_bind (bag_clear b s) (fun b' => Ok (true, b'))
  | BCompact l => res_bind (bag_compact b l) (fun r => Ok (true, r.2))
  | BClone => Ok (true, bag_clone b)
  end.

(** the simple specification: a map from slots to byte strings; [ok] is the boolean
    reported by the operation (a refused BTry changes nothing) *)
Definition smap := nat -> option bytes.
Definition smap_run1 (m : smap) (o : bag_op) (ok : bool) : smap :=
  match o with
  | BAssign s x => fun t => if Nat.eqb t s then Some x else m t
  | BTry s x => if ok then fun t => if Nat.eqb t s then Some x else m t else m
  | BClear s => fun t => if Nat.eqb t s then None else m t
  | BCompact l => fun t => if bool_decide (t ∈ l) then m t else None
  | BClone => m
  end.

Fixpoint bag_run (b : bag) (m : smap) (l : list bag_op) : res (bag * smap) :=
  match l with
  | [] => Ok (b, m)
  | o :: l => match bag_run1 b o with
              | Ok (ok, b') => bag_run b' (smap_run1 m o ok) l
              | Er e => Er e
              end
  end.

(** operations the code accepts: slots in range, suffix lengths in u16 *)
Definition op_in_range (width : nat) (o : bag_op) : Prop :=
  match o with
  | BAssign s x | BTry s x => s < width /\ (N.of_nat (length x) <= 65535)%N
  | BClear s => s < width
  | BCompact l => NoDup l
  | BClone => True
  end.
(** bytes written by a sequence of operations *)
Definition bytes_written (l : list bag_op) : N :=
  fold_right N.add 0%N
    (map (fun o => match o with BAssign _ x | BTry _ x => N.of_nat (length x) | _ => 0%N end) l).
