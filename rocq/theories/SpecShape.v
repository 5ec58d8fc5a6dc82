(** Specification vocabulary for the shape of the tree in memory. *)
From Verif Require Import Base Perm Prog Mem Tree SpecTree SpecHist.

(** children of an internode, from left to right *)
Definition children (i : inode) : list N := take (S (i_nkeys i)) (i_child i).
Definition parent_link (x : node) : N := match x with NLeaf l => l_parent l | NInode i => i_parent i end.
(** the leaves below [p] from left to right, when all of them are exactly [h] levels below *)
Fixpoint leaves_at (m : mem) (h : nat) (p : N) : option (list N) :=
  match h, heap m !! p with
  | 0, Some (NLeaf _) => Some [p]
  | S h, Some (NInode i) => @concat N <$> mapM (leaves_at m h) (children i)
  | _, _ => None
  end.
(** the root of a layer *)
Definition top (m : mem) (p : N) : Prop := exists x, heap m !! p = Some x /\ parent_link x = 0%N.
(** links of a leaf *)
Definition next_of (m : mem) (p : N) : option N := match heap m !! p with Some (NLeaf l) => Some (l_next l) | _ => None end.
Definition prev_of (m : mem) (p : N) : option N := match heap m !! p with Some (NLeaf l) => Some (l_prev l) | _ => None end.
(** slices of the entries of a leaf, in order *)
Definition leaf_slices (m : mem) (p : N) : list N :=
  match heap m !! p with
  | Some (NLeaf l) => map (fun s => nth s (l_ikey l) 0%N) (active_slots (l_perm l))
  | _ => []
  end.
(** the state after a history *)
Definition after (F : nat) (ops : list op) (m : mem) : Prop := exists l, run_calls insert F ops tree_new = Ok (l, m).
(** [ls] is a doubly linked list whose first element's predecessor is [prev] *)
Fixpoint linked (m : mem) (prev : N) (ls : list N) : Prop :=
  match ls with
  | [] => True
  | q :: ls => prev_of m q = Some prev /\ next_of m q = Some (hd 0%N ls) /\ linked m q ls
  end.
(** slices of the entries of a list of leaves, in order *)
Definition slices (m : mem) (ls : list N) : list N := concat (map (leaf_slices m) ls).
