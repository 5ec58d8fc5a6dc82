(** Specification vocabulary for use under the rules of Rust's borrows (C51): calls that
    insert exclude all others, calls that only read may overlap.  [MassTreeIndex::insert]
    takes [&mut self] and its other methods [&self] (src/tree/index.rs:59-92), so the
    compiler enforces this; so does a reader-writer lock around a [MassTree24]. *)
From Verif Require Import Base Prog Mem Tree SpecTree SpecLin SpecConc SpecSolo.

(** thread [i] has called [o] and has not been answered yet *)
Definition in_progress (i : nat) (o : op) (h : list event) : Prop := last_of i h = Some (ECall i o).
(** whenever a call is made while another is in progress, both only read *)
Definition exclusive (h : list event) : Prop := forall h1 i o h2 j o',
  h = h1 ++ ECall i o :: h2 -> in_progress j o' h1 -> reads_only o /\ reads_only o'.
(** the history without the times *)
Definition untimed (h : list (N * event)) : list event := map snd h.
(** how many turns thread [i] gets *)
Definition turns_of (i : nat) (acts : list act) : nat :=
  length (List.filter (fun a => match a with Thread j => j =? i | Collect _ => false end) acts).
