(** Specification vocabulary for insertions made one after the other, by whatever threads,
    while lookups run at any time (C53): one inserting thread, or a mutex around [insert]. *)
From Verif Require Import Base Prog Mem Tree SpecTree SpecLin SpecConc SpecSolo SpecExcl.

(** no insertion is called while another is in progress *)
Definition no_insertion (h : list event) : Prop := forall j k v, ~ in_progress j (Insert k v) h.
Definition serial (h : list event) : Prop := forall h1 i k v h2,
  h = h1 ++ ECall i (Insert k v) :: h2 -> no_insertion h1.
(** the calls made, in order, and the map one gets by performing them on an empty map *)
Definition called (h : list event) : list op := omap (fun e => match e with ECall _ o => Some o | ERet _ _ => None end) h.
Definition contents (h : list event) : gmap bytes N := (map_run ∅ (called h)).2.
(** after [h1] thread [i] called [o]; it had not been answered when [h2] had happened too *)
Definition open_call (h h1 : list event) (i : nat) (o : op) (h2 : list event) : Prop :=
  h = h1 ++ ECall i o :: h2 /\ Forall (fun e => event_of e <> i) h2.
(** ... and then it was answered [a] *)
Definition answered_call (h h1 : list event) (i : nat) (o : op) (h2 : list event) (a : ans) : Prop :=
  exists h3, h = h1 ++ ECall i o :: h2 ++ ERet i a :: h3 /\ Forall (fun e => event_of e <> i) h2.
(** no insertion was in progress when the call was made, and none was called during it *)
Definition undisturbed (h1 h2 : list event) : Prop := no_insertion h1 /\ Forall reads_only (called h2).
