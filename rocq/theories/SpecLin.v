(** Specification vocabulary for linearizability (C33).  Threads perform sequences of
    calls; a schedule interleaves their atomic accesses; the history records when each
    call was made and when it answered. *)
From Verif Require Import Base Prog Mem Tree SpecTree.

(** ** executions of the code *)
(** a thread between two calls, or inside one; the calls it still has to make follow *)
Inductive tstate := TIdle | TRun (p : P ans).
Definition sys : Type := mem * list (tstate * list op).
Inductive event := ECall (i : nat) (o : op) | ERet (i : nat) (a : ans).

(** thread [i] makes its next call, or one access, or returns from its call *)
Definition sys_step (F : nat) (i : nat) (c : sys) : sys * list event :=
  match c.2 !! i with
  | Some (TIdle, o :: ops) => ((c.1, <[i := (TRun (call insert F o), ops)]> c.2), [ECall i o])
  | Some (TRun (Ret a), ops) => ((c.1, <[i := (TIdle, ops)]> c.2), [ERet i a])
  | Some (TRun (Step f k), ops) =>
      match f c.1 with
      | Ok (r, m') => ((m', <[i := (TRun (k r), ops)]> c.2), [])
      | Er e => ((c.1, <[i := (TRun (Fail e), ops)]> c.2), [])
      end
  | _ => (c, [])
  end.
Fixpoint sys_run (F : nat) (sched : list nat) (c : sys) : sys * list event :=
  match sched with
  | [] => (c, [])
  | i :: sched => let '(c, h) := sys_step F i c in
                  let '(c, h') := sys_run F sched c in (c, h ++ h')
  end.
(** a new tree and threads that have not begun *)
Definition sys_start (scripts : list (list op)) : sys :=
  (tree_new, map (fun ops => (TIdle, ops)) scripts).
Definition sys_failed (c : sys) (i : nat) (e : err) : Prop :=
  exists ops, c.2 !! i = Some (TRun (Fail e), ops).
(** every thread is between two calls *)
Definition quiet (c : sys) : Prop := forall i t ops, c.2 !! i = Some (t, ops) -> t = TIdle.

(** ** the specification: a map all of whose operations take effect at one instant *)
Inductive status := Idle | Pending (o : op) | Done (a : ans).
Inductive action := Ev (e : event) | TakeEffect (i : nat).
(** what [n] threads may do with an atomic map: the actions so far, the map, and where each
    thread is.  A call takes effect exactly once, after it was made and before it answers,
    and answers what the map operation answered at that instant. *)
Inductive atomic_map (n : nat) : list action -> gmap bytes N -> list status -> Prop :=
| am_start : atomic_map n [] ∅ (replicate n Idle)
| am_call acts mu st i o :
    atomic_map n acts mu st -> st !! i = Some Idle ->
    atomic_map n (acts ++ [Ev (ECall i o)]) mu (<[i := Pending o]> st)
| am_effect acts mu st i o a mu' :
    atomic_map n acts mu st -> st !! i = Some (Pending o) -> map_step mu o = (a, mu') ->
    atomic_map n (acts ++ [TakeEffect i]) mu' (<[i := Done a]> st)
| am_return acts mu st i a :
    atomic_map n acts mu st -> st !! i = Some (Done a) ->
    atomic_map n (acts ++ [Ev (ERet i a)]) mu (<[i := Idle]> st).
(** what an observer sees *)
Definition visible (acts : list action) : list event :=
  omap (fun a => match a with Ev e => Some e | TakeEffect _ => None end) acts.
(** the history is one of an atomic map whose final contents are [mu] *)
Definition linearizable_to (n : nat) (h : list event) (mu : gmap bytes N) : Prop :=
  exists acts st, atomic_map n acts mu st /\ visible acts = h.

(** the last thing thread [i] did *)
Definition event_of (e : event) : nat := match e with ECall i _ => i | ERet i _ => i end.
Definition last_of (i : nat) (h : list event) : option event :=
  last (filter (fun e => event_of e = i) h).

(** ** the calls considered *)
(** [len] is not among them (the counter is updated after the entry) *)
Definition lin_op (o : op) : Prop := match o with Len => False | _ => op_ok o end.
Definition inserted_keys (scripts : list (list op)) : list bytes :=
  map fst (inserts (concat scripts)).
(** inserted keys have at most 8 bytes and there are at most 24 different ones *)
Definition fits_one_leaf (scripts : list (list op)) : Prop :=
  Forall (fun k => length k <= 8) (inserted_keys scripts) /\
  length (remove_dups (inserted_keys scripts)) <= 24.
