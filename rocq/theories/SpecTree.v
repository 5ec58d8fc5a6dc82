(** Specification vocabulary for the tree properties: a map from byte strings to values,
    histories of calls, and what each call should answer. *)
From Verif Require Import Base Prog Mem Tree.

(** the calls of the public API *)
Inductive op := Insert (k : bytes) (v : N) | Get (k : bytes) | GetRef (k : bytes) | Len | IsEmpty.
Inductive ans :=
| AIns (old : option N)   (** insert returned Ok(old) *)
| AInsErr                 (** insert returned Err *)
| AGet (o : option N)
| ALen (n : N)
| AEmpty (b : bool).

(** ** the specification: a finite map *)
Definition map_step (m : gmap bytes N) (o : op) : ans * gmap bytes N :=
  match o with
  | Insert k v => (AIns (m !! k), <[k := v]> m)
  | Get k => (AGet (m !! k), m)
  | GetRef k => (AGet (m !! k), m)
  | Len => (ALen (N.of_nat (size m)), m)
  | IsEmpty => (AEmpty (bool_decide (m = ∅)), m)
  end.
Fixpoint map_run (m : gmap bytes N) (ops : list op) : list ans * gmap bytes N :=
  match ops with
  | [] => ([], m)
  | o :: ops => let '(a, m) := map_step m o in
                let '(as', m) := map_run m ops in (a :: as', m)
  end.

(** ** the code: calls as programs ([ins]: which insert, [F]: loop bound) *)
Definition call (ins : nat -> bytes -> N -> P ins_res) (F : nat) (o : op) : P ans :=
  match o with
  | Insert k v => r <- ins F k v ;; Ret (match r with IOk old => AIns old | IErr => AInsErr end)
  | Get k => r <- get F k ;; Ret (AGet r)
  | GetRef k => r <- get_ref F k ;; Ret (AGet r)
  | Len => n <- len ;; Ret (ALen n)
  | IsEmpty => b <- is_empty ;; Ret (AEmpty b)
  end.
(** one call after the other, from one thread *)
Fixpoint run_calls (ins : nat -> bytes -> N -> P ins_res) (F : nat) (ops : list op) (m : mem)
    : res (list ans * mem) :=
  match ops with
  | [] => Ok ([], m)
  | o :: ops => res_bind (run (call ins F o) m) (fun '(a, m) =>
                res_bind (run_calls ins F ops m) (fun '(as', m) => Ok (a :: as', m)))
  end.

(** keys occurring in a call / inserted by a history *)
Definition op_key (o : op) : option bytes :=
  match o with Insert k _ | Get k | GetRef k => Some k | _ => None end.
Definition op_ok (o : op) : Prop := match op_key o with
  | Some k => length k <= 256 /\ Forall (fun b => b < 256)%N k
  | None => True end.
Definition inserts (ops : list op) : list (bytes * N) :=
  omap (fun o => match o with Insert k v => Some (k, v) | _ => None end) ops.

(** concurrent use: each thread performs a sequence of calls, the accesses of the threads
    are interleaved by a schedule ([exec]) *)
Fixpoint thread_from (F : nat) (done : list ans) (ops : list op) : P (list ans) :=
  match ops with
  | [] => Ret (rev done)
  | o :: ops => a <- call insert F o ;; thread_from F (a :: done) ops
  end.
Definition thread (F : nat) (ops : list op) : P (list ans) := thread_from F [] ops.
Definition start (F : nat) (m : mem) (ts : list (list op)) : mem * list (P (list ans)) :=
  (m, map (thread F) ts).
(** thread [i] has finished with these answers / has failed *)
Definition finished (c : mem * list (P (list ans))) (i : nat) (l : list ans) : Prop :=
  c.2 !! i = Some (Ret l).
Definition failed (c : mem * list (P (list ans))) (i : nat) (e : err) : Prop :=
  c.2 !! i = Some (Fail e).
(** states a single thread can build from a new tree *)
Definition reachable (m : mem) : Prop :=
  exists F ops l, Forall op_ok ops /\ run_calls insert F ops tree_new = Ok (l, m).
(** [get k] answers [o] in state [m] *)
Definition answers (m : mem) (k : bytes) (o : option N) : Prop :=
  exists F m', run (get F k) m = Ok (o, m').
