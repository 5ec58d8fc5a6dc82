(** Specification vocabulary for lock-free insertions running at the same time. *)
From Verif Require Import Base Prog Mem Tree SpecTree SpecHist CasInsert.

(** the calls that report that they inserted their key *)
Definition succeeded (r : cas_res) : bool := match r with CSuccess _ => true | _ => false end.
(** their keys and values *)
Fixpoint won (calls : list (bytes * N)) (rs : list cas_res) : list (bytes * N) :=
  match calls, rs with
  | kv :: calls, r :: rs => (if succeeded r then [kv] else []) ++ won calls rs
  | _, _ => []
  end.
(** the insertions as calls of the map *)
Definition as_inserts (l : list (bytes * N)) : list op := map (fun kv => Insert kv.1 kv.2) l.
(** lock-free insertions and lookups, one thread each: first the insertions, then the lookups *)
Definition cas_and_get (F : nat) (calls : list (bytes * N)) (keys : list bytes) : list (prog mem (cas_res + option N)) :=
  map (fun kv => r <- try_cas_insert F kv.1 kv.2 ;; Ret (inl r)) calls ++ map (fun k => o <- get F k ;; Ret (inr o)) keys.
