(** Specification vocabulary for single-threaded histories. *)
From Verif Require Import Base Prog Mem Tree SpecTree.

(** ** what was inserted *)
(** the value of the last insert of [k] *)
Fixpoint last_value (k : bytes) (l : list (bytes * N)) : option N :=
  match l with
  | [] => None
  | (k', v) :: l => match last_value k l with
                    | Some w => Some w
                    | None => if decide (k' = k) then Some v else None
                    end
  end.
(** how many different keys *)
Definition distinct_keys (l : list (bytes * N)) : N := N.of_nat (length (remove_dups (map fst l))).
(** bytes of all keys passed to insert *)
Fixpoint key_bytes (ops : list op) : N :=
  match ops with
  | [] => 0
  | Insert k _ :: ops => N.of_nat (length k) + key_bytes ops
  | _ :: ops => key_bytes ops
  end.
(** histories considered: keys of at most 256 bytes, in total less than 4 GiB - 6145 bytes *)
Definition history_ok (ops : list op) : Prop :=
  Forall op_ok ops /\ (key_bytes ops < 2 ^ 32 - 6145)%N.
(** the answers to the inserts that said the key was new *)
Definition new_keys (l : list ans) : N :=
  N.of_nat (length (List.filter (fun a => match a with AIns None => true | _ => false end) l)).
(** the call was answered as its type demands; an insert not with an error *)
Definition answered (o : op) (a : ans) : Prop :=
  match o, a with
  | Insert _ _, AIns _ => True
  | Get _, AGet _ => True
  | GetRef _, AGet _ => True
  | Len, ALen _ => True
  | IsEmpty, AEmpty _ => True
  | _, _ => False
  end.

(** lookups, and replacing some lookups by reference with lookups by value *)
Definition lookup_call (o : op) : Prop := match o with Get _ | GetRef _ => True | _ => False end.
Definition same_call (o o' : op) : Prop := o = o' \/ exists k, o = Get k /\ o' = GetRef k.

(** calls of one thread, between which the collector may free retired objects *)
Inductive event := Call (o : op) | Collect (keep : nat).
Fixpoint run_events (ins : nat -> bytes -> N -> P ins_res) (F : nat) (evs : list event) (m : mem)
    : res (list ans * mem) :=
  match evs with
  | [] => Ok ([], m)
  | Call o :: evs => res_bind (run (call ins F o) m) (fun '(a, m) =>
                     res_bind (run_events ins F evs m) (fun '(as', m) => Ok (a :: as', m)))
  | Collect keep :: evs => res_bind (run (reclaim_old keep) m) (fun '(_, m) => run_events ins F evs m)
  end.
Definition calls (evs : list event) : list op :=
  omap (fun e => match e with Call o => Some o | Collect _ => None end) evs.

(** ** keys the code may confuse *)
(** slice [d] of a key: its bytes [8d, 8d+8), padded with zero bytes *)
Definition slice (k : bytes) (d : nat) : bytes := take 8 (drop (8 * d) k ++ repeat 0%N 8).
(** different keys with equal slices up to [d], one of which ends in slice [d] *)
Definition ambiguous (k1 k2 : bytes) : Prop := k1 <> k2 /\ exists d,
  take (8 * d) k1 = take (8 * d) k2 /\ slice k1 d = slice k2 d /\
  (length k1 <= 8 * d + 8 \/ length k2 <= 8 * d + 8).
Definition unambiguous (ops : list op) : Prop :=
  forall k1 k2 v1 v2, (k1, v1) ∈ inserts ops -> (k2, v2) ∈ inserts ops -> ~ ambiguous k1 k2.
