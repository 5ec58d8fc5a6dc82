(** Model of [MassTreeIndex] (src/tree/index.rs), a wrapper around [MassTree24] for values
    that are copied. *)
From Verif Require Import Base Prog Mem Tree SpecTree.

(** index.rs:49-55 new *)
Definition index_new : mem := tree_new.
(** index.rs:57-62 is_empty *)
Definition index_is_empty : P bool := is_empty.
(** index.rs:64-69 len *)
Definition index_len : P N := len.
(** index.rs:71-78 get: [inner.get(key)], then the value is copied out of the [Arc].  The
    model's [get] answers with the value, so the copy is the identity. *)
Definition index_get (F : nat) (k : bytes) : P (option N) := r <- get F k ;; Ret r.
(** index.rs:80-92 insert: [inner.insert(key, value)], then the old value is copied out of
    its [Arc] *)
Definition index_insert (F : nat) (k : bytes) (v : N) : P ins_res :=
  r <- insert F k v ;; Ret (match r with IOk (Some o) => IOk (Some o) | r => r end).
(** the methods as calls; the wrapper has no lookup by reference *)
Definition index_op (o : op) : Prop := match o with GetRef _ => False | _ => True end.
Definition index_call (F : nat) (o : op) : P ans :=
  match o with
  | Insert k v => r <- index_insert F k v ;; Ret (match r with IOk old => AIns old | IErr => AInsErr end)
  | Get k | GetRef k => r <- index_get F k ;; Ret (AGet r)
  | Len => n <- index_len ;; Ret (ALen n)
  | IsEmpty => b <- index_is_empty ;; Ret (AEmpty b)
  end.
