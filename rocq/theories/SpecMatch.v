(** Specification vocabulary for key matching in a leaf (C59). *)
From Verif Require Import Base Perm SpecPerm Key SpecKey Suffix SpecSuffix Mem SpecNode.

(** how a key (or what is left of it in this layer) is passed to a leaf: the length class and
    the bytes after the first eight; the slice is [slice k 0] *)
Definition length_class (k : bytes) : N := if Nat.leb (length k) 8 then N.of_nat (length k) else 64%N.
Definition rest (k : bytes) : bytes := drop 8 k.
(** slot [s] of the leaf is an entry of the key [k] *)
Definition holds_key (m : mem) (l : leaf) (s : nat) (k : bytes) : Prop :=
  exists v, entry_of m l s =
    Some (slice k 0, length_class k, if Nat.leb (length k) 8 then None else Some (rest k), v).
(** slot [s] points to a layer *)
Definition holds_layer (m : mem) (l : leaf) (s : nat) : Prop :=
  exists ik kx sf v, entry_of m l s = Some (ik, kx, sf, v) /\ (128 <= kx)%N.
(** the leaf's suffix for a slot, whatever the length class of the slot says *)
Definition stored (m : mem) (l : leaf) (s : nat) : option bytes := suffix_of m l 64 s.
