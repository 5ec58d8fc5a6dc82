(** Specification vocabulary for the permutation properties (C13-C16).  *)
From Verif Require Import Base Perm.

Section S.
Context (P : pcfg).

(** all slot numbers, position by position *)
Definition slots_of (v : N) : list nat := map (fun i => p_get P v i) (seq 0 (pW P)).
(** slots in use, in logical order, and the free slots behind them *)
Definition active (v : N) : list nat := take (p_size P v) (slots_of v).
Definition free (v : N) : list nat := drop (p_size P v) (slots_of v).

(** every slot number 0..W-1 occurs exactly once, and the size is in range *)
Definition is_permutation (v : N) : Prop :=
  p_size P v <= pW P /\ NoDup (slots_of v) /\ (forall s, s ∈ slots_of v <-> s < pW P).

(** a machine word holding a permutation *)
Definition perm_word (v : N) : Prop := (v < 2 ^ N.of_nat (pM P))%N /\ is_permutation v.

(** the mutating operations with the preconditions the code asserts *)
Inductive perm_op :=
| OInsert (i : nat) | ORemove (i : nat) | ORemoveToBack (i : nat)
| OExchange (i j : nat) | ORotate (i j : nat) | OSwapFree (i j : nat) | OSetSize (n : nat).

Definition op_pre (v : N) (o : perm_op) : Prop :=
  match o with
  | OInsert i => p_size P v < pW P /\ i <= p_size P v
  | ORemove i | ORemoveToBack i => i < p_size P v
  | OExchange i j => i < pW P /\ j < pW P
  | ORotate i j => i <= j /\ j <= pW P
  | OSwapFree i j => p_size P v <= i < pW P /\ p_size P v <= j < pW P
  | OSetSize n => n <= pW P
  end.
Definition op_apply (v : N) (o : perm_op) : N :=
  match o with
  | OInsert i => (p_insert_from_back P v i).1
  | ORemove i => p_remove P v i
  | ORemoveToBack i => p_remove_to_back P v i
  | OExchange i j => p_exchange P v i j
  | ORotate i j => p_rotate P v i j
  | OSwapFree i j => p_swap_free_slots P v i j
  | OSetSize n => p_set_size P v n
  end.
Fixpoint ops_pre (v : N) (l : list perm_op) : Prop :=
  match l with
  | [] => True
  | o :: l => op_pre v o /\ ops_pre (op_apply v o) l
  end.

(** the laws of C14/C15, as one statement per operation *)
Definition insert_law : Prop := forall v i,
  perm_word v -> p_size P v < pW P -> i <= p_size P v ->
  let '(v', slot) := p_insert_from_back P v i in
  perm_word v' /\
  active v' = take i (active v) ++ slot :: drop i (active v) /\
  free v = free v' ++ [slot].
Definition remove_law : Prop := forall v i s,
  perm_word v -> active v !! i = Some s ->
  perm_word (p_remove P v i) /\
  active (p_remove P v i) = take i (active v) ++ drop (S i) (active v) /\
  free (p_remove P v i) = s :: free v.
Definition remove_to_back_law : Prop := forall v i s,
  perm_word v -> active v !! i = Some s ->
  perm_word (p_remove_to_back P v i) /\
  active (p_remove_to_back P v i) = take i (active v) ++ drop (S i) (active v) /\
  free (p_remove_to_back P v i) = free v ++ [s].
Definition exchange_law : Prop := forall v i j a b,
  perm_word v -> slots_of v !! i = Some a -> slots_of v !! j = Some b ->
  perm_word (p_exchange P v i j) /\
  p_size P (p_exchange P v i j) = p_size P v /\
  slots_of (p_exchange P v i j) = <[i := b]> (<[j := a]> (slots_of v)).
Definition swap_free_law : Prop := forall v i j,
  perm_word v -> p_size P v <= i < pW P -> p_size P v <= j < pW P ->
  perm_word (p_swap_free_slots P v i j) /\
  active (p_swap_free_slots P v i j) = active v /\
  p_get P (p_swap_free_slots P v i j) i = p_get P v j /\
  p_get P (p_swap_free_slots P v i j) j = p_get P v i.
Definition rotate_law : Prop := forall v i j,
  perm_word v -> i <= j -> j <= pW P ->
  perm_word (p_rotate P v i j) /\
  p_size P (p_rotate P v i j) = p_size P v /\
  slots_of (p_rotate P v i j)
  = take i (slots_of v) ++ drop j (slots_of v) ++ take (j - i) (drop i (slots_of v)).
Definition set_size_law : Prop := forall v n,
  perm_word v -> n <= pW P ->
  perm_word (p_set_size P v n) /\
  p_size P (p_set_size P v n) = n /\ slots_of (p_set_size P v n) = slots_of v.
Definition empty_law : Prop :=
  perm_word (p_empty P) /\ active (p_empty P) = [] /\ p_back P (p_empty P) = 0.
Definition make_sorted_law (mk : nat -> N) : Prop := forall n, n <= pW P ->
  perm_word (mk n) /\ active (mk n) = seq 0 n /\ (n < pW P -> p_back P (mk n) = n).
(** reading: the slot at a logical position, the next free slot, and the [off]-th
    free slot counted from the back; writing one position *)
Definition accessor_law : Prop := forall v off,
  perm_word v -> p_size P v + off < pW P ->
  last (free v) = Some (p_back P v) /\
  free v !! (length (free v) - 1 - off) = Some (p_back_at_offset P v off).
Definition set_law : Prop := forall v i s,
  perm_word v -> i < pW P -> s < pW P ->
  slots_of (p_set P v i s) = <[i := s]> (slots_of v) /\
  p_size P (p_set P v i s) = p_size P v.
End S.
