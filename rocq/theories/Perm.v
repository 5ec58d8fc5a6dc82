(** Model of the packed permutation words.
    src/permuter24.rs (u128, 5-bit fields, 24 slots) and src/permuter.rs
    (u64, 4-bit fields, WIDTH <= 15 slots) use the same formulas with different
    constants; a [pcfg] carries the constants.  *)
From Verif Require Import Base.

Record pcfg := { pB : nat; (* bits per field: SLOT_BITS = SIZE_BITS *)
                 pW : nat; (* number of slots *)
                 pM : nat  (* bits in the machine word *) }.

(** permuter24.rs:20-58 (SLOT_BITS, SIZE_BITS, SLOT_MASK, SIZE_MASK), u128 *)
Definition P24 : pcfg := {| pB := 5; pW := 24; pM := 128 |}.
(** permuter.rs:12-28 (4-bit fields, u64), WIDTH is a const generic *)
Definition P15 (w : nat) : pcfg := {| pB := 4; pW := w; pM := 64 |}.

Section Ops.
Context (P : pcfg).
Local Notation B := (pB P).
Local Notation W := (pW P).
Local Notation M := (N.of_nat (pM P)).

Definition slot_mask : N := N.ones (N.of_nat B).
(** [i * SLOT_BITS + SIZE_BITS]  (permuter.rs writes [(i+1)*4]) *)
Definition shift_of (i : nat) : N := N.of_nat (i * B + B).

(** permuter24.rs:186-188, permuter.rs:229-231 *)
Definition p_size (v : N) : nat := N.to_nat (N.land v slot_mask).
(** permuter24.rs:197-200, permuter.rs:239-243 *)
Definition p_get (v : N) (i : nat) : nat :=
  N.to_nat (N.land (N.shiftr v (shift_of i)) slot_mask).
(** permuter24.rs:207-209, permuter.rs:250-252 *)
Definition p_back (v : N) : nat := p_get v (W - 1).
(** permuter24.rs:220-226, permuter.rs:264-270 *)
Definition p_back_at_offset (v : N) (off : nat) : nat := p_get v (W - 1 - off).

(** permuter24.rs:92-102 (INITIAL), permuter.rs:44-58: position i holds slot W-1-i *)
Definition p_initial : N :=
  fold_left (fun v i => N.lor v (wshl M (N.of_nat (W - 1 - i)) (shift_of i))) (seq 0 W) 0%N.
(** permuter24.rs:105-113 (SORTED), permuter.rs:71-83 *)
Definition p_sorted : N :=
  fold_left (fun v i => N.lor v (wshl M (N.of_nat i) (shift_of i))) (seq 0 W) 0%N.
(** permuter24.rs:121-125, permuter.rs:164-171 *)
Definition p_empty : N := p_initial.
(** permuter24.rs:136-161 *)
Definition p_make_sorted (n : nat) : N :=
  if Nat.eqb n W then N.lor p_sorted (N.of_nat W)
  else
    let v1 := fold_left (fun v i => N.lor v (wshl M (N.of_nat i) (shift_of i)))
                        (seq 0 n) (N.of_nat n) in
    fold_left (fun v pos => N.lor v (wshl M (N.of_nat (W - 1 - (pos - n))) (shift_of pos)))
              (seq n (W - n)) v1.
(** permuter.rs:181-224: the sorted part is taken from the SORTED constant by a mask *)
Definition p15_make_sorted (n : nat) : N :=
  if Nat.eqb n W then N.lor p_sorted (N.of_nat W)
  else
    let sorted_mask := wshl M (wsub M (wshl M 1 (N.of_nat (n * B))) 1) (N.of_nat B) in
    let v1 := N.lor (N.of_nat n) (N.land p_sorted sorted_mask) in
    fold_left (fun v pos => N.lor v (wshl M (N.of_nat (W - 1 - (pos - n))) (shift_of pos)))
              (seq n (W - n)) v1.

(** permuter24.rs:243-246, permuter.rs:296-300 *)
Definition p_set_size (v : N) (n : nat) : N :=
  N.lor (N.land v (wnot M slot_mask)) (N.of_nat n).
(** permuter24.rs:250-256, permuter.rs:313-320 *)
Definition p_set (v : N) (i slot : nat) : N :=
  N.lor (N.land v (wnot M (wshl M slot_mask (shift_of i)))) (wshl M (N.of_nat slot) (shift_of i)).
(** permuter24.rs:260-275 and 422-437, permuter.rs:336-359 and 564-583 (same body) *)
Definition p_exchange (v : N) (i j : nat) : N :=
  if Nat.eqb i j then v
  else
    let diff := N.land (N.lxor (N.shiftr v (shift_of i)) (N.shiftr v (shift_of j))) slot_mask in
    N.lxor v (N.lor (wshl M diff (shift_of i)) (wshl M diff (shift_of j))).
Definition p_swap_free_slots := p_exchange.

(** permuter24.rs:299-318 and 325-343, permuter.rs:375-402 and 428-449 *)
Definition p_insert_from_back (v : N) (i : nat) : N * nat :=
  let slot := p_back v in
  let low_mask := wsub M (wshl M 1 (shift_of i)) 1 in
  let v' :=
    N.lor (N.lor (N.land (wadd M v 1) low_mask) (wshl M (N.of_nat slot) (shift_of i)))
          (N.land (wshl M v (N.of_nat B))
                  (wnot M (N.lor low_mask (wshl M slot_mask (shift_of i))))) in
  (v', slot).

(** permuter.rs:479-483 ([if width_shift >= 64 {MAX} else {(1<<width_shift)-1}]);
    permuter24.rs:366 is the constant [(1<<125)-1] *)
Definition p_width_mask : N :=
  if Nat.leb (pM P) ((W + 1) * B) then wones M
  else wsub M (wshl M 1 (N.of_nat ((W + 1) * B))) 1.

(** permuter24.rs:357-377, permuter.rs:467-499 *)
Definition p_remove_to_back (v : N) (i : nat) : N :=
  let mask := wnot M (wsub M (wshl M 1 (shift_of i)) 1) in
  let x := N.land v p_width_mask in
  let shift_to_back := N.of_nat ((W - 1 - i) * B) in
  N.lor (N.lor (N.land (wsub M x 1) (wnot M mask))
               (N.land (N.shiftr x (N.of_nat B)) mask))
        (wshl M (N.land x mask) shift_to_back).

(** permuter24.rs:387-412, permuter.rs:518-548 *)
Definition p_remove (v : N) (i : nat) : N :=
  let size := p_size v in
  if Nat.eqb (i + 1) size then wsub M v 1
  else
    let rot_amount := N.of_nat ((size - i - 1) * B) in
    let rot_mask :=
      wshl M (wsub M (wshl M (wshl M 1 rot_amount) (N.of_nat B)) 1) (shift_of i) in
    N.lor (N.lor (N.land (wsub M v 1) (wnot M rot_mask))
                 (N.land (N.shiftr (N.land v rot_mask) (N.of_nat B)) rot_mask))
          (N.land (wshl M (N.land v rot_mask) rot_amount) rot_mask).

(** permuter24.rs:441-461, permuter.rs:600-634 *)
Definition p_rotate (v : N) (i j : nat) : N :=
  if orb (Nat.eqb i j) (Nat.eqb i W) then v
  else
    let mask := wsub M (wshl M 1 (shift_of i)) 1 in
    let x := N.land v p_width_mask in
    let rotate_amount := N.of_nat ((j - i) * B) in
    let rotate_back := N.of_nat ((W - j) * B) in
    N.lor (N.lor (N.land x mask) (N.land (N.shiftr x rotate_amount) (wnot M mask)))
          (wshl M (N.land x (wnot M mask)) rotate_back).

(** permuter24.rs:488-510, permuter.rs:645-663: what the debug check accepts *)
Definition p_valid (v : N) : bool :=
  Nat.leb (p_size v) W
  && forallb (fun i => Nat.ltb (p_get v i) W) (seq 0 W)
  && forallb (fun s => existsb (fun i => Nat.eqb (p_get v i) s) (seq 0 W)) (seq 0 W).
End Ops.

(** freeze24.rs:17-60 *)
Definition freeze_mask : N := N.shiftl 31 120.
Definition is_frozen (raw : N) : bool := N.eqb (N.land raw freeze_mask) freeze_mask.
Definition freeze_raw (raw : N) : N := N.lor (N.land raw (wnot 128 freeze_mask)) freeze_mask.
Definition get_slot23 (raw : N) : N := N.land (N.shiftr raw 120) 31.
Definition unfreeze_raw (frozen slot23 : N) : N :=
  N.lor (N.land frozen (wnot 128 freeze_mask)) (wshl 128 slot23 120).

(** permuter.rs:756-771 (trait impl for the u64 permuter; bit offset 14*4 = 56) *)
Definition p15_is_frozen_raw (raw : N) : bool := N.eqb (N.land (N.shiftr raw 56) 15) 15.
Definition p15_freeze_raw (raw : N) : N :=
  N.lor (N.land raw (wnot 64 (wshl 64 15 56))) (wshl 64 15 56).

(** 24-slot instance used by the leaf *)
Definition perm_size := p_size P24.
Definition perm_get := p_get P24.
Definition perm_back := p_back P24.
Definition perm_back_at_offset := p_back_at_offset P24.
Definition perm_empty := p_empty P24.
Definition perm_make_sorted := p_make_sorted P24.
Definition perm_set_size := p_set_size P24.
Definition perm_swap_free_slots := p_swap_free_slots P24.
Definition perm_insert_from_back := p_insert_from_back P24.
