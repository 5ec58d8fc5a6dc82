(** Model of src/key.rs.  A key borrows a byte string; slices are u64 numbers.
    [debug_assert!]s are not modelled (they vanish in release builds). *)
From Verif Require Import Base.

(** key.rs:12,15 *)
Definition IKEY_SIZE : nat := 8.
Definition MAX_KEY_LENGTH : nat := 256.

(** [u64::from_be_bytes] *)
Definition be_word (bs : bytes) : N := fold_left (fun acc b => acc * 256 + b)%N bs 0%N.

(** key.rs:414-426 read_ikey_slow: zero padding on the right *)
Definition read_ikey_slow (remaining : bytes) : N :=
  be_word (remaining ++ repeat 0%N (IKEY_SIZE - length remaining)).
(** key.rs:392-406 read_ikey *)
Definition read_ikey (data : bytes) (offset : nat) : N :=
  if Nat.leb offset (length data) then
    let remaining := drop offset data in
    if Nat.leb IKEY_SIZE (length remaining) then be_word (take IKEY_SIZE remaining)
    else if Nat.eqb (length remaining) 0 then 0%N
    else read_ikey_slow remaining
  else 0%N.

(** key.rs:57-74 struct Key *)
Record key := mk_key { k_data : bytes; k_ikey : N; k_shift : nat; k_sufstart : nat }.

(** key.rs:90-107 new; [None] is the panic of the length assertion *)
Definition key_new (data : bytes) : option key :=
  if Nat.leb (length data) MAX_KEY_LENGTH then
    Some {| k_data := data; k_ikey := read_ikey data 0; k_shift := 0;
            k_sufstart := Nat.min IKEY_SIZE (length data) |}
  else None.
(** number of trailing zero bytes of a non-zero u64: [trailing_zeros() / 8] *)
Fixpoint trailing_zero_bytes (fuel : nat) (x : N) : nat :=
  match fuel with
  | 0 => 0
  | S f => if (x mod 256 =? 0)%N then S (trailing_zero_bytes f (x / 256)) else 0
  end.
(** key.rs:115-129 from_ikey *)
Definition key_from_ikey (ikey : N) : key :=
  {| k_data := []; k_ikey := ikey; k_shift := 0;
     k_sufstart := if (ikey =? 0)%N then 0 else IKEY_SIZE - trailing_zero_bytes 8 ikey |}.
(** key.rs:137-139 *)
Definition key_from_suffix := key_new.
(** key.rs:147-149 *)
Definition key_len (k : key) : nat := length (k_data k).
(** key.rs:180-182 current_len (saturating) *)
Definition key_current_len (k : key) : nat := length (k_data k) - k_shift k * IKEY_SIZE.
(** key.rs:187-189 *)
Definition key_is_empty (k : key) : bool := (k_ikey k =? 0)%N && Nat.eqb (length (k_data k)) 0.
(** key.rs:194-196 *)
Definition key_is_shifted (k : key) : bool := Nat.ltb 0 (k_shift k).
(** key.rs:201-203 *)
Definition key_has_suffix (k : key) : bool := Nat.ltb IKEY_SIZE (key_current_len k).
(** key.rs:214-221 suffix *)
Definition key_suffix (k : key) : bytes :=
  if Nat.ltb (k_sufstart k) (length (k_data k)) then drop (k_sufstart k) (k_data k) else [].
(** key.rs:226-228 *)
Definition key_suffix_len (k : key) : nat := length (k_data k) - k_sufstart k.

Definition key_at (k : key) (n : nat) : key :=
  let offset := n * IKEY_SIZE in
  {| k_data := k_data k; k_ikey := read_ikey (k_data k) offset; k_shift := n;
     k_sufstart := Nat.min (offset + IKEY_SIZE) (length (k_data k)) |}.
(** key.rs:237-247 shift *)
Definition key_shift (k : key) : key := key_at k (k_shift k + 1).
(** key.rs:257-268 shift_by *)
Definition key_shift_by (k : key) (nbytes : nat) : key :=
  Nat.iter (nbytes / IKEY_SIZE) key_shift k.
(** key.rs:275-285 unshift (the caller guarantees shift_count > 0) *)
Definition key_unshift (k : key) : key := key_at k (k_shift k - 1).
(** key.rs:289-295 unshift_all *)
Definition key_unshift_all (k : key) : key :=
  if Nat.ltb 0 (k_shift k) then
    {| k_data := k_data k; k_ikey := read_ikey (k_data k) 0; k_shift := 0;
       k_sufstart := Nat.min IKEY_SIZE (length (k_data k)) |}
  else k.
(** key.rs:336-360 compare *)
Definition key_compare (k : key) (other_ikey : N) (keylenx : nat) : comparison :=
  match (k_ikey k ?= other_ikey)%N with
  | Eq =>
      let self_len := key_current_len k in
      if Nat.ltb IKEY_SIZE self_len then
        if Nat.leb keylenx IKEY_SIZE then Gt else Eq
      else Nat.compare self_len keylenx
  | o => o
  end.
(** key.rs:375-384 compare_ikey *)
Definition key_compare_ikey (a b : N) : comparison :=
  if (a <? b)%N then Lt else if (b <? a)%N then Gt else Eq.
