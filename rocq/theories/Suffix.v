(** Model of src/suffix.rs.  [data] is a [Vec<u8>]: a list of bytes plus a capacity.
    [Vec::with_capacity c] is taken to give capacity exactly [c], growth follows
    [max (2*cap) needed 8] and [clone] gives capacity = length (alloc's RawVec). *)
From Verif Require Import Base.

(** suffix.rs:17-23 SlotMeta; offset is a u32, len a u16 *)
Record meta := { m_off : N; m_len : nat }.
Definition U32_MAX : N := (2 ^ 32 - 1)%N.
(** suffix.rs:27-30 EMPTY *)
Definition meta_empty : meta := {| m_off := U32_MAX; m_len := 0 |}.
(** suffix.rs:34-36 *)
Definition meta_has (m : meta) : bool := negb (m_off m =? U32_MAX)%N.

(** suffix.rs:85-91 SuffixBag *)
Record bag := mk_bag { b_slots : list meta; b_data : bytes; b_cap : nat }.

(** suffix.rs:9 INITIAL_CAPACITY *)
Definition INITIAL_CAPACITY : nat := 128.
(** suffix.rs:111-116 with_capacity, 101-106 new *)
Definition bag_with_capacity (width cap : nat) : bag :=
  {| b_slots := repeat meta_empty width; b_data := []; b_cap := cap |}.
Definition bag_new (width : nat) : bag := bag_with_capacity width INITIAL_CAPACITY.
(** suffix.rs:132-134 used, 139-141 count *)
Definition bag_used (b : bag) : nat := length (b_data b).
Definition bag_count (b : bag) : nat := length (filter (fun m => meta_has m = true) (b_slots b)).

(** suffix.rs:158-161 *)
Definition bag_has (b : bag) (slot : nat) : res bool :=
  match b_slots b !! slot with Some m => Ok (meta_has m) | None => Er Panic end.
(** suffix.rs:173-193; a slot out of range or metadata past the data panics *)
Definition bag_get (b : bag) (slot : nat) : res (option bytes) :=
  match b_slots b !! slot with
  | None => Er Panic
  | Some m =>
      if meta_has m then
        let start := N.to_nat (m_off m) in
        if Nat.leb (start + m_len m) (length (b_data b))
        then Ok (Some (take (m_len m) (drop start (b_data b))))
        else Er Panic
      else Ok None
  end.
(** suffix.rs:202-204 *)
Definition bag_get_or_empty (b : bag) (slot : nat) : res bytes :=
  res_bind (bag_get b slot) (fun o => Ok (default [] o)).

(** [Vec::extend_from_slice] *)
Definition vec_grow (cap needed : nat) : nat :=
  if Nat.leb needed cap then cap else Nat.max (2 * cap) (Nat.max needed 8).
(** [offset as u32]: truncation *)
Definition as_u32 (n : nat) : N := N.land (N.of_nat n) U32_MAX.
Definition U16_MAX : N := 65535%N.

(** suffix.rs:233-277 try_assign_in_place *)
Definition bag_try_assign (b : bag) (slot : nat) (suf : bytes) : res (bool * bag) :=
  if (U16_MAX <? N.of_nat (length suf))%N then Er Panic else
  match b_slots b !! slot with
  | None => Er Panic
  | Some m =>
      if meta_has m && Nat.leb (length suf) (m_len m) then
        let start := N.to_nat (m_off m) in
        if Nat.leb (start + length suf) (length (b_data b)) then
          Ok (true, {| b_slots := <[slot := {| m_off := m_off m; m_len := length suf |}]> (b_slots b);
                       b_data := take start (b_data b) ++ suf ++ drop (start + length suf) (b_data b);
                       b_cap := b_cap b |})
        else Er Panic
      else
        let new_offset := length (b_data b) in
        if Nat.leb (new_offset + length suf) (b_cap b) then
          Ok (true, {| b_slots := <[slot := {| m_off := as_u32 new_offset; m_len := length suf |}]> (b_slots b);
                       b_data := b_data b ++ suf;
                       b_cap := b_cap b |})
        else Ok (false, b)
  end.
(** suffix.rs:292-315 assign *)
Definition bag_assign (b : bag) (slot : nat) (suf : bytes) : res bag :=
  if (U16_MAX <? N.of_nat (length suf))%N then Er Panic else
  match b_slots b !! slot with
  | None => Er Panic
  | Some _ =>
      let offset := length (b_data b) in
      Ok {| b_slots := <[slot := {| m_off := as_u32 offset; m_len := length suf |}]> (b_slots b);
            b_data := b_data b ++ suf;
            b_cap := vec_grow (b_cap b) (offset + length suf) |}
  end.
(** suffix.rs:330-333 clear *)
Definition bag_clear (b : bag) (slot : nat) : res bag :=
  match b_slots b !! slot with
  | None => Er Panic
  | Some _ => Ok {| b_slots := <[slot := meta_empty]> (b_slots b); b_data := b_data b; b_cap := b_cap b |}
  end.

(** suffix.rs:381-409, the copy loop of compact *)
Fixpoint compact_loop (b : bag) (active : list nat) (ns : list meta) (nd : bytes) (cap : nat)
  : res bag :=
  match active with
  | [] => Ok {| b_slots := ns; b_data := nd; b_cap := cap |}
  | slot :: rest =>
      match b_slots b !! slot with
      | None => compact_loop b rest ns nd cap
      | Some m =>
          if meta_has m then
            let start := N.to_nat (m_off m) in
            if Nat.leb (start + m_len m) (length (b_data b)) then
              let suf := take (m_len m) (drop start (b_data b)) in
              compact_loop b rest (<[slot := {| m_off := as_u32 (length nd); m_len := m_len m |}]> ns)
                (nd ++ suf) (vec_grow cap (length nd + length suf))
            else Er Panic
          else compact_loop b rest ns nd cap
      end
  end.
Definition live_len (b : bag) (slot : nat) : nat :=
  match b_slots b !! slot with
  | Some m => if meta_has m then m_len m else 0
  | None => 0
  end.
Definition sum_list (l : list nat) : nat := fold_right Nat.add 0 l.
(** suffix.rs:356-415 compact: returns (bytes reclaimed, new bag) *)
Definition bag_compact (b : bag) (active : list nat) : res (nat * bag) :=
  let new_size := sum_list (map (live_len b) active) in
  let new_cap := Nat.max (N.to_nat (2 ^ N.log2_up (N.of_nat new_size))) INITIAL_CAPACITY in
  res_bind (compact_loop b active (repeat meta_empty (length (b_slots b))) [] new_cap)
    (fun b' => Ok (length (b_data b) - length (b_data b'), b')).
(** suffix.rs:430-440 compact_with_permuter: active slots of a permutation, in order *)
Definition bag_compact_with (b : bag) (active : list nat) (exclude : option nat) : res (nat * bag) :=
  bag_compact b (filter (fun s => Some s <> exclude) active).
(** suffix.rs:454-456 suffix_equals *)
Definition bag_equals (b : bag) (slot : nat) (suf : bytes) : res bool :=
  res_bind (bag_get b slot)
    (fun o => Ok (match o with Some st => bool_decide (st = suf) | None => false end)).
(** suffix.rs:466-468 suffix_compare, as "is the stored suffix equal / less / greater" *)
Fixpoint bytes_cmp (a b : bytes) : comparison :=
  match a, b with
  | [], [] => Eq
  | [], _ => Lt
  | _, [] => Gt
  | x :: a, y :: b => match (x ?= y)%N with Eq => bytes_cmp a b | o => o end
  end.
Definition bag_compare (b : bag) (slot : nat) (suf : bytes) : res (option comparison) :=
  res_bind (bag_get b slot) (fun o => Ok (option_map (fun st => bytes_cmp st suf) o)).
(** suffix.rs:478-486 clone *)
Definition bag_clone (b : bag) : bag :=
  {| b_slots := b_slots b; b_data := b_data b; b_cap := length (b_data b) |}.
