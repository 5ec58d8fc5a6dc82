(** Model of src/ksearch.rs and src/ksearch/simd.rs. *)
From Verif Require Import Base Perm.

(** ** ksearch.rs *)

(** ksearch.rs:28-46 KeyIndexPosition: logical position and physical slot *)
Inductive kpos := KFound (i p : nat) | KNotFound (i : nat).

Section Search.
(** [get]: the permutation, logical position to physical slot; [cmp p]: the search key
    compared with the key in slot [p] *)
Context (get : nat -> nat) (cmp : nat -> comparison).

(** ksearch.rs:122-157 lower_bound_by.  [None]: fuel exhausted; [size] rounds suffice *)
Fixpoint lower_bound_loop (fuel l r : nat) : option kpos :=
  if Nat.ltb l r then
    match fuel with
    | 0 => None
    | S fuel =>
        let m := (l + r) / 2 in
        match cmp (get m) with
        | Lt => lower_bound_loop fuel l m
        | Eq => Some (KFound m (get m))
        | Gt => lower_bound_loop fuel (m + 1) r
        end
    end
  else Some (KNotFound l).
Definition lower_bound_by (size : nat) : option kpos := lower_bound_loop size 0 size.

(** ksearch.rs:174-206 upper_bound_by *)
Fixpoint upper_bound_loop (fuel l r : nat) : option nat :=
  if Nat.ltb l r then
    match fuel with
    | 0 => None
    | S fuel =>
        let m := (l + r) / 2 in
        match cmp (get m) with
        | Lt => upper_bound_loop fuel l m
        | Eq => Some (m + 1)
        | Gt => upper_bound_loop fuel (m + 1) r
        end
    end
  else Some l.
Definition upper_bound_by (size : nat) : option nat := upper_bound_loop size 0 size.

(** ksearch.rs:217-246 lower_bound_linear_by: positions still to visit *)
Fixpoint lower_linear_loop (size : nat) (is : list nat) : kpos :=
  match is with
  | [] => KNotFound size
  | i :: is => match cmp (get i) with
               | Lt => KNotFound i
               | Eq => KFound i (get i)
               | Gt => lower_linear_loop size is
               end
  end.
Definition lower_bound_linear_by (size : nat) : kpos := lower_linear_loop size (seq 0 size).
(** ksearch.rs:252-278 upper_bound_linear_by *)
Fixpoint upper_linear_loop (size : nat) (is : list nat) : nat :=
  match is with
  | [] => size
  | i :: is => match cmp (get i) with
               | Lt => i
               | Eq => i + 1
               | Gt => upper_linear_loop size is
               end
  end.
Definition upper_bound_linear_by (size : nat) : nat := upper_linear_loop size (seq 0 size).
End Search.

(** ksearch.rs:303-319 upper_bound_internode, through an identity permutation;
    [ik j]: the node's j-th key *)
Definition upper_bound_internode_perm (search : N) (ik : nat -> N) (size : nat) : option nat :=
  upper_bound_by (p_get (P15 15) (p15_make_sorted (P15 15) size)) (fun p => N.compare search (ik p)) size.
(** ksearch.rs:323-356 upper_bound_internode_direct; 365-393 _generic has the same body *)
Definition upper_bound_internode_direct (search : N) (ik : nat -> N) (size : nat) : option nat :=
  upper_bound_by (fun m => m) (fun m => N.compare search (ik m)) size.

(** ** simd.rs *)

(** a vector register as the list of its 64-bit lanes; a comparison yields one boolean per
    lane (all ones / all zeroes) *)
Definition cmpeq_epi64 (v : list N) (t : N) : list bool := map (fun x => (x =? t)%N) v.
(** [x as i64] *)
Definition as_i64 (x : N) : Z := if (x <? 2 ^ 63)%N then Z.of_N x else (Z.of_N x - 2 ^ 64)%Z.
(** _mm256_cmpgt_epi64 compares signed lanes *)
Definition cmpgt_epi64 (v : list N) (t : N) : list bool := map (fun x => (as_i64 t <? as_i64 x)%Z) v.
(** _mm_movemask_epi8: one bit per byte, eight bytes per lane *)
Fixpoint movemask_epi8 (v : list bool) : N :=
  match v with
  | [] => 0
  | b :: v => ((if b then 255 else 0) + N.shiftl (movemask_epi8 v) 8)%N
  end.
Definition lane_mask (i : N) : N := N.shiftl 255 (8 * i).
Definition lane_set (mask i : N) : bool := negb (N.land mask (lane_mask i) =? 0)%N.

(** simd.rs:87-94 find_exact_u64_scalar; [i]: index of the head *)
Fixpoint find_exact_scalar_from (i : nat) (ks : list N) (t : N) : option nat :=
  match ks with
  | [] => None
  | k :: ks => if (k =? t)%N then Some i else find_exact_scalar_from (i + 1) ks t
  end.
Definition find_exact_scalar (ks : list N) (t : N) : option nat := find_exact_scalar_from 0 ks t.
(** simd.rs:126-165 find_exact_u64_sse2; the remainder loop is the scalar one *)
Fixpoint find_exact_sse2_from (i : nat) (ks : list N) (t : N) : option nat :=
  match ks with
  | a :: b :: rest =>
      let mask := movemask_epi8 (cmpeq_epi64 [a; b] t) in
      if negb (mask =? 0)%N then if lane_set mask 0 then Some i else Some (i + 1)
      else find_exact_sse2_from (i + 2) rest t
  | rest => find_exact_scalar_from i rest t
  end.
Definition find_exact_sse2 (ks : list N) (t : N) : option nat := find_exact_sse2_from 0 ks t.
(** simd.rs:199-243 find_exact_u64_avx2 *)
Fixpoint find_exact_avx2_from (i : nat) (ks : list N) (t : N) : option nat :=
  match ks with
  | a :: b :: c :: d :: rest =>
      let mask := movemask_epi8 (cmpeq_epi64 [a; b; c; d] t) in
      if negb (mask =? 0)%N then
        if lane_set mask 0 then Some i
        else if lane_set mask 1 then Some (i + 1)
        else if lane_set mask 2 then Some (i + 2)
        else Some (i + 3)
      else find_exact_avx2_from (i + 4) rest t
  | rest => find_exact_scalar_from i rest t
  end.
Definition find_exact_avx2 (ks : list N) (t : N) : option nat := find_exact_avx2_from 0 ks t.

(** simd.rs:100-108 count_le_u64_scalar (and 172-177 count_le_u64_sse2) *)
Fixpoint count_le_loop (count : nat) (ks : list N) (t : N) : nat :=
  match ks with
  | [] => count
  | k :: ks => count_le_loop (if (k <=? t)%N then count + 1 else count) ks t
  end.
Definition count_le_scalar (ks : list N) (size : nat) (t : N) : nat := count_le_loop 0 (take size ks) t.
(** simd.rs:253-301 count_le_u64_avx2 ([size <= len]; otherwise it reads out of bounds) *)
Fixpoint count_le_avx2_loop (count : nat) (ks : list N) (t : N) : nat :=
  match ks with
  | a :: b :: c :: d :: rest =>
      let mask := movemask_epi8 (cmpgt_epi64 [a; b; c; d] t) in
      let le i := if lane_set mask i then 0 else 1 in
      count_le_avx2_loop (count + le 0%N + le 1%N + le 2%N + le 3%N) rest t
  | rest => count_le_loop count rest t
  end.
Definition count_le_avx2 (ks : list N) (size : nat) (t : N) : nat := count_le_avx2_loop 0 (take size ks) t.

(** [mask |= 1 << i] on u32 (the shift amount wraps modulo 32 in release builds) *)
Definition set_bit32 (mask : N) (i : nat) : N := N.lor mask (N.shiftl 1 (N.of_nat i mod 32)).
(** simd.rs:351-359 find_all_matches_u64_scalar *)
Fixpoint find_all_scalar_from (mask : N) (i : nat) (ks : list N) (t : N) : N :=
  match ks with
  | [] => mask
  | k :: ks => find_all_scalar_from (if (k =? t)%N then set_bit32 mask i else mask) (i + 1) ks t
  end.
Definition find_all_scalar (ks : list N) (len : nat) (t : N) : N :=
  find_all_scalar_from 0 0 (take (Nat.min len 32) ks) t.
(** simd.rs:373-410 find_all_matches_u64_sse2 *)
Fixpoint find_all_sse2_from (mask : N) (i : nat) (ks : list N) (t : N) : N :=
  match ks with
  | a :: b :: rest =>
      let bm := movemask_epi8 (cmpeq_epi64 [a; b] t) in
      let mask := if lane_set bm 0 then set_bit32 mask i else mask in
      let mask := if lane_set bm 1 then set_bit32 mask (i + 1) else mask in
      find_all_sse2_from mask (i + 2) rest t
  | rest => find_all_scalar_from mask i rest t
  end.
Definition find_all_sse2 (ks : list N) (len : nat) (t : N) : N := find_all_sse2_from 0 0 (take len ks) t.
(** simd.rs:420-480 find_all_matches_u64_avx2 (the remainder goes through SSE2) *)
Fixpoint find_all_avx2_from (mask : N) (i : nat) (ks : list N) (t : N) : N :=
  match ks with
  | a :: b :: c :: d :: rest =>
      let bm := movemask_epi8 (cmpeq_epi64 [a; b; c; d] t) in
      let mask := if lane_set bm 0 then set_bit32 mask i else mask in
      let mask := if lane_set bm 1 then set_bit32 mask (i + 1) else mask in
      let mask := if lane_set bm 2 then set_bit32 mask (i + 2) else mask in
      let mask := if lane_set bm 3 then set_bit32 mask (i + 3) else mask in
      find_all_avx2_from mask (i + 4) rest t
  | rest => find_all_sse2_from mask i rest t
  end.
Definition find_all_avx2 (ks : list N) (len : nat) (t : N) : N := find_all_avx2_from 0 0 (take len ks) t.
