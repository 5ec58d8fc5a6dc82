(** Specification vocabulary for the key properties (C08, C11, C12). *)
From Verif Require Import Base Key.

(** every element is a byte *)
Definition is_bytes (l : bytes) : Prop := Forall (fun b => (b < 256)%N) l.

(** lexicographic order of byte strings ([Ord for [u8]]) *)
Fixpoint lex (a b : bytes) : comparison :=
  match a, b with
  | [], [] => Eq
  | [], _ :: _ => Lt
  | _ :: _, [] => Gt
  | x :: a, y :: b => match (x ?= y)%N with Eq => lex a b | o => o end
  end.

(** comparing two keys slice by slice with the code's [compare], descending with
    [shift] while both have a suffix; [n] bounds the number of slices *)
Fixpoint slice_order (n : nat) (a b : key) : comparison :=
  match key_compare a (k_ikey b) (key_current_len b) with
  | Eq => if key_has_suffix a && key_has_suffix b then
            match n with
            | 0 => Eq
            | S n => slice_order n (key_shift a) (key_shift b)
            end
          else Eq
  | o => o
  end.

(** navigation commands and the position they lead to, starting at position [p] of a
    key of [len] bytes; the guards are the debug assertions *)
Inductive nav := NShift | NShiftBy (q : nat) (* shift_by(8 * q) *) | NUnshift | NUnshiftAll.
Fixpoint nav_ok (len p : nat) (l : list nav) : Prop :=
  match l with
  | [] => True
  | NShift :: l => p * 8 + 8 < len /\ nav_ok len (p + 1) l
  | NShiftBy q :: l => (q = 0 \/ (p + q) * 8 < len) /\ nav_ok len (p + q) l
  | NUnshift :: l => 0 < p /\ nav_ok len (p - 1) l
  | NUnshiftAll :: l => nav_ok len 0 l
  end.
Definition nav_pos (p : nat) (l : list nav) : nat :=
  fold_left (fun p c => match c with NShift => p + 1 | NShiftBy q => p + q | NUnshift => p - 1 | NUnshiftAll => 0 end) l p.
Definition nav_apply (k : key) (l : list nav) : key :=
  fold_left (fun k c => match c with NShift => key_shift k | NShiftBy q => key_shift_by k (8 * q)
                                   | NUnshift => key_unshift k
                                   | NUnshiftAll => key_unshift_all k end) l k.

(** the [n]-th 8-byte slice of [d], zero-padded, as a big-endian number *)
Definition slice (d : bytes) (n : nat) : N :=
  be_word (take 8 (drop (n * 8) d ++ repeat 0%N 8)).
