(** Model of src/leaf24/freeze.rs and src/leaf24/cas.rs: the permutation word of a leaf as it
    is shared between readers, publishers by compare-and-swap, and splits, which freeze it. *)
From Verif Require Import Base Perm Prog Version Mem Tree.

(** freeze.rs:136-150 permutation_try ([None]: frozen) *)
Definition permutation_try (p : N) : P (option N) :=
  raw <- permutation p ;;
  Ret (if is_frozen raw then None else Some raw).

(** freeze.rs:14 MAX_SPIN_ITERS *)
Definition MAX_SPIN_ITERS : nat := 16.
(** freeze.rs:173-187, the inner loop of permutation_wait *)
Fixpoint wait_spin (n : nat) (p : N) : P (option N) :=
  match n with
  | 0 => Ret None
  | S n => raw <- permutation p ;; if is_frozen raw then wait_spin n p else Ret (Some raw)
  end.
(** freeze.rs:156-199 permutation_wait *)
Fixpoint wait_loop (F n : nat) (p : N) : P N :=
  match n with
  | 0 => Fail Fuel
  | S n =>
      raw <- permutation p ;;
      if is_frozen raw then
        r <- wait_spin MAX_SPIN_ITERS p ;;
        match r with
        | Some raw => Ret raw
        | None => stable F p ;;; wait_loop F n p
        end
      else Ret raw
  end.
Definition permutation_wait (F : nat) (p : N) : P N := wait_loop F F p.

(** freeze.rs:280-315 try_freeze_permutation ([None]: AlreadyFrozen24).  [freeze_permutation]
    (freeze.rs:206-276) is defined in Tree.v. *)
Fixpoint try_freeze_loop (F : nat) (p : N) : P (option N) :=
  match F with
  | 0 => Fail Fuel
  | S F =>
      raw <- permutation p ;;
      if is_frozen raw then Ret None
      else
        ok <- cas_permutation p raw (freeze_raw raw) ;;
        if ok : bool then Ret (Some raw) else try_freeze_loop F p
  end.
Definition try_freeze_permutation (F : nat) (p : N) : P (option N) :=
  lk <- flag p v_is_locked ;;
  sp <- flag p v_is_splitting ;;
  if lk && sp then try_freeze_loop F p else Fail Panic.

(** freeze.rs:53-92 FreezeGuard24: the word from before the freeze, and whether dropping the
    guard has to put it back *)
Record fguard := mk_fg { fg_snapshot : N; fg_active : bool }.
(** freeze.rs:94-103 Drop (permutation_store_raw_release: leaf24.rs:688-690) *)
Definition fguard_drop (p : N) (g : fguard) : P unit :=
  if fg_active g then set_permutation p (fg_snapshot g) else Ret tt.
(** freeze.rs:317-338 unfreeze_set_permutation; the guard, an argument taken by value, is
    dropped at the end *)
Definition unfreeze_set_permutation (p : N) (g : fguard) (perm : N) : P unit :=
  let g := mk_fg (fg_snapshot g) false in
  set_permutation p perm ;;; fguard_drop p g.

(** cas.rs:72-82 cas_permutation_raw ([None]: done, [Some raw]: the word found instead).
    [compare_exchange] compares and writes the whole word. *)
Definition cas_permutation_raw (p expected new : N) : P (option N) :=
  leaf_up p (fun l => if (l_perm l =? expected)%N then Some (None, with_perm new l) else Some (Some (l_perm l), l)).
(** cas.rs:21-50 CasPermutationFailure24::as_permuter ([None]: frozen) *)
Definition as_permuter (raw : N) : option N := if is_frozen raw then None else Some raw.
(** cas.rs:93-108 cas_permutation, with its assertion *)
Definition cas_permutation_strict (p expected new : N) : P (option N) :=
  r <- cas_permutation_raw p expected new ;;
  match r with
  | None => Ret None
  | Some raw => if is_frozen raw then Fail Panic else Ret (Some raw)
  end.
