(** Specification of C65: the calls the two version words have in common, and their answers. *)
From Verif Require Import Base Prog Version SpecVersion VersionSt.

Inductive sop :=
| SLock (l : list gop)            (* lock, mark, drop the guard *)
| SMarkRoot | SMarkNonroot
| SStable | SHasChanged (old : N) | SHasSplit (old : N)
| SIsLeaf | SIsRoot | SIsDeleted.
Inductive sans := AnsUnit | AnsWord (w : N) | AnsBool (b : bool).

(** on the shared word *)
Definition run_sop (F : nat) (o : sop) : prog vmem sans :=
  match o with
  | SLock l => lv <- ver_lock vrd vwr F ;; section lv l ;;; Ret AnsUnit
  | SMarkRoot => ver_mark_root vrd vwr ;;; Ret AnsUnit
  | SMarkNonroot => ver_mark_nonroot vrd vwr ;;; Ret AnsUnit
  | SStable => v <- ver_stable vrd F ;; Ret (AnsWord v)
  | SHasChanged old => b <- ver_has_changed vrd old ;; Ret (AnsBool b)
  | SHasSplit old => b <- ver_has_split vrd old ;; Ret (AnsBool b)
  | SIsLeaf => v <- ver_load vrd ;; Ret (AnsBool (v_is_leaf v))
  | SIsRoot => v <- ver_load vrd ;; Ret (AnsBool (v_is_root v))
  | SIsDeleted => v <- ver_load vrd ;; Ret (AnsBool (v_is_deleted v))
  end.
Fixpoint run_sops (F : nat) (l : list sop) : prog vmem (list sans) :=
  match l with [] => Ret [] | o :: l => a <- run_sop F o ;; as_ <- run_sops F l ;; Ret (a :: as_) end.

(** on the word without synchronisation *)
Definition st_gop (g : gop) (w : N) : N :=
  match g with
  | GInsert => st_guard_mark_insert w
  | GSplit => st_guard_mark_split w
  | GDeleted => st_guard_mark_deleted w
  | GNonroot => st_guard_mark_nonroot w
  end.
Definition st_sop (o : sop) (w : N) : sans * N :=
  match o with
  | SLock l => (AnsUnit, st_guard_drop (fold_left (fun w g => st_gop g w) l (st_lock w)))
  | SMarkRoot => (AnsUnit, st_mark_root w)
  | SMarkNonroot => (AnsUnit, st_mark_nonroot w)
  | SStable => (AnsWord (st_stable w), w)
  | SHasChanged old => (AnsBool (st_has_changed w old), w)
  | SHasSplit old => (AnsBool (st_has_split w old), w)
  | SIsLeaf => (AnsBool (st_is_leaf w), w)
  | SIsRoot => (AnsBool (st_is_root w), w)
  | SIsDeleted => (AnsBool (st_is_deleted w), w)
  end.
Fixpoint st_sops (l : list sop) (w : N) : list sans * N :=
  match l with
  | [] => ([], w)
  | o :: l => let '(a, w) := st_sop o w in let '(as_, w) := st_sops l w in (a :: as_, w)
  end.
